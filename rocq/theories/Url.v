(** urllib.parse of the Python library (3.11), as the key server client uses it (pgp/keyserver/hkp.py:22-26, 115-128; pgp/keyserver/__init__.py:17, 23).
    Definitions only. URLs are texts. *)
From Verif Require Import Base Text Hkp.

(** urllib.parse.ParseResult *)
Record url := Url { scheme : text; netloc : text; upath : text; params : text; query : text; fragment : text }.
(** str.lower of a scheme, all of whose characters are ASCII *)
Definition lower_char (c : Z) : Z := if (65 <=? c) && (c <=? 90) then c + 32 else c.
Definition lower (t : text) : text := map lower_char t.
Definition is_letter (c : Z) : bool := ((65 <=? c) && (c <=? 90)) || ((97 <=? c) && (c <=? 122)).
(** scheme_chars *)
Definition scheme_char (c : Z) : bool := is_letter c || is_digit c || existsb (Z.eqb c) [43; 45; 46].
(** the characters before the first one that satisfies [p], and that one with what follows *)
Fixpoint split_first (p : Z -> bool) (t : text) : text * text :=
  match t with [] => ([], []) | c :: r => if p c then ([], t) else let (a, b) := split_first p r in (c :: a, b) end.
(** str.split(c, 1) where c occurs, the whole text and nothing otherwise *)
Definition cut (c : Z) (t : text) : text * text := let (a, b) := split_first (Z.eqb c) t in (a, match b with [] => [] | _ :: r => r end).
(** url.lstrip(control characters and space), and the removal of tab, carriage return and line feed *)
Fixpoint lstrip_c0 (t : text) : text := match t with c :: r => if c <=? 32 then lstrip_c0 r else t | [] => [] end.
Definition clean (t : text) : text := filter (fun c => negb (existsb (Z.eqb c) [9; 10; 13])) (lstrip_c0 t).
Definition is_in (s : text) (l : list text) : bool := existsb (zlist_eqb s) l.
(** uses_params, uses_relative, uses_netloc, as far as they tell the schemes of the client from others: every call after the first has a
    scheme http or https, and the first only differs in whether a parameter part is split off *)
Definition uses_params : list text := [[]; str "ftp"; str "hdl"; str "prospero"; str "http"; str "imap"; str "https"; str "shttp"; str "rtsp"; str "rtsps"; str "rtspu"; str "sip"; str "sips"; str "mms"; str "sftp"; str "tel"].
Definition uses_relative : list text := [[]; str "ftp"; str "http"; str "gopher"; str "nntp"; str "imap"; str "wais"; str "file"; str "https"; str "shttp"; str "mms"; str "prospero"; str "rtsp"; str "rtsps"; str "rtspu"; str "sftp"; str "svn"; str "svn+ssh"; str "ws"; str "wss"].
Definition uses_netloc : list text := uses_relative ++ [str "telnet"; str "snews"; str "rsync"; str "nfs"; str "git"; str "git+ssh"].
(** _splitparams: the first semicolon after the last slash *)
Definition splitparams (t : text) : text * text :=
  let (rlast, rinit) := split_first (Z.eqb 47) (rev t) in
  let (a, b) := cut 59 (rev rlast) in (rev rinit ++ a, b).

Section Url.
(** what urlsplit refuses in a host part with ValueError: brackets that do not hold an IPv6 address, and characters that normalise to delimiters *)
Variable bad_host : text -> bool.
(** urlsplit, with the scheme to assume *)
Definition urlsplit (u default : text) : res (text * text * text * text * text) :=
  let u := clean u in
  let (s, rest) := split_first (Z.eqb 58) u in
  let (sch, u) := match u, rest with
    | c :: _, _ :: rest => if is_letter c && forallb scheme_char s then (lower s, rest) else (default, u)
    | _, _ => (default, u) end in
  let (host, u) := match u with 47 :: 47 :: r => split_first (fun c => existsb (Z.eqb c) [47; 63; 35]) r | _ => ([], u) end in
  if bad_host host then Err ValueError else
  let (u, frag) := cut 35 u in
  let (u, q) := cut 63 u in
  Ok (sch, host, u, q, frag).
(** urlparse *)
Definition urlparse (u default : text) : res url :=
  do (sch, host, p, q, f) <- urlsplit u default;;
  if is_in sch uses_params && has_char 59 p then let (p, ps) := splitparams p in Ok (Url sch host p ps q f) else Ok (Url sch host p [] q f).
(** urlunparse *)
Definition urlunparse (u : url) : text :=
  let p := match params u with [] => upath u | ps => upath u ++ [59] ++ ps end in
  let two := match p with 47 :: 47 :: _ => true | _ => false end in
  let p := if negb (zlen (netloc u) =? 0) || (negb (zlen (scheme u) =? 0) && is_in (scheme u) uses_netloc) || two
           then [47; 47] ++ netloc u ++ (match p with [] => [] | c :: _ => if c =? 47 then p else 47 :: p end) else p in
  let p := match scheme u with [] => p | s => s ++ [58] ++ p end in
  let p := match query u with [] => p | q => p ++ [63] ++ q end in
  match fragment u with [] => p | f => p ++ [35] ++ f end.
(** the segments of the joined path: . and .. are resolved *)
Fixpoint resolve (done : list text) (segs : list text) : list text :=
  match segs with
  | [] => rev done
  | s :: r => if zlist_eqb s [46; 46] then resolve (match done with [] => [] | _ :: d => d end) r else if zlist_eqb s [46] then resolve done r else resolve (s :: done) r
  end.
Definition last_seg (l : list text) : text := last l [].
(** segments[1:-1] = filter(None, segments[1:-1]); there are at least two *)
Definition squeeze (segs : list text) : list text :=
  match segs with
  | a :: r => match r with [] => segs | _ => a :: filter (fun s => negb (zlen s =? 0)) (removelast r) ++ [last_seg r] end
  | [] => []
  end.
(** urljoin *)
Definition urljoin (base u : text) : res text :=
  match base, u with
  | [], _ => Ok u
  | _, [] => Ok base
  | _, _ =>
    do b <- urlparse base [];;
    do v <- urlparse u (scheme b);;
    if negb (zlist_eqb (scheme v) (scheme b)) || negb (is_in (scheme v) uses_relative) then Ok u
    else if is_in (scheme v) uses_netloc && negb (zlen (netloc v) =? 0) then Ok (urlunparse v)
    else
      let host := if is_in (scheme v) uses_netloc then netloc b else netloc v in
      if (zlen (upath v) =? 0) && (zlen (params v) =? 0) then
        Ok (urlunparse (Url (scheme v) host (upath b) (params b) (if zlen (query v) =? 0 then query b else query v) (fragment v)))
      else
        let parts := split_on 47 (upath b) in
        let parts := if zlen (last_seg parts) =? 0 then parts else removelast parts in
        let segs := match upath v with 47 :: _ => split_on 47 (upath v) | _ => squeeze (parts ++ split_on 47 (upath v)) end in
        let out := resolve [] segs in
        let out := if is_in (last_seg segs) [[46]; [46; 46]] then out ++ [[]] else out in
        let path := match join [47] out with [] => [47] | p => p end in
        Ok (urlunparse (Url (scheme v) host path (params v) (query v) (fragment v)))
  end.
End Url.
