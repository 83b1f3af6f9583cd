(** Model of pgp/keyserver/hkp.py: reading a machine readable index. Definitions only. Characters are code points; a datetime
    is the instant it was made from. *)
From Verif Require Import Base Text.

(** str.split(sep) for a one-character separator (CPython) *)
Fixpoint split_char (sep : Z) (acc : text) (l : text) : list text :=
  match l with
  | [] => [rev acc]
  | c :: t => if c =? sep then rev acc :: split_char sep [] t else split_char sep (c :: acc) t
  end.
Definition split_on (sep : Z) (l : text) : list text := split_char sep [] l.
(** 29-35 _add_colons *)
Definition add_colons (line : text) (number : Z) : text :=
  line ++ repeat 58 (Z.to_nat (number - zlen (filter (fun c => c =? 58) line))).
(** 37-63 HKPUserIdResult, 66-104 HKPResult *)
Record uidres := UidRes { u_id : text; u_created : Z; u_expires : option Z; u_revoked : bool; u_disabled : bool; u_expired : bool }.
Record keyres := KeyRes { h_key_id : text; h_alg : Z; h_bits : Z; h_created : Z; h_expires : option Z;
                          h_revoked : bool; h_disabled : bool; h_expired : bool; h_uids : list uidres }.
Definition has_char (c : Z) (l : text) : bool := existsb (Z.eqb c) l.
Section Hkp.
(** int(str), urllib.parse.unquote, datetime.fromtimestamp *)
Variables (py_int : text -> res Z) (unquote : text -> text) (fromtimestamp : Z -> res Z).
(** 56-59, 97-100: [if expires:] *)
Definition opt_time (t : text) : res (option Z) :=
  match t with [] => Ok None | _ => do i <- py_int t;; do d <- fromtimestamp i;; Ok (Some d) end.
(** 51-63: unpacking into five names is a ValueError for any other number of fields *)
Definition parse_uid_line (l : text) : res uidres :=
  match split_on 58 (add_colons l 4) with
  | [_; uid; created; expires; flags] =>
      do c <- py_int created;; do c <- fromtimestamp c;; do e <- opt_time expires;;
      Ok (UidRes (unquote uid) c e (has_char 114 flags) (has_char 100 flags) (has_char 101 flags))
  | _ => Err ValueError
  end.
(** 85-101 and 78-83 *)
Definition parse_result (l : text) (uid_lines : list text) : res keyres :=
  match split_on 58 (add_colons l 6) with
  | [_; key_id; alg; bits; created; expires; flags] =>
      do a <- py_int alg;; do b <- py_int bits;; do c <- py_int created;; do c <- fromtimestamp c;; do e <- opt_time expires;;
      do us <- mapM parse_uid_line uid_lines;;
      Ok (KeyRes key_id a b c e (has_char 114 flags) (has_char 100 flags) (has_char 101 flags) us)
  | _ => Err ValueError
  end.
(** 140-155: the loop, with the pending pub line (false when None) and its uid lines. A pub line is never the empty string. *)
Fixpoint mr_loop (pub : option text) (uids : list text) (results : list keyres) (lines : list text) : res (list keyres) :=
  match lines with
  | [] => match pub with Some p => do r <- parse_result p uids;; Ok (results ++ [r]) | None => Ok results end
  | line :: rest =>
      if starts_with (str "pub") line then
        match pub with
        | Some p => do r <- parse_result p uids;; mr_loop (Some line) [] (results ++ [r]) rest
        | None => mr_loop (Some line) [] results rest
        end
      else if starts_with (str "uid") line then mr_loop pub (uids ++ [line]) results rest
      else mr_loop pub uids results rest
  end.
(** 128-155 _read_mr *)
Definition read_mr (data : text) : res (list keyres) :=
  let lines := splitlines data in
  do info <- get lines 0;;
  do _ <- (if starts_with (str "info:") info then
             match split_on 58 info with [_; _; _] => Ok tt | _ => Err ValueError end
           else Ok tt);;
  mr_loop None [] [] lines.
End Hkp.
