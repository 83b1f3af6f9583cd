(** Model of pgp/keyserver/__init__.py and of the requests of pgp/keyserver/hkp.py:107-184. Definitions only. *)
From Verif Require Import Base Utils Framing Text Armor S2k SessionKeys KeyPackets SigPackets DataPackets UserAttr Packets Message TransKey Shortcuts Hkp Url.

(** requests.get(url, params=...) and requests.post(url, data=...): the names and values, in the order written *)
Record request := Request { rq_post : bool; rq_url : text; rq_fields : list (text * text) }.
(** the server's answer: whether raise_for_status raises, response.content and response.text *)
Record response := Response { rp_error : bool; rp_content : bytes; rp_text : text }.
(** requests.exceptions.HTTPError *)
Definition HTTPError : exn := PgpError 90.
(** 107-118: a client is its base_url *)
Section Client.
Variable bad_host : text -> bool.
(** 115-120 HKPKeyserverClient.__init__ *)
Definition hkp_client (u : text) : res text :=
  do p <- urlparse bad_host u [];;
  Ok (urlunparse (Url (if zlist_eqb (lower (scheme p)) (str "hkps") then str "https" else str "http") (netloc p) (upath p) (params p) (query p) (fragment p))).
(** keyserver/__init__.py:22-25 get_keyserver: None for other schemes *)
Definition get_keyserver (u : text) : res (option text) :=
  do p <- urlparse bad_host u [];;
  if is_in (lower (scheme p)) [str "hkp"; str "hkps"; str "http"; str "https"] then do c <- hkp_client u;; Ok (Some c) else Ok None.
(** 122-128 *)
Definition get_url (base : text) : res text := urljoin bad_host base (str "pks/lookup").
Definition submit_url (base : text) : res text := urljoin bad_host base (str "pks/add").

(** What an operation does: the requests it sends, in order, and its result. [net] is the network: the answer to each request, or the exception
    of the requests library. *)
Variable net : request -> res response.
Definition outcome (A : Type) : Type := (list request * res A)%type.
Definition send {A} (rq : res request) (k : response -> res A) : outcome A :=
  match rq with
  | Err e => ([], Err e)
  | Ok rq => ([rq], do r <- net rq;; if rp_error r then Err HTTPError else k r)
  end.
Definition yes_no (b : bool) : text := if b then str "yes" else str "no".
Section Keys.
Variables (local mktime : Z -> res Z) (magic : bytes -> text) (fl : Z -> Z) (rec : seckey -> res bytes).
(** 157-165 get; the key id is a str *)
Definition hkp_get (base key_id : text) (exact : bool) : outcome tkey :=
  send (do u <- get_url base;; Ok (Request false u [(str "op", str "get"); (str "search", str "0x" ++ key_id); (str "options", str "mr"); (str "exact", yes_no exact)]))
       (fun r => read_key local magic (InBytes (rp_content r)) true).
(** 103-104 HKPResult.get *)
Definition result_get (base : text) (r : keyres) : outcome tkey := hkp_get base (h_key_id r) false.
(** 177-184 submit: no version or other armor header; to_packets() without a header format keeps each object's own *)
Definition hkp_submit (base : text) (k : tkey) (no_modify : bool) : outcome unit :=
  send (do ps <- to_packets mktime k;; do bs <- mapM (pkt_bytes fl rec) ps;;
        do t <- armor_str (Armor PGP_PUBLIC_KEY_BLOCK (concat bs) None None None None None None None None);;
        do u <- submit_url base;;
        Ok (Request true u [(str "keytext", t); (str "options", if no_modify then str "mr,nm" else str "mr")]))
       (fun _ => Ok tt).
End Keys.
(** 167-175 search *)
Definition hkp_search (py_int : text -> res Z) (unquote : text -> text) (fromtimestamp : Z -> res Z) (base terms : text) (exact : bool) : outcome (list keyres) :=
  send (do u <- get_url base;; Ok (Request false u [(str "op", str "index"); (str "options", str "mr"); (str "search", terms); (str "exact", yes_no exact)]))
       (fun r => read_mr py_int unquote fromtimestamp (rp_text r)).
End Client.
