(** Model of the three properties of a UserID (pgp/transferrable_keys.py:715-745) and of email.utils.formataddr, which they call.
    Definitions only. The state is the string self.user_id. *)
From Verif Require Import Base Text UserId.

(** CPython Lib/email/utils.py, specialsre: square brackets, backslash, parentheses, angle brackets, at, comma, colon, semicolon, double quote, dot *)
Definition addr_specials : text := [93; 91; 92; 40; 41; 60; 62; 64; 44; 58; 59; 34; 46].
Definition is_ascii (t : text) : bool := forallb (fun c => c <? 128) t.
(** escapesre.sub: a backslash before each backslash and double quote *)
Definition escape (name : text) : text := flat_map (fun c => if in_set c [92; 34] then [92; c] else [c]) name.
Section S.
(** Charset('utf8').header_encode, for names that are not ASCII *)
Variable header_encode : text -> text.
(** CPython Lib/email/utils.py, formataddr((name, address), 'utf8') *)
Definition formataddr (name address : text) : res text :=
  if negb (is_ascii address) then Err UnicodeError
  else match name with
       | [] => Ok address
       | _ => if negb (is_ascii name) then Ok (header_encode name ++ [32; 60] ++ address ++ [62])
              else let quotes := if existsb (fun c => in_set c addr_specials) name then [34] else [] in
                   Ok (quotes ++ escape name ++ quotes ++ [32; 60] ++ address ++ [62])
       end.
(** 715-719 _make_user_id *)
Definition make_user_id (name emailaddr comment : text) : res text :=
  do result <- formataddr name emailaddr;;
  Ok (match comment with [] => result | _ => result ++ [32; 40] ++ comment ++ [41] end).
Variable quote : text -> text.
Variables cd gd : nat.
(** 721-722, 730-731, 739-740: the getters *)
Definition user_name (user_id : text) : res text := do (n, _, _) <- parse_user_id quote cd gd user_id;; Ok n.
Definition user_email (user_id : text) : res text := do (_, e, _) <- parse_user_id quote cd gd user_id;; Ok e.
Definition user_comment (user_id : text) : res text := do (_, _, c) <- parse_user_id quote cd gd user_id;; Ok c.
(** 724-726, 733-735, 742-744: the setters; the result is the new self.user_id *)
Definition set_user_name (user_id name : text) : res text :=
  do e <- user_email user_id;; do c <- user_comment user_id;; make_user_id name e c.
Definition set_user_email (user_id email : text) : res text :=
  do n <- user_name user_id;; do c <- user_comment user_id;; make_user_id n email c.
Definition set_user_comment (user_id comment : text) : res text :=
  do n <- user_name user_id;; do e <- user_email user_id;; make_user_id n e comment.
End S.
