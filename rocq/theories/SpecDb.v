(** Specification of what a search over keyring files finds. *)
From Verif Require Import Base Text Packets Keyring SpecRing.

(** the elements with a property, in order *)
Inductive selects {A} (P : A -> Prop) : list A -> list A -> Prop :=
| sel_nil : selects P [] []
| sel_yes x l l' : P x -> selects P l l' -> selects P (x :: l) (x :: l')
| sel_no x l l' : ~ P x -> selects P l l' -> selects P (x :: l) l'.
(** a key with a user id that contains the text, in whatever case the letters are *)
Definition has_uid {K} (lower : text -> text) (uids : K -> list text) (u : text) (k : K) : Prop := exists x a b, In x (uids k) /\ lower x = a ++ lower u ++ b.
(** the newest key under an id, if there is one *)
Definition under (id : text) (es : list entry) : list entry := match newest id es with Some e => [e] | None => [] end.
(** the ids of a file, each once, in order; the newest key under each *)
Inductive once : list text -> list text -> Prop :=
| once_nil : once [] []
| once_new x l l' : ~ In x l -> once l l' -> once (l ++ [x]) (l' ++ [x])
| once_old x l l' : In x l -> once l l' -> once (l ++ [x]) l'.
Definition newest_each (es : list entry) (r : list entry) : Prop := exists ids, once (map e_id es) ids /\ r = flat_map (fun id => under id es) ids.
(** resources and the keys in their files, from each of which the object [obj] can be made *)
Definition holds {K} (fl : Z -> Z) (md5 sha1 : bytes -> bytes) (build : bool -> list pkt -> res K) (obj : entry -> K) (d : db) (ess : list (list entry)) : Prop :=
  Forall2 (fun x es => rep fl md5 sha1 (snd x) es /\ Forall (fun e => make build e = Ok (obj e)) es) d ess.
Definition meets {K} (lower : text -> text) (uids : K -> list text) (u : option text) (k : K) : Prop := match u with Some u => has_uid lower uids u k | None => True end.
(** the resource with a name *)
Definition resource (d : db) (n : text) (r : ring) : Prop := In (n, r) d.
