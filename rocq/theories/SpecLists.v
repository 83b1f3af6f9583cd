(** What an assignment of a list-valued signature attribute is about: objects that are the same when their octets are the same. *)
From Verif Require Import Base Text SigPackets SigAttrs SigLists.
Section S.
Variable A : Type.
Variable octets : A -> res bytes.
Definition writable (x : A) : Prop := exists b, octets x = Ok b.
(** an object with the same octets is in the list *)
Definition listed (x : A) (l : list A) : Prop := exists y, In y l /\ octets y = octets x.
(** an enumeration of set(a) | set(b): elements of both, one for every octet string *)
Definition set_union (a b order : list A) : Prop :=
  incl order (a ++ b) /\ (forall x, In x (a ++ b) -> listed x order) /\ NoDup (map octets order).
End S.
Arguments writable {A}. Arguments listed {A}. Arguments set_union {A}.
(** the subpackets of the other types are the same, in the same lists and order *)
Definition others_same (ty : Z) (s s' : sigobj) : Prop :=
  filter (fun o => negb (so_type o =? ty)) (so_hashed s') = filter (fun o => negb (so_type o =? ty)) (so_hashed s) /\
  filter (fun o => negb (so_type o =? ty)) (so_unhashed s') = filter (fun o => negb (so_type o =? ty)) (so_unhashed s).
(** the patterns that the signature holds fit into a subpacket *)
Definition short_patterns (h u : list subpkt) : Prop := Forall (fun x => match sub_body x with SbRegex p => zlen p < 4294967295 | _ => True end) (h ++ u).
