(** Specification for C112: a key as its packets described it, and what stays the same whatever a program does afterwards. *)
From Verif Require Import Base Text Lifetime.

(** the list [l] holds these items ([exact]) or begins with them *)
Definition list_is (exact : bool) (h : heap) (l : ref) (k : lkind) (items : list ref) : Prop :=
  exists more, nth_error h l = Some (OList k (items ++ more)) /\ (exact = true -> more = []).
(** ... signatures on [t], with these issuers *)
Definition sigs_as (exact : bool) (h : heap) (l t : ref) (sigs : list (list text)) : Prop :=
  exists items, list_is exact h l Sigs items /\ Forall2 (fun x is => nth_error h x = Some (OSig is t)) items sigs.
(** ... parts with this content, each with its signatures *)
Definition parts_as (exact : bool) (h : heap) (l : ref) (k : lkind) (mk : text -> ref -> obj) (ps : list (text * list (list text))) : Prop :=
  exists items, list_is exact h l k items /\
    Forall2 (fun x p => exists sl, nth_error h x = Some (mk (fst p) sl) /\ sigs_as exact h sl x (snd p)) items ps.
(** the key [k] is (or begins with) what [d] says, and each of its parts names [k] as its primary key *)
Definition as_read (exact : bool) (h : heap) (k : ref) (secret : bool) (d : desc) : Prop :=
  exists s u a c, nth_error h k = Some (OKey secret (d_id d) s u a c) /\ sigs_as exact h s k (d_sigs d) /\
    parts_as exact h u Users (fun t sl => OUser t k sl) (d_users d) /\ parts_as exact h a Users (fun t sl => OUser t k sl) (d_attrs d) /\
    parts_as exact h c Subs (fun t sl => OSub secret t k sl) (d_subs d).
(** some variable of the program holds it *)
Definition held (st : state) (x : ref) : Prop := exists v, vars st v = Some x.
Definition is_part (o : obj) : bool := match o with OSub _ _ _ _ | OUser _ _ _ => true | _ => false end.
(** [x] is in a list of parts of [k]; [s] is in the list of signatures of [x] *)
Definition listed_in (h : heap) (k x : ref) : Prop := exists l, holds h k l /\ holds h l x /\ exists o, nth_error h x = Some o /\ is_part o = true.
Definition signed_by (h : heap) (x s : ref) : Prop := exists l, holds h x l /\ holds h l s /\ exists is t, nth_error h s = Some (OSig is t).
(** what RFC 4880 5.2.4 has hashed for a user id or a subkey: the primary key, then the part (a secret subkey repeats the primary key, see C52) *)
Definition covers (id : text) (o : obj) : list text := match o with OUser t _ _ => [id; t] | OSub false i _ _ => [id; i] | OSub true i _ _ => [id; id; i] | _ => [] end.
(** the user ids of a key, as the program sees them *)
Definition user_ids (h : heap) (k : ref) : option (list ref) :=
  match nth_error h k with Some (OKey _ _ _ u _ _) => match nth_error h u with Some (OList _ it) => Some it | _ => None end | _ => None end.
(** [i] is the key id of [k] or of one of the subkeys in its list *)
Definition key_or_subkey_id (h : heap) (k : ref) (i : text) : Prop :=
  (exists b s u a c, nth_error h k = Some (OKey b i s u a c)) \/
  (exists b i0 s u a c x b' p s', nth_error h k = Some (OKey b i0 s u a c) /\ holds h c x /\ nth_error h x = Some (OSub b' i p s')).
