(** Model of the rest of GPGDatabase (pgp/db/gpg.py:509-609): the order of the resources, and the search. Definitions only. *)
From Verif Require Import Base Text Packets Keyring.

(** 581-585 register_resource: setdefault, then move_to_end(last=False) *)
Definition names (d : db) : list text := map fst d.
Definition has_name (d : db) (n : text) : bool := existsb (zlist_eqb n) (names d).
Definition set_default (d : db) (n : text) (r : ring) : db := if has_name d n then d else d ++ [(n, r)].
Definition to_front (d : db) (n : text) : db := filter (fun x => zlist_eqb n (fst x)) d ++ filter (fun x => negb (zlist_eqb n (fst x))) d.
Definition register_resource (d : db) (n : text) (r : ring) (primary : bool) : db := let d := set_default d n r in if primary then to_front d n else d.

Section Search.
Variables (K : Type) (build : bool -> list pkt -> res K).
(** str.lower, and the user_id texts of the user ids of a key *)
Variables (lower : text -> text) (uids : K -> list text).
(** 307-308 keys: the keys of a dictionary in the order in which they came first *)
Fixpoint first_seen (l : list text) : list text := match l with [] => [] | x :: l => x :: filter (fun y => negb (zlist_eqb y x)) (first_seen l) end.
Definition ring_keys (r : ring) : list text := first_seen (rev (map fst (r_table r))).
(** 568-574 _matches_user_id *)
Definition matches_user_id (k : K) (u : text) : bool := existsb (fun x => is_sub (lower u) (lower x)) (uids k).
(** 165-167 values, and the loop over it in search (604-608). None.lower() fails as soon as a key has a user id. *)
Fixpoint each_key (r : ring) (ids : list text) (u : option text) : res (list K) :=
  match ids with
  | [] => Ok []
  | i :: ids =>
      do k <- get K build r i;;
      match u with
      | Some u => do l <- each_key r ids (Some u);; Ok (if matches_user_id k u then k :: l else l)
      | None => match uids k with [] => each_key r ids None | _ => Err AttributeError end
      end
  end.
(** Python's truth of an optional text, and x or y *)
Definition truthy (t : option text) : option text := match t with Some (c :: l) => Some (c :: l) | _ => None end.
Definition or_else (a b : option text) : option text := match truthy a with Some x => Some x | None => truthy b end.
Fixpoint search_in (d : db) (f u : option text) : res (list K) :=
  match d with
  | [] => Ok []
  | (_, r) :: d =>
      match f with
      | Some f' =>
          match get K build r f' with
          | Err KeyError => search_in d f u
          | Err e => Err e
          | Ok k => do l <- search_in d f u;; Ok (match u with Some u => if matches_user_id k u then k :: l else l | None => k :: l end)
          end
      | None => do a <- each_key r (ring_keys r) u;; do l <- search_in d f u;; Ok (a ++ l)
      end
  end.
(** 587-609 search *)
Definition search (d : db) (fingerprint key_id user_id : option text) : res (list K) :=
  match fingerprint, key_id, user_id with None, None, None => Ok [] | _, _, _ => search_in d (or_else fingerprint key_id) user_id end.
End Search.
