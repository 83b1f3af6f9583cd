(** What may be remembered, seen from outside: the calls made and their results. *)
From Coq Require Import String.
From Verif Require Import Base Text Pinentry.
Open Scope Z_scope.

(** the id under which a call caches, if it does: not None, the placeholder X or empty, and caching is on *)
Definition caches_under (q : request) (k : text) : Prop := q_use_cache q = true /\ q_cache_id q = Some k /\ k <> [] /\ k <> str "X".
(** [known l k p]: in the calls [l] (oldest first) the last that concerns the id k returned p, and it was not to forget it *)
Inductive known : list (call * res text) -> text -> text -> Prop :=
| known_got l q k p : caches_under q k -> known (l ++ [(Get q, Ok p)]) k p
| known_failed l q e k p : known l k p -> known (l ++ [(Get q, Err e)]) k p
| known_other l q r k p : ~ caches_under q k -> known l k p -> known (l ++ [(Get q, Ok r)]) k p
| known_clear l j r k p : j <> k -> known l k p -> known (l ++ [(Clear j, r)]) k p.
(** one round of typing: a passphrase and n confirmations that are not all the same *)
Definition mistyped (n : nat) (round : list text) : Prop := exists p cs, round = p :: cs /\ List.length cs = n /\ Exists (fun x => x <> p) cs.
