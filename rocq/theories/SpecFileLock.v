(** Specification: who is in the critical section, and what the callers promise. *)
From Verif Require Import Base Text FileLock.

(** A thread is between a successful acquire and the release. *)
Definition inside (s : st) (t o : nat) : Prop := (0 < s_hold s t o)%nat.
(** The callers' side: each object is used by one thread only, which does not call acquire again before release, and no process that uses the
    keyring comes to its end (it may crash). *)
Definition plain (user : nat -> nat) (s : st) (e : event) : Prop :=
  match e with
  | Acquire t o _ => t = user o /\ ~ inside s t o
  | Release t o => t = user o
  | Exit _ _ => False
  | _ => True
  end.
(** the schedules in which every event is allowed *)
Inductive path (cf : config) (ok : st -> event -> Prop) : st -> list (event * seen) -> st -> Prop :=
| path_nil s : path cf ok s [] s
| path_snoc s l s1 e x s2 : path cf ok s l s1 -> ok s1 e -> step cf s1 e = Some (s2, x) -> path cf ok s (l ++ [(e, x)]) s2.
(** process identities are as on real machines: ten digits at most, node names without blanks around them *)
Definition clean (n : text) : Prop := strip (n ++ NL) = n.
Definition sound_config (cf : config) : Prop := forall p, 0 <= c_pid cf p < 10 ^ 10 /\ clean (c_node cf p).
