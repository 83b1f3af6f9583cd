(** What a locked key must look like, and which passphrases a program tries. *)
From Verif Require Import Base KeyPackets KeyLock.

(** no secret value is left: for RSA the private exponent, the factors and the coefficient, otherwise the exponent *)
Definition no_secrets (k : lkey) : Prop :=
  lk_d k = None /\ lk_q k = None /\ lk_u k = None /\ lk_x k = None /\ (In (lk_alg k) [1; 2; 3] -> lk_p k = None).
Definition locked_clean (k : lkey) : Prop := lk_locked k = true /\ no_secrets k.
(** the algorithms with secret material the library knows *)
Definition known_alg (k : lkey) : Prop := In (lk_alg k) [1; 2; 3; 16; 17; 20].
(** every passphrase occurring in a program *)
Fixpoint tried (o : op) : list bytes :=
  match o with
  | Unlock p => [p]
  | With p body => p :: flat_map tried body
  | Try body => flat_map tried body
  | _ => []
  end.
(** the number of secret values each algorithm has *)
Definition enough (alg : Z) (vs : list Z) : Prop := if (alg =? 1) || (alg =? 2) || (alg =? 3) then 4 <= zlen vs else 1 <= zlen vs.
(** the fields that do not belong to the algorithm are never set *)
Definition sane (k : lkey) : Prop :=
  if is_rsa_alg (lk_alg k) then lk_x k = None else lk_d k = None /\ lk_q k = None /\ lk_u k = None.
(** Keys whose material decrypts to enough values are locked and clean, or unlocked. *)
Definition tidy (k : lkey) : Prop := sane k /\ (lk_locked k = true -> no_secrets k).
