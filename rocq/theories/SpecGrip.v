(** What a keygrip is to depend on: the kind of key and its public numbers, in order. *)
From Verif Require Import Base Spec KeyPackets.
Inductive material (k : pubkey) : Z -> list (option Z) -> Prop :=
| mat_rsa : In (k_alg k) [1; 2; 3] -> material k 1 [k_n k; k_e k]
| mat_dsa : k_alg k = 17 -> material k 17 [k_p k; k_q k; k_g k; k_y k]
| mat_elg : In (k_alg k) [16; 20] -> material k 16 [k_p k; k_g k; k_y k].
Definition numbers_ok (l : list (option Z)) : Prop := Forall (fun o => match o with Some n => 0 <= n | None => True end) l.
(** the octets of a number, unsigned or signed: no needless zero in front *)
Definition octets_of_number (d : bytes) (n : Z) : Prop :=
  wf d /\ be_val d = n /\ match d with 0 :: r => match r with x :: _ => 128 <= x | [] => False end | [] => False | _ => True end.
