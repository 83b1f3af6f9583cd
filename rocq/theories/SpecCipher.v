(** NIST SP 800-38A: the chaining modes as recurrences over blocks, and what "decryption inverts encryption" needs
    of the block cipher. Independent of the loops of the implementation. *)
From Verif Require Import Base Cipher.

Definition block_cipher (bs : Z) (E D : bytes -> bytes) : Prop :=
  forall b, wf b -> zlen b = bs -> (wf (E b) /\ zlen (E b) = bs) /\ D (E b) = b.

(** C_j = E(P_j) *)
Definition ecb_spec (E : bytes -> bytes) (ps : list bytes) : list bytes := map E ps.
(** C_j = E(P_j xor C_(j-1)), C_0 = IV *)
Fixpoint cbc_spec (E : bytes -> bytes) (iv : bytes) (ps : list bytes) : list bytes :=
  match ps with
  | [] => []
  | p :: t => let c := E (xor_bytes p iv) in c :: cbc_spec E c t
  end.
(** C_j = P_j xor MSB_s(E(I_j)), I_(j+1) = LSB_(b-s)(I_j) | C_j, segments of [s] octets *)
Fixpoint cfb_spec (E : bytes -> bytes) (s : nat) (reg : bytes) (ps : list bytes) : list bytes :=
  match ps with
  | [] => []
  | p :: t => let c := xor_bytes p (firstn s (E reg)) in c :: cfb_spec E s (skipn s reg ++ c) t
  end.
(** O_j = E(O_(j-1)), O_0 = IV *)
Fixpoint ofb_blocks (E : bytes -> bytes) (iv : bytes) (n : nat) : list bytes :=
  match n with
  | O => []
  | S n' => E iv :: ofb_blocks E (E iv) n'
  end.
(** O_j = E(T_j) *)
Definition ctr_blocks (E : bytes -> bytes) (ctr : nat -> bytes) (n : nat) : list bytes :=
  map (fun k => E (ctr k)) (seq 0 n).

(** The lengths a single call accepts. *)
Definition valid_len (o : cobj) (n : Z) : Prop :=
  if (c_mode o =? MODE_ECB) || (c_mode o =? MODE_CBC) then n mod c_bs o = 0
  else if c_mode o =? MODE_CFB then n mod (c_seg o / 8) = 0
  else True.
