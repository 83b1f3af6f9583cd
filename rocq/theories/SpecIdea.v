(** The IDEA block cipher as published (Lai and Massey): 16-bit words, three group operations, 8 rounds and an
    output transformation; subkeys are successive 16-bit slices of the key, rotated left by 25 bits every eight. *)
From Verif Require Import Base.

(** multiplication modulo 65537, where the word 0 stands for 65536 *)
Definition rep (x : Z) : Z := if x =? 0 then 65536 else x.
Definition imul (a b : Z) : Z := ((rep a * rep b) mod 65537) mod 65536.
Definition iadd (a b : Z) : Z := (a + b) mod 65536.
Definition words := (Z * Z * Z * Z)%type.

Definition key_layer (k0 k1 k2 k3 : Z) (s : words) : words :=
  let '(x1, x2, x3, x4) := s in (imul x1 k0, iadd x2 k1, iadd x3 k2, imul x4 k3).
Definition ma_layer (k4 k5 : Z) (s : words) : words :=
  let '(x1, x2, x3, x4) := s in
  let p := imul (Z.lxor x1 x3) k4 in
  let q := imul (iadd p (Z.lxor x2 x4)) k5 in
  let r := iadd p q in
  (Z.lxor x1 q, Z.lxor x2 r, Z.lxor x3 q, Z.lxor x4 r).
Definition swap_mid (s : words) : words := let '(x1, x2, x3, x4) := s in (x1, x3, x2, x4).
(** the subkeys are [k 0], [k 1], ..., [k 51] *)
Definition idea_round (k : nat -> Z) (r : nat) (s : words) : words :=
  swap_mid (ma_layer (k (6 * r + 4)%nat) (k (6 * r + 5)%nat)
    (key_layer (k (6 * r)%nat) (k (6 * r + 1)%nat) (k (6 * r + 2)%nat) (k (6 * r + 3)%nat) s)).
Definition idea_words (k : nat -> Z) (s : words) : words :=
  key_layer (k 48%nat) (k 49%nat) (k 50%nat) (k 51%nat) (swap_mid (fold_left (fun s r => idea_round k r s) (seq 0 8) s)).

(** key schedule *)
Definition rotl25 (v : Z) : Z := (v * 2 ^ 25) mod 2 ^ 128 + v / 2 ^ 103.
Fixpoint rotl (n : nat) (v : Z) : Z := match n with O => v | S n' => rotl25 (rotl n' v) end.
Definition idea_subkey (key : Z) (i : nat) : Z := (rotl (i / 8) key / 2 ^ (112 - 16 * Z.of_nat (i mod 8))) mod 65536.

Definition word_be (a b : Z) : Z := 256 * a + b.
Definition word_octets (w : Z) : bytes := [w / 256; w mod 256].
Definition octets_of (s : words) : bytes :=
  let '(x1, x2, x3, x4) := s in word_octets x1 ++ word_octets x2 ++ word_octets x3 ++ word_octets x4.
Definition words_of (b : bytes) : option words :=
  match b with
  | [a; b; c; d; e; f; g; h] => Some (word_be a b, word_be c d, word_be e f, word_be g h)
  | _ => None
  end.
