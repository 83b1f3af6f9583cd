(** C114: what a key says about itself, by RFC 4880 12.2 and by the number of bits of its size. *)
From Verif Require Import Base Spec SpecKey KeyPackets.
(** n has b bits *)
Definition has_bits (n b : Z) : Prop := 0 < b /\ 2 ^ (b - 1) <= n < 2 ^ b.
(** c is the mathematical ceiling of the binary logarithm of n: what the floating point computation should give *)
Definition ceiling_log (n c : Z) : Prop := n <= 2 ^ c /\ (0 < c -> 2 ^ (c - 1) < n) /\ 0 <= c.
Definition power_of_two (n : Z) : Prop := exists j, 0 <= j /\ n = 2 ^ j.
(** 12.2: the low-order 64 bits of a number, as eight octets *)
Definition low64 (n : Z) : bytes := map (fun i => (n / 256 ^ i) mod 256) [7; 6; 5; 4; 3; 2; 1; 0].
