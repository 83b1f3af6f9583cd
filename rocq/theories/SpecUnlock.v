(** C119: RFC 4880 5.5.3, a version 4 secret key whose numbers are protected by a passphrase, SHA-1 and CFB (string-to-key usage 254). *)
From Verif Require Import Base Spec SpecUtf8 SpecKey SpecS2k SpecCfb SpecCert SpecVerify Utils Text S2k KeyPackets KeyLock KeyOps.

(** 3.7.1: the specifier as octets; the cipher is not part of it *)
Inductive s2k_octets : s2k -> bytes -> Prop :=
| so_simple h sym : byte h -> s2k_octets (SimpleS2K h sym) [0; h]
| so_salted h sym salt : byte h -> wf salt -> zlen salt = 8 -> s2k_octets (SaltedS2K h sym salt) ([1; h] ++ salt)
| so_iterated h sym salt c : byte h -> wf salt -> zlen salt = 8 -> byte c -> s2k_octets (IteratedS2K h sym salt ((16 + c mod 16) * 2 ^ (c / 16 + 6))) ([3; h] ++ salt ++ [c]).
(** the session key from the passphrase: as many hash contexts as the cipher's key needs *)
Definition passphrase_key (H : Z -> bytes -> bytes) (s : s2k) (pass : bytes) (key : bytes) : Prop := exists hl req n,
  rfc_hash_length (s2k_hash s) = Some hl /\ rfc_key_length (s2k_sym s) = Some req /\ req <= hl * Z.of_nat n /\ key = rfc_key (H (s2k_hash s)) (rfc_input s pass) n req.
(** the body: the public part [kb], usage 254, cipher, specifier, IV, and the numbers with their SHA-1, encrypted *)
Definition protected_body (E : Z -> bytes -> bytes -> bytes) (H : Z -> bytes -> bytes) (sha1 : bytes -> bytes) (kb : bytes) (s : s2k) (pass : text) (numbers : list Z) (body : bytes) : Prop :=
  exists sb bs iv key encs, s2k_octets s sb /\ rfc_block_length (s2k_sym s) = Some bs /\ zlen iv = bs /\ wf iv /\ passphrase_key H s (utf8 pass) key /\ Forall2 readable_mpi numbers encs /\
  body = kb ++ [254; s2k_sym s] ++ sb ++ iv ++ rfc_cfb_enc (E (s2k_sym s) key) (Z.to_nat bs) iv (concat encs ++ sha1 (concat encs)).
(** what an implementation of the primitives promises: digest sizes, block sizes *)
Definition primitives (E : Z -> bytes -> bytes -> bytes) (H : Z -> bytes -> bytes) (sha1 : bytes -> bytes) : Prop :=
  (forall d, zlen (sha1 d) = 20 /\ wf (sha1 d)) /\ (forall a n, rfc_hash_length a = Some n -> forall d, zlen (H a d) = n) /\
  (forall sym key bs x, rfc_block_length sym = Some bs -> zlen x = bs -> wf x -> zlen (E sym key x) = bs /\ wf (E sym key x)).
(** the numbers of each algorithm, and the object that holds them, open: d, p, q, u for RSA, one exponent for DSA and ElGamal *)
Inductive holds_numbers : Z -> list Z -> lkey -> Prop :=
| hn_rsa alg d p q u : In alg [1; 2; 3] -> holds_numbers alg [d; p; q; u] (LKey alg (Some d) (Some p) (Some q) (Some u) None false)
| hn_one alg x prime : In alg [16; 17; 20] -> holds_numbers alg [x] (LKey alg None prime None None (Some x) false).
(** the secret exponent that an open object signs with *)
Inductive signs_with : lkey -> secret -> Prop :=
| sw_rsa alg d p q u x : In alg [1; 3] -> signs_with (LKey alg (Some d) p q u x false) (SRsa d)
| sw_dsa d p q u x : signs_with (LKey 17 d p q u (Some x) false) (SDsa x).
