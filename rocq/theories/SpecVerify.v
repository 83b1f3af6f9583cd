(** What it means that the integers of a signature are valid for a digest: PKCS #1 v1.5 (RFC 3447 8.2.2) and FIPS 186 4.7. *)
From Verif Require Import Base Spec KeyPackets SigPackets KeyOps.

(** the number of octets of a modulus *)
Definition octets_of (n k : Z) : Prop := 256 ^ (k - 1) <= n < 256 ^ k /\ 0 < k.
(** 00 01 FF..FF 00 T, in k octets with at least eight FF *)
Definition rfc_em (k : Z) (t em : bytes) : Prop :=
  exists ps, em = [0; 1] ++ ps ++ [0] ++ t /\ Forall (eq 255) ps /\ 8 <= zlen ps /\ zlen em = k.
Inductive pk_valid (oid : Z -> bytes) (k : pubkey) (ha : Z) (digest : bytes) : list Z -> Prop :=
| valid_rsa n e kb em s rest : In (k_alg k) [1; 3] -> k_n k = Some n -> k_e k = Some e -> octets_of n kb ->
    rfc_em kb (oid ha ++ digest) em -> s ^ e mod n = be_val em -> pk_valid oid k ha digest (s :: rest)
| valid_dsa p q g y qb w r s : k_alg k = 17 -> k_p k = Some p -> k_q k = Some q -> k_g k = Some g -> k_y k = Some y ->
    octets_of q qb -> 0 < r < q -> 0 < s < q -> (s * w) mod q = 1 ->
    (g ^ ((be_val (firstn (Z.to_nat qb) digest) * w) mod q) * y ^ ((r * w) mod q)) mod p mod q = r ->
    pk_valid oid k ha digest [r; s].
(** the issuers a version 4 signature names, hashed or not *)
Definition names_issuer (hashed unhashed : list subpkt) (kid : list Z) : Prop :=
  exists c, In (Sub 16 c (SbIssuer kid)) (hashed ++ unhashed).
(** a matching pair of public and secret values *)
Inductive keypair (k : pubkey) : secret -> Prop :=
| pair_rsa n e d : In (k_alg k) [1; 3] -> k_n k = Some n -> k_e k = Some e ->
    (forall m, 0 <= m < n -> (m ^ d mod n) ^ e mod n = m) -> keypair k (SRsa d)
| pair_dsa p q g x : k_alg k = 17 -> k_p k = Some p -> k_q k = Some q -> k_g k = Some g -> k_y k = Some (g ^ x mod p) ->
    g ^ q mod p = 1 -> 0 <= x -> keypair k (SDsa x).
(** the signatures the library accepts among the valid ones: an RSA integer without leading zero octets *)
Definition full_size (k : pubkey) (values : list Z) : Prop :=
  match values, k_n k with
  | s :: _, Some n => k_alg k = 17 \/ exists kb, octets_of n kb /\ octets_of s kb
  | _, _ => True
  end.

(** Assumptions about the number functions: proper moduli, [inv] is the modular inverse for the DSA group order, and the
    floating-point logarithm [fl] of that order is exact. *)
Definition library_numbers (fl : Z -> Z) (inv : Z -> Z -> Z) (k : pubkey) : Prop :=
  (forall n, k_n k = Some n -> 1 < n) /\ (forall p, k_p k = Some p -> 1 < p) /\
  (forall q, k_q k = Some q -> 1 < q /\ fl q = Z.log2 q /\ forall a, 0 < a < q -> (a * inv a q) mod q = 1).
(** Assumptions about the hash functions: octets, and at least one. [oid]: the DER prefixes of PKCS #1. *)
Definition library_hashes (H : Z -> bytes -> bytes) (oid : Z -> bytes) : Prop :=
  (forall ha, wf (oid ha)) /\ (forall ha d, wf (H ha d)) /\ (forall ha d, H ha d <> []).
