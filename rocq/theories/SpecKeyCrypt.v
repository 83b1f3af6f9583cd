(** Specification for C105: which secret belongs to which public values, and the keys of a key block. Definitions only. *)
From Verif Require Import Base Spec Utils SessionKeys KeyPackets KeyOps TransKey.

(** the primary key and the subkeys *)
Definition keys_in (q : tkey) : list kobject := tk_key q :: map fst (tk_subs q).
(** RSA: modulus, public and secret exponent *)
Definition rsa_pair (k : pubkey) (n e d : Z) : Prop :=
  In (k_alg k) [1; 3] /\ k_n k = Some n /\ k_e k = Some e /\ 1 < n /\ 0 < e /\ 0 < d /\ forall m, 0 <= m < n -> (m ^ e mod n) ^ d mod n = m.
(** an ElGamal key for encryption; [inv] is the modular inverse *)
Definition elgamal_key (inv : Z -> Z -> Z) (k : pubkey) (p g y : Z) : Prop :=
  k_alg k = 16 /\ k_p k = Some p /\ k_g k = Some g /\ k_y k = Some y /\ 1 < p /\ inv 1 p = 1.
(** a modulus with room for the padded session key: [size] octets *)
Definition room (fl : Z -> Z) (size : Z) (ps sk : bytes) : Prop :=
  zlen sk + 14 <= size <= 8191 /\ (forall i, 0 < i < 256 ^ size -> fl i = Z.log2 i) /\ size <= zlen ps /\ wf ps /\ Forall (fun x => x <> 0) ps.
(** PKCS #1 v1.5 (RFC 3447 7.2.1): 00 02 PS 00 M in [size] octets, PS without zeros and of eight octets or more, taken from the random octets [rand] *)
Definition rfc_pkcs1 (size : Z) (rand m em : bytes) : Prop :=
  exists ps rest, rand = ps ++ rest /\ em = [0; 2] ++ ps ++ [0] ++ m /\ Forall (fun x => x <> 0) ps /\ 8 <= zlen ps /\ zlen em = size.
