(** RFC 4880 5.2.4: what a signature of each type covers, and the octets that are hashed. *)
From Verif Require Import Base Spec Utils KeyPackets SigPackets Signable.

(** What is signed. Keys, user ids, user attributes and signatures are given by their packet bodies. *)
Inductive covered :=
| Document (d : bytes)             (* text signatures: the canonical text *)
| Standalone
| Key (k : bytes)
| Subkey (primary k : bytes)
| Uid (primary d : bytes)
| Uattr (primary d : bytes)
| Sig (d : bytes).

(** 5.2.1: the types of signature that cover each of them (0x40 as in RFC 1991, a signature of a signature) *)
Definition fits (st : Z) (c : covered) : Prop :=
  match c with
  | Document _ => In st [0x00; 0x01]
  | Standalone => st = 0x02
  | Key _ => In st [0x1F; 0x20]
  | Subkey _ _ => In st [0x18; 0x19; 0x28]
  | Uid _ _ | Uattr _ _ => In st [0x10; 0x11; 0x12; 0x13; 0x30]
  | Sig _ => In st [0x40; 0x50]
  end.
(** the number of octets fits the length fields the RFC uses *)
Definition sized (c : covered) : Prop :=
  match c with
  | Document _ | Standalone => True
  | Key k => zlen k < 65536
  | Subkey p k => zlen p < 65536 /\ zlen k < 65536
  | Uid p d | Uattr p d => zlen p < 65536 /\ zlen d < 2 ^ 32
  | Sig d => zlen d < 2 ^ 32
  end.

(** "the octet 0x99, followed by a two-octet length of the key, and then the body of the key packet" *)
Definition rfc_hash_key (k : bytes) : bytes := [0x99] ++ be_bytes 2 (zlen k) ++ k.
(** "A V3 certification hashes the contents of the User ID or attribute packet packet, without any header. A V4
    certification hashes the constant 0xB4 for User ID certifications or the constant 0xD1 for User Attribute
    certifications, followed by a four-octet number giving the length of the data"; "the octet 0x88, followed by the
    four-octet length of the signature, and then the body" *)
Definition rfc_covered (version : Z) (c : covered) : bytes :=
  match c with
  | Document d => d
  | Standalone => []
  | Key k => rfc_hash_key k
  | Subkey p k => rfc_hash_key p ++ rfc_hash_key k
  | Uid p d => rfc_hash_key p ++ (if version =? 3 then [] else [0xB4] ++ be_bytes 4 (zlen d)) ++ d
  | Uattr p d => rfc_hash_key p ++ (if version =? 3 then [] else [0xD1] ++ be_bytes 4 (zlen d)) ++ d
  | Sig d => [0x88] ++ be_bytes 4 (zlen d) ++ d
  end.
(** V3: "the signature type and creation time"; V4: "the signature version number ... through the end of the hashed
    subpacket data", then "a two-octet version number and 0xFF, a four-octet big-endian number that is the length of the
    hashed data from the Signature packet" *)
Definition rfc_v3_octets (st ctime : Z) (c : covered) : bytes := rfc_covered 3 c ++ [st] ++ be_bytes 4 ctime.
Definition rfc_v4_octets (st pk_alg hash_alg : Z) (hashed : bytes) (c : covered) : bytes :=
  rfc_covered 4 c ++ ([4; st; pk_alg; hash_alg] ++ be_bytes 2 (zlen hashed) ++ hashed) ++
  [4; 0xFF] ++ be_bytes 4 (zlen ([4; st; pk_alg; hash_alg] ++ be_bytes 2 (zlen hashed) ++ hashed)).

(** How a caller passes each of them to the library: packet type, packet body, public key body. *)
Definition call_of (c : covered) : Z * bytes * option bytes :=
  match c with
  | Document d => (11, d, None)
  | Standalone => (2, [], None)
  | Key k => (6, k, Some k)
  | Subkey p k => (14, k, Some p)
  | Uid p d => (13, d, Some p)
  | Uattr p d => (17, d, Some p)
  | Sig d => (2, d, None)
  end.
(** the data of a user attribute packet and of a user id packet are hashed alike in version 3 *)
Definition same_user_data (a b : covered) : Prop :=
  match a, b with
  | Uid p d, Uid p' d' | Uid p d, Uattr p' d' | Uattr p d, Uid p' d' | Uattr p d, Uattr p' d' => p = p' /\ d = d'
  | _, _ => a = b
  end.

(** The packet bodies that stand for an object: what a signature over the object is expected to cover. *)
Definition covers (fl : Z -> Z) (i : item) (c : covered) : Prop :=
  match i with
  | IBytes d => c = Document d
  | IPublic k | ISecret k => exists b, pub_content fl k = Ok b /\ c = Key b
  | IPublicSub p k => exists a b, pub_content fl p = Ok a /\ pub_content fl k = Ok b /\ c = Subkey a b
  | ISecretSub _ _ => False
  | IUserId p d => exists a, pub_content fl p = Ok a /\ c = Uid a d
  | IUserAttr p d => exists a, pub_content fl p = Ok a /\ c = Uattr a d
  end.
