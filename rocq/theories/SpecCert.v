(** C115: the octets of a version 4 certificate (RFC 4880 11.1) and what its self-signatures say. *)
From Verif Require Import Base Spec SpecUtf8 SpecKey SpecFraming SpecSig SpecSubValue Framing FramingProofs Text KeyPackets SigPackets SigAttrs SelfSig.

(** the body of a packet and the bodies of the signature packets after it *)
Definition part : Type := bytes * list bytes.
Record cert := Cert { ct_primary : part; ct_uids : list part; ct_attrs : list part; ct_subs : list part }.
Definition part_packets (tag : Z) (p : part) : list (Z * bytes) := (tag, fst p) :: map (fun s => (2, s)) (snd p).
Definition cert_packets (c : cert) : list (Z * bytes) :=
  part_packets 6 (ct_primary c) ++ flat_map (part_packets 13) (ct_uids c) ++ flat_map (part_packets 17) (ct_attrs c) ++ flat_map (part_packets 14) (ct_subs c).
(** its octets: every packet with a header of either format, of any form of length *)
Definition cert_octets (c : cert) (octets : bytes) : Prop := exists ps, rfc_packets ps octets /\ map (fun r => (ptype r, pcontent r)) ps = cert_packets c.
(** a version 4 key body with its numbers written in the canonical way *)
Definition key_body (fl : Z -> Z) (b : bytes) (k : pubkey) : Prop :=
  exists ct alg ms encs, 0 <= ct < 2 ^ 32 /\ rfc_key 4 ct alg None ms = Some k /\ Forall2 rfc_mpi ms encs /\ b = rfc_pub_body 4 ct alg None encs /\
    Forall (fun i => bit_length i <= 65535 /\ (0 < i -> fl i = Z.log2 i)) ms.
(** 12.2: the key id, the last eight octets of the fingerprint *)
Definition rfc_key_id (sha1 : bytes -> bytes) (b : bytes) : bytes := skipn 12 (sha1 ([153; (zlen b / 256) mod 256; zlen b mod 256] ++ b)).
Definition cert_ids (sha1 : bytes -> bytes) (c : cert) : list bytes := map (rfc_key_id sha1) (map fst (ct_primary c :: ct_subs c)).

(** where a signature is found, and 5.2.1: the types of its self-signatures and revocations there *)
Inductive place := OnKey | OnUserId (n : nat) | OnAttribute (n : nat) | OnSubkey (n : nat).
Definition bodies_at (c : cert) (p : place) : option (list bytes) :=
  option_map snd (match p with OnKey => Some (ct_primary c) | OnUserId n => nth_error (ct_uids c) n | OnAttribute n => nth_error (ct_attrs c) n | OnSubkey n => nth_error (ct_subs c) n end).
Definition types_at (p : place) (revocation : bool) : list Z :=
  match p, revocation with
  | OnKey, false => [31] | OnKey, true => [32] | OnSubkey _, false => [24] | OnSubkey _, true => [40] | _, false => [16; 17; 18; 19] | _, true => [48]
  end.
Definition has_type (data : bytes) (ty : Z) : Prop := exists r, data = 4 :: ty :: r.
(** it names one of these key ids as its issuer *)
Definition issued_by (ids : list bytes) (ts : list triple) : Prop := exists d, In d (all_of 16 ts) /\ In d ids.
(** a version 4 signature with these subpackets whose creation time can be told *)
Definition dated_signature (local : Z -> res Z) (data : bytes) (ts : list triple) : Prop :=
  exists h u d c, ts = h ++ u /\ holds_subpackets data h u /\ first_of 2 ts d /\ local (be_val d) = Ok c.
Definition self_signature (ids : list bytes) (types : list Z) (data : bytes) (ts : list triple) : Prop :=
  issued_by ids ts /\ exists ty, has_type data ty /\ In ty types.
(** the attribute of a part that reports a property of a signature, and whether of a revocation *)
Definition told (n : kname) : option (prop * bool) :=
  match n with
  | K_compression => Some (P_preferred_compression, false) | K_hash => Some (P_preferred_hash, false) | K_symmetric => Some (P_preferred_symmetric, false)
  | K_no_modify => Some (P_no_modify, false) | K_key_server => Some (P_preferred_key_server, false) | K_primary_user_id => Some (P_primary_user_id, false)
  | K_policy_uri => Some (P_policy_uri, false) | K_certify => Some (P_certify, false) | K_sign => Some (P_sign, false) | K_comms => Some (P_comms, false)
  | K_split => Some (P_split, false) | K_owners => Some (P_owners, false) | K_revocation_code => Some (P_revocation_code, true)
  | _ => None
  end.
(** what is reported where no self-signature says anything *)
Definition unsaid (n : kname) : value := match n with K_compression | K_hash | K_symmetric => VList [] | _ => VNone end.
(** the clock is taken back to the number it was read from *)
Definition clock_back (local mktime : Z -> res Z) : Prop := forall t c, 0 <= t < 2 ^ 32 -> local t = Ok c -> mktime c = Ok t.
