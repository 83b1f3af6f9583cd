(** C118: a version 4 signature as another program may have written it, and when it is valid (RFC 4880 5.2.3, 5.2.4). *)
From Verif Require Import Base Spec SpecUtf8 SpecKey SpecFraming SpecSig SpecSigned SpecVerify SpecCert SpecData Utils Text Framing FramingProofs KeyPackets SigPackets DataPackets Message.

(** its fields; the areas as lists of (type, critical, content), and the octets of the hashed area *)
Record sig4 := Sig4 { s4_type : Z; s4_pk : Z; s4_hash : Z; s4_hashed : list triple; s4_area : bytes; s4_unhashed : list triple; s4_left : bytes; s4_values : list Z }.
Definition sig4_octets (s : sig4) (data : bytes) : Prop := exists es1 es2 encs, s4_area s = concat es1 /\ rfc_area (s4_hashed s) es1 /\ rfc_area (s4_unhashed s) es2 /\
  Forall2 readable_mpi (s4_values s) encs /\ rfc_sig4 (s4_type s) (s4_pk s) (s4_hash s) (concat es1) (concat es2) (s4_left s) encs data.
(** an issuer subpacket (type 16) with this key id, in either area *)
Definition names_key (s : sig4) (id : bytes) : Prop := exists c, In (16, c, id) (s4_hashed s ++ s4_unhashed s).
(** what is hashed when it covers [c] *)
Definition hashed_octets4 (s : sig4) (c : covered) : bytes := rfc_v4_octets (s4_type s) (s4_pk s) (s4_hash s) (s4_area s) c.
(** a valid signature over [c] by the key [k], whose packet body is [kb] *)
Definition valid_signature (sha1 : bytes -> bytes) (H : Z -> bytes -> bytes) (oid : Z -> bytes) (k : pubkey) (kb : bytes) (s : sig4) (c : covered) : Prop :=
  names_key s (rfc_key_id sha1 kb) /\ k_alg k = s4_pk s /\ firstn 2 (H (s4_hash s) (hashed_octets4 s c)) = s4_left s /\
  pk_valid oid k (s4_hash s) (H (s4_hash s) (hashed_octets4 s c)) (s4_values s).
(** subpackets that come back as they were written (C33): a content its class keeps, and the shortest form of length *)
Definition kept_sub (fl : Z -> Z) (t : triple) : Prop := stable_sub (fun d => exists s, sig_from_content d = Ok s /\ sig_content fl s = Ok d) (fst (fst t)) (snd t).
Definition shortest_sub (t : triple) (e : bytes) : Prop := forall e', rfc_sub (fst (fst t)) (snd (fst t)) (snd t) e' -> zlen e <= zlen e'.
Definition kept_area (fl : Z -> Z) (s : sig4) : Prop := Forall (kept_sub fl) (s4_hashed s) /\
  exists es, s4_area s = concat es /\ rfc_area (s4_hashed s) es /\ Forall2 shortest_sub (s4_hashed s) es.

(** A one-pass signed message (11.3): one-pass packets, a literal packet and signature packets, with headers of any form. *)
Definition signed_message_octets (ops : list bytes) (literal : bytes) (sigs : list bytes) (octets : bytes) : Prop := exists ps, rfc_packets ps octets /\
  map (fun r => (ptype r, pcontent r)) ps = map (fun d => (4, d)) ops ++ [(11, literal)] ++ map (fun d => (2, d)) sigs.
(** the message that a literal packet of this format, with these contents, is; the contents are UTF-8 text in format u, and ASCII in format t *)
Inductive document_message (f : Z) (c : bytes) (name : text) (date : Z) : message -> Prop :=
| dm_binary : f <> 116 -> f <> 117 -> document_message f c name date (MBinary (LBytes c) name date)
| dm_utf8 s : f = 117 -> Forall scalar s -> c = utf8 s -> document_message f c name date (MText (LText s) name date)
| dm_ascii : f = 116 -> Forall (fun x => 0 <= x < 128) c -> document_message f c name date (MText (LText c) name date).
(** a literal packet body with a name of at most 255 octets *)
Definition literal_octets (f : Z) (name : text) (date : Z) (c literal : bytes) : Prop := byte f /\ Forall scalar name /\ zlen (utf8 name) <= 255 /\ wf c /\ rfc_literal f (utf8 name) date c literal.
