(** What binds a signature to the data it was made for: the octets of RFC 4880 5.2.4 and the hash of them. *)
From Verif Require Import Base Spec S2k KeyPackets SigPackets Signable SpecSigned KeyOps.

(** RFC 4880 5.2.2: the ASN.1 prefixes of the hash functions (SHA-224 as corrected by erratum 2270) *)
Definition rfc_oid (ha : Z) : bytes :=
  if ha =? 1 then [0x30; 0x20; 0x30; 0x0C; 0x06; 0x08; 0x2A; 0x86; 0x48; 0x86; 0xF7; 0x0D; 0x02; 0x05; 0x05; 0x00; 0x04; 0x10]
  else if ha =? 2 then [0x30; 0x21; 0x30; 0x09; 0x06; 0x05; 0x2B; 0x0E; 0x03; 0x02; 0x1A; 0x05; 0x00; 0x04; 0x14]
  else if ha =? 3 then [0x30; 0x21; 0x30; 0x09; 0x06; 0x05; 0x2B; 0x24; 0x03; 0x02; 0x01; 0x05; 0x00; 0x04; 0x14]
  else if ha =? 8 then [0x30; 0x31; 0x30; 0x0D; 0x06; 0x09; 0x60; 0x86; 0x48; 0x01; 0x65; 0x03; 0x04; 0x02; 0x01; 0x05; 0x00; 0x04; 0x20]
  else if ha =? 9 then [0x30; 0x41; 0x30; 0x0D; 0x06; 0x09; 0x60; 0x86; 0x48; 0x01; 0x65; 0x03; 0x04; 0x02; 0x02; 0x05; 0x00; 0x04; 0x30]
  else if ha =? 10 then [0x30; 0x51; 0x30; 0x0D; 0x06; 0x09; 0x60; 0x86; 0x48; 0x01; 0x65; 0x03; 0x04; 0x02; 0x03; 0x05; 0x00; 0x04; 0x40]
  else if ha =? 11 then [0x30; 0x2D; 0x30; 0x0D; 0x06; 0x09; 0x60; 0x86; 0x48; 0x01; 0x65; 0x03; 0x04; 0x02; 0x04; 0x05; 0x00; 0x04; 0x1C]
  else [].
(** prefix and digest tell which hash function was used *)
Definition tells_hashes (H : Z -> bytes -> bytes) (oid : Z -> bytes) : Prop :=
  forall ha ha' d d', hash_lengths ha <> None -> hash_lengths ha' <> None -> oid ha ++ H ha d = oid ha' ++ H ha' d' -> ha = ha'.
(** what a version 4 signature is over, when it is taken for a signature of [c] *)
Definition signed_octets (fl : Z -> Z) (s : sigobj) (c : covered) (o : bytes) : Prop :=
  exists hashed, subs_bytes fl (so_hashed s) = Ok hashed /\ o = rfc_v4_octets (so_type s) (so_pk s) (so_hash s) hashed c.
(** the signature object of version 4 with these subpackets instead of its own *)
Definition with_subpackets (s : sigobj) (hashed unhashed : list subpkt) : sigobj := SigObj (so_version s) (so_type s) (so_pk s) (so_hash s) (so_hash2 s) (so_values s) hashed unhashed.
(** the hashed subpackets fit their length field *)
Definition short_area (fl : Z -> Z) (s : sigobj) : Prop := forall h, subs_bytes fl (so_hashed s) = Ok h -> zlen h < 65536.
