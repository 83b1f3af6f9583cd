(** Model of get_content_for_signature_hash of the packet classes (pgp/packets/packets.py). Definitions only. *)
From Verif Require Import Base Utils Framing Text Utf8 Armor S2k SessionKeys KeyPackets SigPackets DataPackets UserAttr Packets.

(** packets.py:492-523 SignaturePacket. From version 4 on the loop reads self.subpackets, an attribute signature packets do not
    have, after four octets have been appended. *)
Definition sig_hash_content (s : sigpkt) : res bytes :=
  match s with
  | SigV4 v st pk ha _ _ _ _ => do _ <- mk_bytes [v; st; pk; ha];; Err AttributeError
  | SigV3 _ st _ _ _ _ ctime _ =>
      do t <- mk_bytes [st];;
      let d := t ++ int_to_4byte ctime in
      Ok ([136] ++ int_to_2byte (zlen d) ++ d)
  end.
(** packets.py:808-813 (public key packets; the secret key classes inherit it, so that self.content is the secret content),
    1386-1394, 1464-1471, 118-119 (all other classes) *)
Definition pkt_hash_content (fl : Z -> Z) (rec : seckey -> res bytes) (p : pkt) (signature_version : Z) : res bytes :=
  match p_body p with
  | BSig s => sig_hash_content s
  | BPub _ _ | BSec _ _ => do c <- body_content fl rec (p_body p);; Ok (hash_key c)
  | BData (PUserId u) => Ok (userid_hash_content u signature_version)
  | BAttr l => do c <- attrs_content l;; Ok ((if 4 <=? signature_version then [209] ++ int_to_4byte (zlen c) else []) ++ c)
  | _ => body_content fl rec (p_body p)
  end.
