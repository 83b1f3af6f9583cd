(** The key objects of pgp/transferrable_keys.py as what keyrings (Keyring.v) store and build: pgp/db/gpg.py:332-397 calls key.fingerprint
    (transferrable_keys.py:340-342), key.to_packets(header_format) (1049-1066) and from_packets. Definitions only. *)
From Verif Require Import Base Utils Framing Text Armor S2k SessionKeys KeyPackets SigPackets DataPackets UserAttr Packets TransKey Keyring Shortcuts.

Section Keys.
Variables (mktime : Z -> res Z) (fl : Z -> Z) (md5 sha1 : bytes -> bytes) (rec : seckey -> res bytes).
(** transferrable_keys.py:340-342: the fingerprint of the key's packet; utils.py:890-913 hashes public_content, so a
    secret key has the fingerprint of its public part *)
Definition key_fingerprint (k : tkey) : res text :=
  do p <- key_to mktime false (tk_key k);;
  match p_body p with BPub _ q => fingerprint fl md5 sha1 q | BSec _ q => fingerprint fl md5 sha1 (s_pub q) | _ => Err AttributeError end.
(** to_packets(header_format), with None each part in its own format *)
Definition in_format (h : option header_format) (p : pkt) : pkt := match h with Some h => refmt h p | None => p end.
Definition key_octets (k : tkey) (h : option header_format) : res bytes :=
  do ps <- to_packets mktime k;; do bs <- mapM (pkt_bytes fl rec) (map (in_format h) ps);; Ok (concat bs).
Definition key_object (k : tkey) : kobj := KObj (Some (tk_secret k)) (key_fingerprint k) (key_octets k).
End Keys.
