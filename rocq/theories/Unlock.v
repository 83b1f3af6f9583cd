(** Model of unlocking a key object with a passphrase: pgp/transferrable_keys.py:570-579 (BaseSecretKey.unlock), on the attributes that
    _init_args_from_packet (438-445) takes over from the packet unchanged. Definitions only. *)
From Verif Require Import Base Utils Text Utf8 S2k SymCipher KeyPackets SecretV3 KeyLock.

(** 571-579: the key from the passphrase, and the values decrypt_encrypted_key_portion returns. Without a specifier the key is the passphrase itself,
    a text, which no cipher takes: TypeError. No object read from a packet is without one (packets.py 850-905: [sec_from_content] always sets one). *)
Definition unlock_values (E : Z -> bytes -> bytes -> bytes) (H : Z -> bytes -> bytes) (sha1 : bytes -> bytes) (p : seckey) (pass : text) : res (list Z) :=
  match s_s2k p with
  | Some s =>
      do b <- utf8_encode pass;;
      do key <- to_key H s b;;
      decrypt_portion E sha1 (k_version (s_pub p)) key (s_sym p) (s_iv p) (s_enc p) (s_checksum p) (s_hash p)
  | None => Err TypeError
  end.
(** 414-446 the object made from the packet, locked; see [fresh] *)
Definition fresh_key (p : seckey) : lkey := fresh (k_alg (s_pub p)) (k_p (s_pub p)).
(** 570-595 unlock *)
Definition unlock_key (E : Z -> bytes -> bytes -> bytes) (H : Z -> bytes -> bytes) (sha1 : bytes -> bytes) (p : seckey) (pass : text) (k : lkey) : lkey * option exn :=
  unlock1 (unlock_values E H sha1 p pass) k.
(** 1097-1100 TransferableSecretKey.unlock: the primary key, then the subkeys in order, until one raises *)
Fixpoint unlock_keys (E : Z -> bytes -> bytes -> bytes) (H : Z -> bytes -> bytes) (sha1 : bytes -> bytes) (pass : text) (ps : list seckey) (ks : list lkey) : list lkey * option exn :=
  match ps, ks with
  | p :: ps, k :: ks =>
      match unlock_key E H sha1 p pass k with
      | (k', Some e) => (k' :: ks, Some e)
      | (k', None) => let '(ks', e) := unlock_keys E H sha1 pass ps ks in (k' :: ks', e)
      end
  | _, _ => (ks, None)
  end.
