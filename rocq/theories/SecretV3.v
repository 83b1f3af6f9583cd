(** pgp/packets/packets.py: the secret material of version 2 and 3 keys, and SecretKeyPacket.decrypt. Definitions only. *)
From Verif Require Import Base Utils S2k Cipher SymCipher KeyPackets.

(** packets.py:1011-1031 and 1033-1061, versions 2 and 3. utils.get_symmetric_cipher returns a PyCrypto BlockAlgo for every algorithm (the wrapper of
    pgp/cipher/wrapper.py:52-56, or the classes of aidea, twofish and camellia), which has encrypt and decrypt but no sync: line 1025 is an
    AttributeError for any octet of material. Without material: with a checksum, expected_checksum (1037-1041 assign it from version 4 on) is read
    before it is bound; with a hash, the slice of the last 20 octets is empty and is no SHA-1. *)
Definition decrypt_portion_v3 (sha1 : bytes -> bytes) (key : option bytes) (sym : Z) (iv data : bytes) (checksum hash : bool) : res (list Z) :=
  do _ <- get_cfb_cipher sym key iv;;
  match data with
  | _ :: _ => Err AttributeError
  | [] =>
      if checksum then Err UnboundLocalError else
      if hash then if negb (zlist_eqb [] (sha1 [])) then Err ValueError else Ok [] else Ok []
  end.
(** packets.py:995-1061 decrypt_encrypted_key_portion *)
Definition decrypt_portion (E : Z -> bytes -> bytes -> bytes) (sha1 : bytes -> bytes) (version : Z) (key : option bytes) (sym : Z)
    (iv data : bytes) (checksum hash : bool) : res (list Z) :=
  if 4 <=? version then decrypt_portion_v4 E sha1 key sym iv data checksum hash
  else if (version =? 2) || (version =? 3) then decrypt_portion_v3 sha1 key sym iv data checksum hash
  else Err ValueError.
(** the attributes decrypt sets: exponent_d, prime_p, prime_q, multiplicative_inverse_u, or exponent_x *)
Inductive secrets := RsaSecrets (d p q u : Z) | OneSecret (x : Z).
(** packets.py:933-952 decrypt; [to_key] is s2k_specification.to_key(passphrase) *)
Definition packet_decrypt (E : Z -> bytes -> bytes -> bytes) (sha1 : bytes -> bytes) (to_key : res (option bytes)) (k : seckey) : res secrets :=
  do key <- to_key;;
  do vs <- decrypt_portion E sha1 (k_version (s_pub k)) key (s_sym k) (s_iv k) (s_enc k) (s_checksum k) (s_hash k);;
  let alg := k_alg (s_pub k) in
  if is_rsa_alg alg then match vs with d :: p :: q :: u :: _ => Ok (RsaSecrets d p q u) | _ => Err IndexError end
  else if (alg =? 16) || (alg =? 17) || (alg =? 20) then match vs with x :: _ => Ok (OneSecret x) | [] => Err IndexError end
  else Err ValueError.
(** packets.py:955-993 encrypt_key_values for versions 2 and 3: as above for the first value; [opened] is the creation of the cipher. The length of the
    first value, 973-977, is computed before the call that fails. *)
Definition encrypt_key_values_v3 (fl : Z -> Z) (opened : res unit) (values : list Z) : res bytes :=
  do _ <- opened;;
  do _ <- key_values_data fl values;;
  match values with
  | [] => Ok []
  | v :: _ => Err AttributeError
  end.
