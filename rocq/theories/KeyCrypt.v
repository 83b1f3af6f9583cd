(** Model of encrypting a session key to a key object and decrypting it with one: pgp/message.py:334-365 (PublicKeySessionKey),
    pgp/transferrable_keys.py:363-386, 478-509 (_get_key_obj), pgp/packets/packets.py:194-233, 253-289. Definitions only. *)
From Verif Require Import Base Utils Text S2k SessionKeys KeyPackets SigPackets Signable KeyOps PubMsg.

Section KeyCrypt.
Variables (fl : Z -> Z) (md5 sha1 : bytes -> bytes) (inv : Z -> Z -> Z).
(** what the cipher objects for algorithms 17 and 20 do (not modelled) *)
Variables (other_enc : pubkey -> bytes -> res (list bytes)) (other_dec : pubkey -> Z -> list bytes -> res (option bytes)).
(** message.py:360-365 with packets.py:256-261: the cipher of the key object. [ps] are the random octets PKCS #1 padding takes. *)
Definition key_encrypt (ps : bytes) (k : pubkey) : res (bytes -> res (list bytes)) :=
  do _ <- key_obj_ok k;;
  if (k_alg k =? 1) || (k_alg k =? 3) then
    match k_n k, k_e k with Some n, Some e => Ok (rsa_encrypt (nbytes n) (fun m => Zpow_mod m e n) ps) | _, _ => Err TypeError end
  else if k_alg k =? 16 then
    match k_p k, k_g k, k_y k with Some p, Some g, Some y => Ok (elg_encrypt (ElgPub p g y) ps) | _, _, _ => Err TypeError end
  else Ok (other_enc k).
(** message.py:341-343: algorithm and key id (transferrable_keys.py:325-338) of the key *)
Definition key_recipient (ps : bytes) (k : pubkey) : res recipient :=
  do id <- obj_key_id fl md5 sha1 k;; Ok (Recip (k_alg k) id (key_encrypt ps k)).
(** message.py:350-358 with packets.py:194-212: the cipher over the unlocked secret key, by the algorithm [alg] the packet names. A key object of
    another kind has no attribute n or p. PyCrypto's ElGamal decryption: b * inverse(a ^ x) mod p. *)
Definition key_decrypt (k : pubkey) (sec : secret) (alg : Z) : list bytes -> res (option bytes) :=
  if (alg =? 1) || (alg =? 2) || (alg =? 3) then
    match k_n k, sec with Some n, SRsa d => rsa_decrypt (nbytes n) (fun c => Zpow_mod c d n) | _, _ => fun _ => Err AttributeError end
  else if alg =? 16 then
    match k_p k, k_g k, k_y k, sec with
    | Some p, Some g, Some y, SElg x => elg_decrypt (ElgPub p g y) (fun c => (snd c * inv (Zpow_mod (fst c) x p) p) mod p)
    | _, _, _, _ => fun _ => Err AttributeError
    end
  else other_dec k alg.
End KeyCrypt.
