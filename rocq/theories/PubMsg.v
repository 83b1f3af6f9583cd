(** Model of pgp/message.py:60-93 (BaseMessage.public_key_encrypt) and 334-365 (PublicKeySessionKey). Definitions only. *)
From Verif Require Import Base Utils Text Utf8 Framing S2k Cipher SymCipher SessionKeys KeyPackets SigPackets DataPackets Packets Message.

(** The parts of a public key object that are used: public_key_algorithm, key_id (hexadecimal text), and cipher.encrypt of the
    cipher made from _get_key_obj() (transferrable_keys.py:363-386 raises for other algorithms than 1, 3, 16, 17, 20), with the
    random octets it draws. Only the RSA and ElGamal branch of packets.py:271-273 is modelled. *)
Record recipient := Recip { r_alg : Z; r_id : list Z; r_enc : res (bytes -> res (list bytes)) }.

Section Pub.
Variables (E : Z -> bytes -> bytes -> bytes) (sha1 : bytes -> bytes) (fl : Z -> Z) (rec : seckey -> res bytes).
(** message.py:334-348 PublicKeySessionKey.__init__ called with (3, public_key, symmetric_algorithm, session_key) and 360-365;
    [hide_key_id] is accepted and never used. [if session_key:] is false for an empty one. *)
Definition pub_session_key (alg : Z) (session_key : bytes) (hide_key_id : bool) (r : recipient) : res skey :=
  match session_key with
  | [] => Ok (SKPub NewH 3 (r_alg r) (Some (r_id r)) None)
  | _ => do enc <- r_enc r;;
         do e <- get_encrypted_key fl enc alg session_key;;
         Ok (SKPub NewH 3 (r_alg r) (Some (r_id r)) (Some e))
  end.
(** message.py:60-93 with the session key given (74-76: otherwise random octets of the cipher's key length). Iterating over None
    is a TypeError; so is giving both arguments. *)
Definition public_key_encrypt (m : message) (alg : Z) (public_key : option recipient) (public_keys hidden_public_keys : option (list recipient))
    (session_key iv : bytes) (integrity : bool) : res message :=
  do public_keys <- (match public_keys, public_key with
                     | Some _, Some _ => Err TypeError
                     | None, Some r => Ok [r]
                     | Some l, None => Ok l
                     | None, None => Err TypeError
                     end);;
  let hidden := match hidden_public_keys with Some l => l | None => [] end in
  do ks <- mapM (pub_session_key alg session_key false) public_keys;;
  do hs <- mapM (pub_session_key alg session_key true) hidden;;
  do d <- message_octets fl rec m;;
  do ed <- encdata_new E sha1 iv alg (Some session_key) d integrity (Some 1);;
  Ok (MEncrypted (ks ++ hs) ed).
End Pub.
