(** Model of pgp/message.py:43-55 BaseMessage.sign with 166-167, 184-188 (to_signable_data), and of reading the signature back from the
    message. Definitions only. *)
From Verif Require Import Base Utils Text Utf8 Framing S2k SessionKeys KeyPackets SigPackets DataPackets Packets Message Signable KeyOps.

(** message.py:166-167 LiteralMessage and 184-188 TextMessage: bytes have no encode, and hash.update does not take a str. The other kinds of message
    have no to_signable_data. *)
Definition message_signable (st : Z) (m : message) : res bytes :=
  match m with
  | MText (LText t) _ _ => do d <- utf8_encode t;; Ok (text_signable st d)
  | MText (LBytes _) _ _ => Err AttributeError
  | MBinary (LBytes d) _ _ => Ok d
  | MBinary (LText _) _ _ => Err TypeError
  | _ => Err AttributeError
  end.
(** signature.py:159-173: the packet of a version 4 signature object; and 130-155: the object of such a packet *)
Definition packet_of_sig (s : sigobj) : sigpkt := SigV4 (so_version s) (so_type s) (so_pk s) (so_hash s) (so_hash2 s) (so_values s) (so_hashed s) (so_unhashed s).
Definition sig_of_packet (p : sigpkt) : option sigobj :=
  match p with SigV4 v st pk ha h2 vs hs us => Some (SigObj v st pk ha h2 vs hs us) | SigV3 _ _ _ _ _ _ _ _ => None end.
Section Sign.
Variables (fl : Z -> Z) (md5 sha1 : bytes -> bytes) (H : Z -> bytes -> bytes) (oid : Z -> bytes) (inv : Z -> Z -> Z).
(** 47-52: [prefs] is the value of the key's preferred_hash_algorithms *)
Definition choose_hash (given : option Z) (prefs : res (list Z)) : res Z :=
  match given with
  | Some h => Ok h
  | None => do l <- prefs;; match l with h :: _ => Ok h | [] => Ok 1 end
  end.
(** 43-55. The signature is a BaseSignature, whose header type is the new one; it has no attribute one_pass of its own, here that of the wrapper.
    Simplified: when the message cannot be signed that is the error, even if the key is locked or the hash unknown as well. *)
Definition sign_message (locked : bool) (k : pubkey) (sec : secret) (nonce now : Z) (prefs : res (list Z)) (m : message) (version st : Z) (hash : option Z) (one_pass : bool) : res message :=
  do ha <- choose_hash hash prefs;;
  do d <- message_signable st m;;
  do (s, _) <- sign fl md5 sha1 H oid inv locked k sec nonce now (IBytes d) false version st ha [];;
  Ok (MSigned [MSig NewH (packet_of_sig s) one_pass] (Some m) one_pass).
(** checking the signatures of a message that was read: the public key's verify(signature, message.get_message()) for each *)
Definition verify_message (elg : Z -> bytes -> list Z -> res bool) (k : pubkey) (m : message) : res (list bool) :=
  match m with
  | MSigned sigs (Some x) _ =>
      mapM (fun g => match sig_of_packet (ms_sig g) with
                     | Some s => do d <- message_signable (so_type s) x;; verify fl md5 sha1 H oid inv elg k s (IBytes d)
                     | None => Err TypeError
                     end) sigs
  | _ => Err AttributeError
  end.
End Sign.
