(** Whom an encrypted message can be read by. *)
From Verif Require Import Base Spec Utils SessionKeys Packets Message PubMsg.

(** [esk] is what encrypting the session key [sk] for cipher [alg] to [r] gives (RFC 4880 5.1, see C58 and C59) *)
Definition encrypted_to (fl : Z -> Z) (alg : Z) (sk : bytes) (r : recipient) (esk : bytes) : Prop :=
  exists enc, r_enc r = Ok enc /\ get_encrypted_key fl enc alg sk = Ok esk.
(** the secret key with operation [dec] recovers the session key from [esk], made for [r] *)
Definition recovers (dec : Z -> list bytes -> res (option bytes)) (r : recipient) (esk : bytes) (alg : Z) (sk : bytes) : Prop :=
  get_key_and_cipher_algo (dec (r_alg r)) (r_alg r) esk = Ok (alg, sk).
(** the decryption of [esk] fails with [e] *)
Definition refuses (dec : Z -> list bytes -> res (option bytes)) (r : recipient) (esk : bytes) (e : exn) : Prop :=
  get_key_and_cipher_algo (dec (r_alg r)) (r_alg r) esk = Err e.
(** an eight-octet key id, written as text *)
Definition good_id (r : recipient) : Prop := byte (r_alg r) /\ exists k, r_id r = hex_text k /\ wf k /\ zlen k = 8.
(** the recipients named by a list of packets: key id and algorithm of every public-key encrypted session key packet, in order *)
Definition named (ps : list pkt) : list (option (list Z) * Z) :=
  flat_map (fun p => match p_body p with BPkesk k => [(pk_key_id k, pk_alg k)] | _ => [] end) ps.
