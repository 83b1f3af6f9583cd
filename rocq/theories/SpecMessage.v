(** RFC 4880 5.13 and 11.3: integrity protected data, and the message grammar. *)
From Verif Require Import Base Framing Armor SigPackets DataPackets SessionKeys KeyPackets Packets Message SymCipher SpecCfb.

(** 5.13: a block of random octets, its last two octets repeated, the data, and an MDC packet (tag octet 0xD3, length 0x14)
    holding the SHA-1 of all that precedes the twenty octets *)
Definition mdc_plaintext (sha1 : bytes -> bytes) (iv last2 data : bytes) : bytes :=
  iv ++ last2 ++ data ++ [211; 20] ++ sha1 (iv ++ last2 ++ data ++ [211; 20]).
(** ... encrypted in CFB with an IV of zeros *)
Definition rfc_seipd (E : bytes -> bytes) (bs : Z) (sha1 : bytes -> bytes) (iv last2 data : bytes) : bytes :=
  rfc_cfb_enc E (Z.to_nat bs) (repeat 0 (Z.to_nat bs)) (mdc_plaintext sha1 iv last2 data).
(** the packets held in decrypted octets: all of them in order, the last 22 octets taken as one packet if they begin with
    the two octets of an MDC packet's header *)
Definition packets_in (dec : bytes) (ps : list pkt) : Prop :=
  parse_binary_packet_data pkt_dec dec = (ps, None) \/
  exists body h ps', dec = body ++ [211; 20] ++ h /\ zlen h = 20 /\ parse_binary_packet_data pkt_dec body = (ps', None) /\ ps = ps' ++ [Pkt NewH (BData (PMdc h))].

(** *** RFC 4880 11.3 over packet types: Literal (11), Compressed (8), ESK* (1, 3) then encrypted data (9, 18), Signature (2)
    before a message, one-pass signature (4) before and signature after a message. *)
Inductive rfc_message : list Z -> Prop :=
| rm_literal : rfc_message [11]
| rm_compressed : rfc_message [8]
| rm_encrypted esks t : Forall (fun x => x = 1 \/ x = 3) esks -> t = 9 \/ t = 18 -> rfc_message (esks ++ [t])
| rm_signed ts : rfc_message ts -> rfc_message (2 :: ts)
| rm_one_pass ts : rfc_message ts -> rfc_message (4 :: ts ++ [2]).
(** 5.4 and 11.3: one-pass packets and the signatures at the end correspond like brackets; the flag of a one-pass packet is
    0 exactly when another one-pass packet follows *)
Definition ops_matches (o : onepass) (s : sigpkt) : Prop := let '(st, pk, ha) := sig_fields s in op_sigtype o = st /\ op_pk o = pk /\ op_hash o = ha.
Definition rfc_bracketed (ops : list onepass) (sigs : list sigpkt) : Prop := Forall2 ops_matches ops (rev sigs).
Fixpoint rfc_nested (ops : list onepass) : Prop :=
  match ops with
  | [] => True
  | o :: rest => (op_nested o = 0 <-> rest <> []) /\ rfc_nested rest
  end.
(** the literal message objects whose fields the format can hold *)
Definition plain_packet (m : message) : option pkt :=
  match m with
  | MText d n t => Some (Pkt NewH (BData (PLiteral 117 n (TDate t) d)))
  | MBinary d n t => Some (Pkt NewH (BData (PLiteral 98 n (TDate t) d)))
  | MCompressed a d => Some (Pkt NewH (BData (PCompressed a d)))
  | _ => None
  end.
(** a message object with the octets [d]: it can be written, and these octets are read back as the same object *)
Definition survives (fl : Z -> Z) (rec : seckey -> res bytes) (m : message) (d : bytes) : Prop :=
  message_octets fl rec m = Ok d /\ exists ps, parse_binary_packet_data pkt_dec d = (ps, None) /\ open_message ps = Ok m.
Definition is_ops (p : pkt) : bool := match p_body p with BOnePass _ => true | _ => false end.
Definition sigs_of (ps : list pkt) : list (header_format * sigpkt) := flat_map (fun p => match p_body p with BSig s => [(p_fmt p, s)] | _ => [] end) ps.
(** versions with an object: 2 and 3, or 4 and more *)
Definition sig_version_ok (s : sigpkt) : Prop := match s with SigV3 v _ _ _ _ _ _ _ => v = 2 \/ v = 3 | SigV4 v _ _ _ _ _ _ _ => 4 <= v end.
(** what may follow the message inside a signed message: one-pass packets and signatures *)
Definition tail_ok (q : pkt) : Prop := is_ops q = true \/ exists s, p_body q = BSig s /\ sig_version_ok s.
(** signature objects, in the order of the packets *)
Definition msigs (l : list (header_format * sigpkt)) : list msig := map (fun fs => MSig (fst fs) (snd fs) true) l.
(** 5.2.1: a text document is signed with its line endings converted to CR LF *)
Fixpoint canonical_text (d : bytes) : bytes :=
  match d with
  | a :: t => if a =? 13 then 13 :: 10 :: match t with b :: t' => if b =? 10 then canonical_text t' else canonical_text t | [] => [] end
              else if a =? 10 then 13 :: 10 :: canonical_text t else a :: canonical_text t
  | [] => []
  end.
