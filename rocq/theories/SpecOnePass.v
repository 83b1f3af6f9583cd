(** Sequences of packets with one-pass signature packets among them. *)
From Verif Require Import Base Spec Utils Framing SpecFraming SessionKeys SigPackets DataPackets UserAttr KeyPackets S2k Packets SpecPackets Message SpecMessage SpecUtf8.

(** a one-pass packet that the format can hold: octets, and a key id of eight octets in hexadecimal *)
Definition onepass_ok (o : onepass) : Prop :=
  byte (op_version o) /\ byte (op_sigtype o) /\ byte (op_hash o) /\ byte (op_pk o) /\ byte (op_nested o) /\ exists k, op_key_id o = hex_text k /\ wf k /\ zlen k = 8.
(** what can be written and read: as in SpecPackets, or a one-pass packet *)
Definition wire_ok (fl : Z -> Z) (rec : seckey -> res bytes) (p : pkt) : Prop := match p_body p with BOnePass o => onepass_ok o | _ => pkt_ok fl rec p end.
(** how the parser reads it: of the key id of a one-pass packet only the first four octets, eight hexadecimal digits *)
Definition reread (p : pkt) : pkt :=
  match p with
  | Pkt h (BOnePass (OnePass v st ha pk kid n)) => Pkt h (BOnePass (OnePass v st ha pk (firstn 8 kid) n))
  | _ => as_read p
  end.
(** the parts of a signed message that the format can hold *)
Definition sig_writable (fl : Z -> Z) (rec : seckey -> res bytes) (g : msig) : Prop := ms_one_pass g = true /\ pkt_ok fl rec (Pkt (ms_fmt g) (BSig (ms_sig g))).
(** the octets that a signature of a literal message is over: its data, as text in UTF-8, and for a text signature with the line ends of RFC 4880 5.2.4 *)
Inductive signed_data : message -> bytes -> Prop :=
| sd_text t n time : Forall scalar t -> signed_data (MText (LText t) n time) (utf8 t)
| sd_binary d n time : signed_data (MBinary (LBytes d) n time) d.
Definition rfc_document (st : Z) (d : bytes) : bytes := if st =? 1 then canonical_text d else d.
