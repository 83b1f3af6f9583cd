(** Packet objects whose fields the wire format can hold and whose class can be written (RFC 4880 section 5). *)
From Verif Require Import Base Spec SpecUtf8 SpecFraming SpecS2k SpecKey SpecSig SpecAttr SpecData Utils Framing S2k SymCipher SessionKeys KeyPackets SigPackets DataPackets UserAttr Packets.

(** the types with a class of their own *)
Definition known_packets : list Z := [1; 2; 3; 4; 5; 6; 7; 8; 9; 10; 11; 12; 13; 14; 16; 17; 18; 19; 61; 63].
Definition pub_ok (fl : Z -> Z) (k : pubkey) : Prop :=
  exists v ct alg exp ms, 0 <= ct < 2 ^ 32 /\ rfc_exp_ok v exp /\ rfc_key v ct alg exp ms = Some k /\
    Forall (fun i => 0 <= i /\ bit_length i <= 65535 /\ (0 < i -> fl i = Z.log2 i)) ms.
Definition data_ok (p : dpacket) : Prop :=
  match p with
  | PCompressed a d => byte a
  | PSymEnc d => d <> []
  | PLiteral f name (TDate t) d => (exists c, literal_bytes f d = Some c) /\ Forall scalar name /\ zlen (utf8 name) = zlen name /\ zlen name <= 255 /\
      0 <= t < 2 ^ 32 /\ match d with LText s => Forall scalar s /\ (f = 116 -> wf s) | LBytes b => wf b end
  | PLiteral _ _ (TInt _) _ => False
  | PTrust v None => byte v
  | PTrust v (Some c) => v = 0 /\ 0 <= c < 128
  | PUserId u => u <> [] /\ Forall scalar u
  | PComment ty s => (ty = 16 \/ ty = 61) /\ s <> [] /\ Forall scalar s
  | PSeipd v d => byte v
  | PMdc d => zlen d = 20
  | PControl m c d => zlen m = 8 /\ byte c
  | POther ty d => d <> [] /\ ~ In ty known_packets
  end.
Definition body_ok (fl : Z -> Z) (b : pbody) : Prop :=
  match b with
  | BPkesk (Pkesk v (Some kid) a _) => byte v /\ byte a /\ exists k, kid = hex_text k /\ wf k /\ zlen k = 8
  | BPkesk _ => False
  | BSig s => sig_ok fl s
  | BSkesk (Skesk v sym s (Some e)) => byte v /\ sym = s2k_sym s /\ byte sym /\ s2k_ok s /\ wf e /\
      exists n, symmetric_cipher_key_lengths sym = Some n /\ zlen e <= n + 1
  | BSkesk _ => False
  | BOnePass _ => False
  | BSec _ (SecKey k (Some s) sym iv enc checksum hash) => pub_ok fl k /\ sym = s2k_sym s /\ s2k_ok s /\
      symmetric_cipher_block_lengths sym = Some (zlen iv) /\ enc <> [] /\ hash = negb checksum
  | BSec _ _ => False
  | BPub _ k => pub_ok fl k
  | BAttr l => l <> [] /\ Forall attr_ok l
  | BData d => data_ok d
  end.
(** the header can hold the type and the length of the content *)
Definition pkt_ok (fl : Z -> Z) (rec : seckey -> res bytes) (p : pkt) : Prop :=
  body_ok fl (p_body p) /\ forall d, body_content fl rec (p_body p) = Ok d -> representable (Raw (p_fmt p) (pkt_type p) d).
(** The same packet as the parser holds it: a literal's date as the integer of that instant. *)
Definition as_read (p : pkt) : pkt :=
  match p with Pkt h (BData (PLiteral f n (TDate t) d)) => Pkt h (BData (PLiteral f n (TInt t) d)) | _ => p end.
