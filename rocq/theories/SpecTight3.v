(** What P_Tight3 says of one-pass packets and of Python's truth value. *)
From Verif Require Import Base Spec Framing SigPackets SessionKeys Packets Message SpecMessage SigAttrs.

(** the first issuer key id of a version 4 signature: that of its first issuer subpacket (type 16), hashed ones first *)
Definition first_issuer (s : sigpkt) (k : list Z) : Prop :=
  exists hs us before c after, (exists v st pk ha h2 vs, s = SigV4 v st pk ha h2 vs hs us) /\ hs ++ us = before ++ Sub 16 c (SbIssuer k) :: after /\ Forall (fun x => sub_type x <> 16) before.
(** a one-pass packet that announces a signature: version 3, its type, algorithms and first issuer *)
Definition announces (hf : option header_format) (p : pkt) (g : msig) : Prop :=
  exists o, p = Pkt (hdr_or hf (ms_fmt g)) (BOnePass o) /\ op_version o = 3 /\ ops_matches o (ms_sig g) /\ first_issuer (ms_sig g) (op_key_id o).
Definition flags (ps : list pkt) : list Z := flat_map (fun p => match p_body p with BOnePass o => [op_nested o] | _ => [] end) ps.
Definition one_passes (ps : list pkt) : list onepass := flat_map (fun p => match p_body p with BOnePass o => [o] | _ => [] end) ps.
(** what bool() makes of a value *)
Definition python_false (v : value) : Prop := In v [VNone; VInt 0; VBool false; VText []; VList []].
(** the attributes that are one truth value in a subpacket of their own, with the octet-level content they stand for *)
Definition truth_attribute (p : prop) (content : bool -> subbody) : Prop :=
  (p = P_exportable /\ content = SbBool) \/ (p = P_primary_user_id /\ content = SbBool) \/ (p = P_no_modify /\ content = SbNoModify) \/ (p = P_supports_md /\ content = SbFeatures).
