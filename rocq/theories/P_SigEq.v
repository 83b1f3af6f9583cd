(** C122: comparing signature objects. *)
From Verif Require Import Base Spec SpecKey Text Utils UtilsProofs BaseProofs Utf8 SpecUtf8 Utf8Proofs SpecFraming Framing FramingProofs Crc24 SpecSig SigPackets SigProofs SigStable SpecPackets Packets PacketsProofs SigLists KeyPackets KeyProofs TransKey SigEq SpecSigEq.
From Verif Require P_Sig.

Section SigEq.
Variables (fl : Z -> Z) (rec : seckey -> res bytes).
Hypothesis Hfl : forall i, 1024 <= i <= 65011712 -> fl i = Z.log2 i.
Lemma sig_written a : can_write fl rec a -> exists e, sig_octets fl rec a = Ok e /\ parse_binary_packet_data pkt_dec e = ([Pkt (TransKey.o_fmt a) (BSig (TransKey.o_sig a))], None).
Proof.
  intros W. destruct (pkts_round fl rec [Pkt (TransKey.o_fmt a) (BSig (TransKey.o_sig a))] Hfl ltac:(constructor; [exact W|constructor])) as (encs & M & P & _).
  cbn [mapM] in M. apply bind_ok in M as (e & E1 & M). cbn [bind] in M. apply ok_inj in M. subst encs. cbn [concat map as_read] in P. rewrite app_nil_r in P. exists e. split; [|exact P].
  unfold sig_octets, TransKey.sig_to. destruct W as [B _]. cbn [p_body body_ok] in B. destruct (sig_round fl _ B) as (d & st & pk & ha & h2 & vs & hs & us & x & y & z & Q & _). rewrite Q. cbn [bind]. rewrite <- Q. exact E1.
Qed.
(** Two signatures that can be written are equal exactly if they have the same header format and the same fields and subpackets, in the same order,
    whatever they are attached to; and then they have the same hash. *)
Theorem c122_equal : forall a b, can_write fl rec a -> can_write fl rec b -> exists r, sig_same fl rec a (Some b) = Ok r /\ (r = true <-> TransKey.o_fmt a = TransKey.o_fmt b /\ TransKey.o_sig a = TransKey.o_sig b) /\
  (r = true -> exists h, sig_hash fl rec a = Ok h /\ sig_hash fl rec b = Ok h).
Proof.
  intros a b Wa Wb. destruct (sig_written a Wa) as (x & Xa & Pa). destruct (sig_written b Wb) as (y & Xb & Pb). exists (zlist_eqb x y). unfold sig_same, sig_hash. rewrite Xa, Xb. cbn [bind]. split; [reflexivity|]. split.
  - rewrite zlist_eqb_spec. split; [intros ->; rewrite Pa in Pb; injection Pb as -> ->; split; reflexivity|]. intros [F S]. unfold sig_octets, TransKey.sig_to in Xa, Xb. rewrite F, S in Xa. rewrite Xa in Xb. apply ok_inj in Xb. exact Xb.
  - intros Q. apply zlist_eqb_spec in Q. subst y. exists (crc24 x). split; reflexivity.
Qed.
End SigEq.
Print Assumptions c122_equal.
(** Comparing goes by the octets, so it is reflexive, symmetric and transitive where it does not raise. *)
Theorem c122_equivalence : forall fl rec a b c, (forall r, sig_same fl rec a (Some a) = Ok r -> r = true) /\ (forall r, sig_same fl rec a (Some b) = Ok r -> sig_same fl rec b (Some a) = Ok r) /\
  (sig_same fl rec a (Some b) = Ok true -> sig_same fl rec b (Some c) = Ok true -> sig_same fl rec a (Some c) = Ok true).
Proof.
  intros fl rec a b c. unfold sig_same. destruct (sig_octets fl rec a) as [x|e]; cbn [bind].
  - split; [intros r Q; apply ok_inj in Q; subst r; apply zlist_eqb_spec; reflexivity|]. destruct (sig_octets fl rec b) as [y|e]; cbn [bind].
    + split; [intros r Q; apply ok_inj in Q; subst r; f_equal; destruct (zlist_eqb x y) eqn:P; [apply zlist_eqb_spec in P; subst y; apply zlist_eqb_spec; reflexivity|]; destruct (zlist_eqb y x) eqn:P2; [apply zlist_eqb_spec in P2; subst y; rewrite (proj2 (zlist_eqb_spec x x) eq_refl) in P; discriminate P|reflexivity]|].
      destruct (sig_octets fl rec c) as [z|e]; cbn [bind]; [|discriminate]. intros P Q. apply ok_inj in P, Q. apply zlist_eqb_spec in P, Q. subst y z. f_equal. apply zlist_eqb_spec. reflexivity.
    + split; discriminate.
  - split; [discriminate|]. split; [|discriminate]. intros r. destruct (sig_octets fl rec b); cbn [bind]; discriminate.
Qed.
Print Assumptions c122_equivalence.
(** Refuted: comparing or hashing a signature of version 2 or 3 raises TypeError, even with itself; and comparing with an object of another class,
    such as None, raises AttributeError. *)
Theorem c122_version_3_refuted : forall fl rec f v st pk ha h2 vs ct kid d b, sig_same fl rec (TransKey.SObject f (SigV3 v st pk ha h2 vs ct kid) d) b = Err TypeError /\ sig_hash fl rec (TransKey.SObject f (SigV3 v st pk ha h2 vs ct kid) d) = Err TypeError.
Proof. intros. split; reflexivity. Qed.
Print Assumptions c122_version_3_refuted.
Theorem c122_other_class_refuted : forall fl rec a, (forall i, 1024 <= i <= 65011712 -> fl i = Z.log2 i) -> can_write fl rec a -> sig_same fl rec a None = Err AttributeError.
Proof. intros fl rec a Hfl W. destruct (sig_written fl rec Hfl a W) as (x & Xa & _). unfold sig_same. rewrite Xa. reflexivity. Qed.
Print Assumptions c122_other_class_refuted.
(** Refuted: signatures that hold subpackets of a type the library does not know are equal whatever these contain, although what is signed differs. *)
Theorem c122_unknown_refuted : forall fl rec f st pk ha h2 ms encs ty c x y es1 es2 l1 l2 d1 d2 made, 100 <= ty <= 110 -> rfc_area [(ty, c, x)] es1 -> rfc_area [(ty, c, y)] es2 -> Forall2 readable_mpi ms encs -> rfc_area [] l1 -> rfc_area [] l2 ->
  rfc_sig4 st pk ha (concat es1) (concat l1) h2 encs d1 -> rfc_sig4 st pk ha (concat es2) (concat l2) h2 encs d2 ->
  exists s1 s2, sig_from_content d1 = Ok s1 /\ sig_from_content d2 = Ok s2 /\ sig_same fl rec (TransKey.SObject f s1 made) (Some (TransKey.SObject f s2 made)) = sig_same fl rec (TransKey.SObject f s1 made) (Some (TransKey.SObject f s1 made)).
Proof.
  intros fl rec f st pk ha h2 ms encs ty c x y es1 es2 l1 l2 d1 d2 made T A1 A2 M B1 B2 R1 R2.
  assert (U : forall z, mapM (sub_of sig_from_content) [(ty, c, z)] = Ok [Sub ty c SbUnknown]).
  { intros z. cbn [mapM]. unfold sub_of. cbn [fst snd]. assert (Q : subbody_from sig_from_content ty z = Ok SbUnknown).
    { assert (C : ty = 100 \/ ty = 101 \/ ty = 102 \/ ty = 103 \/ ty = 104 \/ ty = 105 \/ ty = 106 \/ ty = 107 \/ ty = 108 \/ ty = 109 \/ ty = 110) by (clear -T; lia). repeat (destruct C as [->|C]; [reflexivity|]). subst ty. reflexivity. }
    rewrite Q. reflexivity. }
  exists (SigV4 4 st pk ha h2 ms [Sub ty c SbUnknown] []), (SigV4 4 st pk ha h2 ms [Sub ty c SbUnknown] []).
  assert (P : forall z es l d, rfc_area [(ty, c, z)] es -> rfc_area [] l -> rfc_sig4 st pk ha (concat es) (concat l) h2 encs d -> sig_from_content d = Ok (SigV4 4 st pk ha h2 ms [Sub ty c SbUnknown] [])).
  { intros z es l d A B R. rewrite sig_from_unfold by (destruct R as (q1 & q2 & _ & _ & _ & _ & _ & _ & W); exact W). rewrite (sig4_parse _ st pk ha [(ty, c, z)] es [] l h2 ms encs d A B M R). rewrite U. reflexivity. }
  split; [exact (P x es1 l1 d1 A1 B1 R1)|]. split; [exact (P y es2 l2 d2 A2 B2 R2)|]. reflexivity.
Qed.
Print Assumptions c122_unknown_refuted.

(** Notations read from a signature: equal exactly if they have the same name, name space and value (an empty name space being none). *)
Lemma frame_eq x y a b : sub_frame 20 false x = Ok a -> sub_frame 20 false y = Ok b -> (a = b <-> x = y).
Proof.
  intros Fa Fb. split; [|intros ->; rewrite Fa in Fb; apply ok_inj in Fb; exact Fb]. intros ->. destruct (sub_frame_inv 20 false x b ltac:(lia) Fa) as [(_ & l & L & Ea) _]. destruct (sub_frame_inv 20 false y b ltac:(lia) Fb) as [(_ & l' & L' & Eb) _].
  rewrite Ea in Eb. destruct (rfc_new_length_inj _ _ _ _ _ _ L L' Eb) as (_ & _ & Q). injection Q as Q. exact Q.
Qed.
Lemma frame_ok c : zlen c < 200000 -> exists a, sub_frame 20 false c = Ok a.
Proof.
  intros L. pose proof (zlen_nonneg c) as P. destruct (new_length_conforms (zlen c + 1) false) as (l & E & _); [unfold MAX_PACKET_LENGTH; lia|]. unfold sub_frame. rewrite E. cbn [bind]. rewrite mk_bytes_wf by (apply Forall_cons; [unfold byte; lia|apply Forall_nil]). eexists. reflexivity.
Qed.
Lemma note_content n : readable_note n -> plain_content (SbNotation (n_name n) (n_space n) (n_human n) (n_value n)) =
  Ok ([128; 0; 0; 0] ++ int_to_2byte (zlen (utf8 (n_name n) ++ match space_of n with [] => [] | s => 64 :: utf8 s end)) ++ int_to_2byte (zlen (utf8 (n_value n))) ++ (utf8 (n_name n) ++ match space_of n with [] => [] | s => 64 :: utf8 s end) ++ utf8 (n_value n)).
Proof.
  intros (Hh & Sn & Sv & _). unfold note_name in Sn. apply Forall_app in Sn as [Sn Sp]. cbn [plain_content]. rewrite Hh. rewrite (encode_scalar _ Sn), (encode_scalar _ Sv). unfold space_of. destruct (n_space n) as [[|c s]|]; [reflexivity| |reflexivity].
  rewrite (encode_scalar (c :: s)) by exact (Forall_inv_tail Sp). reflexivity.
Qed.
Lemma name_len n : readable_note n -> zlen (utf8 (n_name n) ++ match space_of n with [] => [] | s => 64 :: utf8 s end) < 65536.
Proof.
  intros (_ & _ & _ & _ & L & _). unfold note_name, space_of in *. rewrite utf8_app in L. destruct (n_space n) as [[|c s]|]; rewrite zlen_app in *; cbn [utf8 flat_map app] in *; [|exact L|exact L].
  unfold zlen in *. cbn [length] in *. lia.
Qed.
Theorem c122_notations : forall fl a b, readable_note a -> readable_note b -> exists r, note_same fl a b = Ok r /\ (r = true <-> n_name a = n_name b /\ space_of a = space_of b /\ n_value a = n_value b) /\
  (r = true -> exists h, note_hash fl a = Ok h /\ note_hash fl b = Ok h).
Proof.
  intros fl a b Ra Rb. pose proof (name_len a Ra) as La. pose proof (name_len b Rb) as Lb. unfold note_same, note_hash, note_octets, note_sub. unfold sub_bytes. cbn [sub_content].
  rewrite (note_content a Ra), (note_content b Rb). cbn [bind]. set (na := utf8 (n_name a) ++ _) in *. set (nb := utf8 (n_name b) ++ _) in *.
  assert (N : na = nb <-> n_name a = n_name b /\ space_of a = space_of b).
  { subst na nb. destruct Ra as (_ & Sa & _ & Fa & _), Rb as (_ & Sb & _ & Fb & _). unfold note_name in Sa, Sb. apply Forall_app in Sa as [Sa Pa], Sb as [Sb Pb].
    split; [|intros [-> ->]; reflexivity]. intros Q.
    set (full := fun n => n_name n ++ match space_of n with [] => [] | s => 64 :: s end).
    assert (U : forall n, utf8 (n_name n) ++ match space_of n with [] => [] | s => 64 :: utf8 s end = utf8 (full n)).
    { intros n. unfold full. rewrite utf8_app. destruct (space_of n); reflexivity. }
    rewrite !U in Q. apply utf8_inj in Q.
    - unfold full in Q. pose proof (split_some (n_name a)) as S1. pose proof (split_some (n_name b)) as S2. pose proof (split_none (n_name a) Fa) as T1. pose proof (split_none (n_name b) Fb) as T2.
      destruct (space_of a) as [|c s], (space_of b) as [|c' s'].
      + rewrite !app_nil_r in Q. split; [exact Q|reflexivity].
      + rewrite app_nil_r in Q. rewrite Q, (S2 (c' :: s') Fb) in T1. discriminate T1.
      + rewrite app_nil_r in Q. rewrite <- Q, (S1 (c :: s) Fa) in T2. discriminate T2.
      + pose proof (S1 (c :: s) Fa) as X. rewrite Q, (S2 (c' :: s') Fb) in X. injection X as X1 X2 X3. rewrite X1, X2, X3. split; reflexivity.
    - unfold full, space_of. apply Forall_app. split; [exact Sa|]. destruct (n_space a) as [[|c s]|]; [apply Forall_nil|exact Pa|apply Forall_nil].
    - unfold full, space_of. apply Forall_app. split; [exact Sb|]. destruct (n_space b) as [[|c s]|]; [apply Forall_nil|exact Pb|apply Forall_nil]. }
  clearbody na nb. assert (Lva : zlen (utf8 (n_value a)) < 65536) by apply Ra. assert (Lvb : zlen (utf8 (n_value b)) < 65536) by apply Rb.
  assert (V : utf8 (n_value a) = utf8 (n_value b) <-> n_value a = n_value b). { split; [|intros ->; reflexivity]. apply utf8_inj; [apply Ra|apply Rb]. }
  set (va := utf8 (n_value a)) in *. set (vb := utf8 (n_value b)) in *. clearbody va vb. clear Ra Rb.
  set (ca := [128; 0; 0; 0] ++ int_to_2byte (zlen na) ++ int_to_2byte (zlen va) ++ na ++ va). set (cb := [128; 0; 0; 0] ++ int_to_2byte (zlen nb) ++ int_to_2byte (zlen vb) ++ nb ++ vb).
  pose proof (zlen_nonneg na) as Pna. pose proof (zlen_nonneg nb) as Pnb. pose proof (zlen_nonneg va) as Pva. pose proof (zlen_nonneg vb) as Pvb.
  destruct (int_2_spec (zlen na) (conj Pna La)) as (I1 & I2 & _). destruct (int_2_spec (zlen nb) (conj Pnb Lb)) as (J1 & J2 & _).
  destruct (int_2_spec (zlen va) (conj Pva Lva)) as (I3 & I4 & _). destruct (int_2_spec (zlen vb) (conj Pvb Lvb)) as (J3 & J4 & _).
  assert (C : ca = cb <-> na = nb /\ va = vb).
  { split; [|intros [-> ->]; reflexivity]. unfold ca, cb. intros Q. apply app_inv_head in Q. apply app_inj_len in Q as [Q1 Q]; [|rewrite I2, J2; reflexivity]. apply app_inj_len in Q as [Q2 Q]; [|rewrite I4, J4; reflexivity].
    apply app_inj_len in Q; [exact Q|]. rewrite <- I1, <- J1, Q1. reflexivity. }
  assert (Za : zlen ca < 200000) by (unfold ca; rewrite !zlen_app, I2, I4; change (zlen [128; 0; 0; 0]) with 4; clear -La Lva; lia).
  assert (Zb : zlen cb < 200000) by (unfold cb; rewrite !zlen_app, J2, J4; change (zlen [128; 0; 0; 0]) with 4; clear -Lb Lvb; lia).
  clearbody ca cb. destruct (frame_ok ca Za) as (x & Xa). destruct (frame_ok cb Zb) as (y & Xb). rewrite Xa, Xb. cbn [bind]. pose proof (frame_eq ca cb x y Xa Xb) as F.
  exists (zlist_eqb x y). split; [reflexivity|]. split.
  - rewrite zlist_eqb_spec, F, C, N, V. tauto.
  - intros Q. apply zlist_eqb_spec in Q. subst y. exists (crc24 x). split; reflexivity.
Qed.
Print Assumptions c122_notations.
(** Refuted: revocation keys cannot be compared or hashed: TypeError, also with themselves. *)
Theorem c122_revocation_key_refuted : forall fl a b, zlen (r_fpr a) = 40 -> rev_same fl a b = Err TypeError /\ rev_hash fl a = Err TypeError.
Proof. intros fl a b L. unfold rev_same, rev_hash, rev_octets. rewrite L. split; reflexivity. Qed.
Print Assumptions c122_revocation_key_refuted.

(** Each theorem speaks of something. *)
Definition eq_sig := TransKey.SObject NewH P_Sig.ex_sig 0.
Definition eq_rec : seckey -> res bytes := fun _ => Err ValueError.
Example c122_used : can_write Z.log2 eq_rec eq_sig /\ sig_same Z.log2 eq_rec eq_sig (Some (TransKey.SObject NewH P_Sig.ex_sig 7)) = Ok true /\
  sig_same Z.log2 eq_rec eq_sig (Some (TransKey.SObject OldH P_Sig.ex_sig 0)) = Ok false /\ sig_same Z.log2 eq_rec eq_sig None = Err AttributeError.
Proof.
  split; [|split; [vm_compute; reflexivity|split; [vm_compute; reflexivity|vm_compute; reflexivity]]]. split; [exact P_Sig.c31_ex|]. intros d E. vm_compute in E. injection E as <-.
  split; [vm_compute; split; discriminate|]. vm_compute. discriminate.
Qed.
(** two signatures over different hashed octets: a subpacket of type 100 that contains 1, or 2 and 3 *)
Example c122_unknown_used : exists s1 s2, sig_from_content [4; 0; 1; 8; 0; 3; 2; 100; 1; 0; 0; 9; 9] = Ok s1 /\ sig_from_content [4; 0; 1; 8; 0; 4; 3; 100; 2; 3; 0; 0; 9; 9] = Ok s2 /\
  sig_same Z.log2 eq_rec (TransKey.SObject NewH s1 0) (Some (TransKey.SObject NewH s2 0)) = Ok true.
Proof. do 2 eexists. split; [vm_compute; reflexivity|split; [vm_compute; reflexivity|vm_compute; reflexivity]]. Qed.
Example c122_notations_used : readable_note (Note [110] (Some [120]) true [233]) /\ note_same Z.log2 (Note [110] (Some [120]) true [233]) (Note [110] (Some [121]) true [233]) = Ok false /\
  note_same Z.log2 (Note [110] (Some []) true [233]) (Note [110] None true [233]) = Ok true.
Proof.
  split; [|split; vm_compute; reflexivity]. split; [reflexivity|]. unfold note_name. cbn [n_name n_space n_value app]. repeat (split; [first [repeat (apply Forall_cons; [unfold scalar; lia|]); apply Forall_nil|intros [Q|[]]; discriminate Q|vm_compute; reflexivity]|]). vm_compute. reflexivity.
Qed.
