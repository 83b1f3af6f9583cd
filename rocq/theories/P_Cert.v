(** C115: a version 4 certificate, from its octets to what its parts say. *)
From Verif Require Import Base BaseProofs Spec SpecUtf8 Utf8 Utf8Proofs SpecKey SpecFraming SpecSig Utils UtilsProofs HexProofs CodecProofs Framing FramingProofs Text Armor S2k SessionKeys KeyPackets KeyProofs P_Keys SigPackets SigProofs P_Sig SigAttrs SigLists DataPackets UserAttr Packets TransKey Message Shortcuts ShortProofs KeyOps SelfSig SpecSelf SelfProofs SpecSubValue P_SubValue P_Grip SpecCert CertAttrs.

(** ** reading the packets *)
Lemma parsed_all {A} (dec : raw_packet -> res A) ps enc : rfc_packets ps enc -> forall objs fuel pre, (length enc < fuel)%nat -> parse_loop fuel dec (pre ++ enc) (zlen pre) = (objs, None) -> mapM dec ps = Ok objs.
Proof.
  induction 1 as [|prt p ps enc encs Hp Hps IH]; intros objs fuel pre Hf H.
  - destruct fuel; [cbn in Hf; lia|]. cbn [parse_loop] in H. rewrite app_nil_r in H. replace (zlen pre <? zlen pre) with false in H by lia. injection H as <-. reflexivity.
  - destruct fuel as [|fuel]; [lia|]. pose proof (rfc_packet_len _ _ _ Hp) as Lp. cbn [parse_loop] in H. replace (zlen pre <? zlen (pre ++ enc ++ encs)) with true in H by (rewrite !zlen_app; pose proof (zlen_nonneg encs); lia).
    unfold packet_from_packet_data in H. rewrite (raw_from_data_rfc prt p enc pre encs Hp) in H. cbn [bind] in H. destruct (dec p) as [o|x] eqn:D; [|discriminate H]. cbn [bind] in H. rewrite app_assoc in H.
    destruct (parse_loop fuel dec ((pre ++ enc) ++ encs) (zlen (pre ++ enc))) as [os e] eqn:E. injection H as <- ->. cbn [mapM]. rewrite D. cbn [bind]. rewrite (IH os fuel (pre ++ enc)); [reflexivity| |exact E]. rewrite app_length in Hf. unfold zlen in Lp. lia.
Qed.
Lemma rfc_head prt p enc : rfc_packet prt p enc -> exists b t, enc = b :: t /\ 128 <= b.
Proof. intros H. destruct H; (do 2 eexists; split; [reflexivity|]); try lia. match goal with H : rfc_old_length _ _ _ |- _ => destruct H end; lia. Qed.
Lemma mapM_F2 {A B} (f : A -> res B) l m : mapM f l = Ok m -> Forall2 (fun a b => f a = Ok b) l m.
Proof. revert m. induction l as [|a l IH]; intros m H; cbn [mapM] in H; [apply ok_inj in H as <-; constructor|]. apply bind_ok in H as (b & Hb & H). apply bind_ok in H as (bs & Hbs & H). apply ok_inj in H as <-. constructor; [exact Hb|exact (IH bs Hbs)]. Qed.
(** a packet made from a body under a tag *)
Definition made (tb : Z * bytes) (p : pkt) : Prop := body_dec (fst tb) (snd tb) = Ok (p_body p).
Lemma packets_made c octets l : cert_octets c octets -> read_packets (InBytes octets) false = Ok l -> Forall2 made (cert_packets c) l.
Proof.
  intros (ps & R & E) H. assert (NA : is_armor octets = false).
  { destruct R as [|prt p ps enc encs Hp _]; [discriminate E|]. destruct (rfc_head _ _ _ Hp) as (b & t & -> & B). apply (not_armor_high b (t ++ encs) B). }
  unfold read_packets in H. cbn [input_armor] in H. rewrite NA in H. cbn [bind] in H. unfold listed in H. destruct (snd (parse_binary_packet_data pkt_dec octets)) as [e|] eqn:Sn; [discriminate H|]. apply ok_inj in H.
  assert (P : parse_binary_packet_data pkt_dec octets = (l, None)) by (rewrite <- H, <- Sn; apply surjective_pairing).
  unfold parse_binary_packet_data in P. assert (Lf : (length octets < S (length octets))%nat) by lia. apply (parsed_all pkt_dec ps octets R l _ [] Lf) in P. apply mapM_F2 in P. rewrite <- E. clear -P.
  induction P as [|r p ps l D P IH]; [constructor|]. cbn [map]. constructor; [|exact IH]. unfold pkt_dec in D. apply bind_ok in D as (b & D & Q). apply ok_inj in Q as <-. exact D.
Qed.
Lemma made_type ty d p : made (ty, d) p -> In ty [2; 6; 13; 14; 17] -> pkt_type p = ty.
Proof.
  unfold made, pkt_type. cbn [fst snd]. intros H I. cbn [In] in I. destruct I as [<-|[<-|[<-|[<-|[<-|[]]]]]]; cbn [body_dec Z.eqb Pos.eqb] in H.
  - change (body_dec 2 d) with (do p <- sig_from_content d;; Ok (BSig p)) in H. apply bind_ok in H as (x & _ & H). apply ok_inj in H. rewrite <- H. reflexivity.
  - change (body_dec 6 d) with (do p <- pub_from_content d;; Ok (BPub false p)) in H. apply bind_ok in H as (x & _ & H). apply ok_inj in H. rewrite <- H. reflexivity.
  - change (body_dec 13 d) with (Ok (BData (PUserId (utf8_decode_replace d)))) in H. apply ok_inj in H. rewrite <- H. reflexivity.
  - change (body_dec 14 d) with (do p <- pub_from_content d;; Ok (BPub true p)) in H. apply bind_ok in H as (x & _ & H). apply ok_inj in H. rewrite <- H. reflexivity.
  - change (body_dec 17 d) with (do p <- attrs_from_content d;; Ok (BAttr p)) in H. apply bind_ok in H as (x & _ & H). apply ok_inj in H. rewrite <- H. reflexivity.
Qed.

(** ** the groups *)
Definition grp : Type := pkt * list pkt.
Definition flatg (gs : list grp) : list pkt := flat_map (fun g => fst g :: snd g) gs.
Definition group_made (tag : Z) (p : part) (g : grp) : Prop := made (tag, fst p) (fst g) /\ Forall2 (fun d s => made (2, d) s) (snd p) (snd g).
Lemma part_made tag p l : Forall2 made (part_packets tag p) l -> exists g, l = fst g :: snd g /\ group_made tag p g.
Proof.
  intros F. inversion F as [|a b x y H1 H2 E1 E2]; subst. exists (b, y). split; [reflexivity|]. split; [exact H1|]. cbn [snd]. clear -H2. revert y H2. induction (snd p) as [|d ds IH]; intros y H; inversion H; subst; constructor; auto.
Qed.
Lemma parts_made tag ps : forall l, Forall2 made (flat_map (part_packets tag) ps) l -> exists gs, l = flatg gs /\ Forall2 (group_made tag) ps gs.
Proof.
  induction ps as [|p ps IH]; intros l F; cbn [flat_map] in F; [inversion F; subst; exists []; split; [reflexivity|constructor]|].
  apply Forall2_app_inv_l in F as (l1 & l2 & F1 & F2 & ->). destruct (part_made _ _ _ F1) as (g & -> & G). destruct (IH l2 F2) as (gs & -> & Gs). exists (g :: gs). split; [reflexivity|]. constructor; assumption.
Qed.
Definition sigs_only (g : grp) : Prop := Forall (fun p => pkt_type p = 2) (snd g).
Lemma group_types tag p g : In tag [6; 13; 14; 17] -> group_made tag p g -> pkt_type (fst g) = tag /\ sigs_only g.
Proof.
  intros I (A & B). split; [apply (made_type _ _ _ A); cbn [In] in *; tauto|]. unfold sigs_only. clear -B. induction B as [|d s ds ss H B IH]; constructor; [|exact IH]. apply (made_type _ _ _ H). cbn. tauto.
Qed.
Definition stops (tys : list Z) (r : list pkt) : Prop := match r with [] => True | p :: _ => pkt_type p <> 2 /\ ~ In (pkt_type p) tys end.
Lemma span_app ss : forall r, Forall (fun p => pkt_type p = 2) ss -> stops [] r -> span_sigs (ss ++ r) = (ss, r).
Proof.
  induction ss as [|s ss IH]; intros r F S; cbn [app].
  - destruct r as [|p r]; [reflexivity|]. destruct S as [S _]. cbn [span_sigs]. replace (pkt_type p =? 2) with false by lia. reflexivity.
  - cbn [span_sigs]. replace (pkt_type s =? 2) with true by (pose proof (Forall_inv F) as Y; cbn beta in Y; lia). now rewrite (IH r (Forall_inv_tail F) S).
Qed.
Lemma spans_groups tys gs : forall fuel r, Forall sigs_only gs -> Forall (fun g => In (pkt_type (fst g)) tys /\ pkt_type (fst g) <> 2) gs -> stops tys r -> (length gs <= fuel)%nat -> spans fuel tys (flatg gs ++ r) = (gs, r).
Proof.
  induction gs as [|[p ss] gs IH]; intros fuel r F T St L.
  - cbn [flatg flat_map app]. destruct fuel as [|f]; [reflexivity|]. destruct r as [|q r]; [reflexivity|]. cbn [spans]. destruct St as [_ St]. replace (is_one (pkt_type q) tys) with false; [reflexivity|]. symmetry. apply TransProofs.is_one_false. exact St.
  - destruct fuel as [|f]; [cbn in L; lia|]. change (flatg ((p, ss) :: gs)) with ((p :: ss) ++ flatg gs). rewrite <- app_assoc. cbn [app spans].
    destruct (Forall_inv T) as [Tp _]. cbn [fst] in Tp. apply TransProofs.is_one_spec in Tp. rewrite Tp. rewrite span_app.
    + rewrite IH; [reflexivity|exact (Forall_inv_tail F)|exact (Forall_inv_tail T)|exact St|cbn in L; lia].
    + exact (Forall_inv F).
    + destruct gs as [|[q qs] gs]; [cbn [flatg flat_map app]; destruct r; [exact I|split; [apply St|intros []]]|]. cbn [flatg flat_map app fst snd stops]. pose proof (Forall_inv_tail T) as T'. destruct (Forall_inv T') as [_ N]. split; [exact N|intros []].
Qed.
Lemma flatg_len gs r : (length gs <= length (flatg gs ++ r))%nat.
Proof. rewrite app_length. induction gs as [|[p ss] gs IH]; [cbn; lia|]. change (flatg ((p, ss) :: gs)) with ((p :: ss) ++ flatg gs). rewrite app_length. cbn [length]. lia. Qed.
Lemma groups_all tag ps gs : In tag [13; 14; 17] -> Forall2 (group_made tag) ps gs -> Forall sigs_only gs /\ Forall (fun g => pkt_type (fst g) = tag) gs.
Proof. intros I F. induction F as [|p g ps gs G F [A B]]; [split; constructor|]. destruct (group_types tag p g) as [X Y]; [cbn [In] in *; tauto|exact G|]. split; constructor; assumption. Qed.
Lemma stop_groups tys gs r t : Forall (fun g : grp => pkt_type (fst g) = t) gs -> t <> 2 -> ~ In t tys -> stops tys r -> stops tys (flatg gs ++ r).
Proof. intros F N M S. destruct gs as [|[p ss] gs]; [exact S|]. cbn [flatg flat_map app fst stops]. pose proof (Forall_inv F) as E. cbn [fst] in E. rewrite E. auto. Qed.

(** what each part becomes *)
Definition sig_as (d : bytes) (s : sobject) : Prop := sig_from_content d = Ok (o_sig s).
Definition key_as (local : Z -> res Z) (d : bytes) (k : kobject) : Prop := pub_from_content d = Ok (ko_pub k) /\ ko_sec k = None /\ local (k_ctime (ko_pub k)) = Ok (ko_created k).
Definition part_as {A} (f : bytes -> A -> Prop) (p : part) (x : A * list sobject) : Prop := f (fst p) (fst x) /\ Forall2 sig_as (snd p) (snd x).
Lemma sigs_read ds ss os local : Forall2 (fun d s => made (2, d) s) ds ss -> mapM (TransKey.sig_from local) ss = Ok os -> Forall2 sig_as ds os.
Proof.
  intros F H. apply mapM_F2 in H. revert os H. induction F as [|d s ds ss M F IH]; intros os H; inversion H; subst; constructor; [|apply IH; assumption].
  unfold made in M. cbn [fst snd] in M. change (body_dec 2 d) with (do p <- sig_from_content d;; Ok (BSig p)) in M. apply bind_ok in M as (g & M & E). apply ok_inj in E. unfold sig_as. rewrite M. f_equal.
  match goal with H : TransKey.sig_from local s = Ok _ |- _ => unfold TransKey.sig_from in H; rewrite <- E in H; destruct g end.
  - destruct (_ || _) in H2; [|discriminate H2]. apply bind_ok in H2 as (t & _ & H2). apply ok_inj in H2 as <-. reflexivity.
  - destruct (4 <=? _) in H2; [|discriminate H2]. apply ok_inj in H2 as <-. reflexivity.
Qed.
Lemma parts_read {A} local (conv : pkt -> res A) (f : bytes -> A -> Prop) tag ps gs xs : (forall d p x, made (tag, d) p -> conv p = Ok x -> f d x) -> Forall2 (group_made tag) ps gs -> mapM (with_sigs local conv) gs = Ok xs -> Forall2 (part_as f) ps xs.
Proof.
  intros C F H. apply mapM_F2 in H. revert xs H. induction F as [|p g ps gs (M & Ms) F IH]; intros xs H; inversion H as [|a x b y W Ws]; subst; constructor; [|apply IH; assumption].
  unfold with_sigs in W. apply bind_ok in W as (v & W1 & W). apply bind_ok in W as (os & W2 & W). apply ok_inj in W as <-. split; [exact (C _ _ _ M W1)|exact (sigs_read _ _ _ local Ms W2)].
Qed.
Lemma key_read local tag d p k : tag = 6 \/ tag = 14 -> made (tag, d) p -> key_from local false p = Ok k -> key_as local d k.
Proof.
  intros T M H. unfold made in M. cbn [fst snd] in M. assert (Q : exists b q, p_body p = BPub b q /\ pub_from_content d = Ok q).
  { destruct T as [-> | ->].
    - change (body_dec 6 d) with (do p <- pub_from_content d;; Ok (BPub false p)) in M. apply bind_ok in M as (q & M & E). apply ok_inj in E. eauto.
    - change (body_dec 14 d) with (do p <- pub_from_content d;; Ok (BPub true p)) in M. apply bind_ok in M as (q & M & E). apply ok_inj in E. eauto. }
  destruct Q as (b & q & B & P). unfold key_from in H. rewrite B in H. unfold key_from_pub in H. apply bind_ok in H as (t & L & H). apply ok_inj in H as <-. unfold key_as. cbn [ko_pub ko_sec ko_created]. auto.
Qed.
Definition uid_as (d : bytes) (u : header_format * text) : Prop := snd u = utf8_decode_replace d.
Definition attr_as (magic : bytes -> text) (d : bytes) (a : header_format * list (text * bytes)) : Prop := exists l, attrs_from_content d = Ok l /\ mapM (item_from magic) l = Ok (snd a).
Lemma uid_read d p u : made (13, d) p -> uid_from p = Ok u -> uid_as d u.
Proof. intros M H. unfold made in M. cbn [fst snd] in M. change (body_dec 13 d) with (Ok (BData (PUserId (utf8_decode_replace d)))) in M. apply ok_inj in M. unfold uid_from in H. rewrite <- M in H. apply ok_inj in H as <-. reflexivity. Qed.
Lemma attr_read magic d p a : made (17, d) p -> attr_from magic p = Ok a -> attr_as magic d a.
Proof.
  intros M H. unfold made in M. cbn [fst snd] in M. change (body_dec 17 d) with (do p <- attrs_from_content d;; Ok (BAttr p)) in M. apply bind_ok in M as (l & M & E). apply ok_inj in E. unfold attr_from in H. rewrite <- E in H.
  apply bind_ok in H as (i & I & H). apply ok_inj in H as <-. exists l. auto.
Qed.

(** Reading a certificate gives a public key whose parts are those of the certificate, in order, each with the signatures that follow it. *)
Theorem c115_parts local magic c octets k : cert_octets c octets -> read_key local magic (InBytes octets) false = Ok k ->
  tk_secret k = false /\ part_as (key_as local) (ct_primary c) (tk_key k, tk_sigs k) /\
  Forall2 (part_as uid_as) (ct_uids c) (tk_uids k) /\ Forall2 (part_as (attr_as magic)) (ct_attrs c) (tk_attrs k) /\ Forall2 (part_as (key_as local)) (ct_subs c) (tk_subs k).
Proof.
  intros C H. unfold read_key in H. apply bind_ok in H as (l & R & H). pose proof (packets_made c octets l C R) as F. unfold cert_packets in F.
  apply Forall2_app_inv_l in F as (l1 & l2 & F1 & F & ->). apply Forall2_app_inv_l in F as (l3 & l4 & F2 & F & ->). apply Forall2_app_inv_l in F as (l5 & l6 & F3 & F4 & ->).
  destruct (part_made _ _ _ F1) as ([p ss] & -> & G). destruct (parts_made _ _ _ F2) as (us & -> & Gu). destruct (parts_made _ _ _ F3) as (ats & -> & Ga). destruct (parts_made _ _ _ F4) as (sb & -> & Gs).
  destruct (group_types 6 _ _ ltac:(cbn; tauto) G) as [T S]. cbn [fst snd] in T, S. unfold sigs_only in S. cbn [snd] in S.
  destruct (groups_all 13 _ _ ltac:(cbn; tauto) Gu) as [Su Tu]. destruct (groups_all 17 _ _ ltac:(cbn; tauto) Ga) as [Sa Ta]. destruct (groups_all 14 _ _ ltac:(cbn; tauto) Gs) as [Ssb Tsb].
  cbn [fst snd app] in H. rewrite T in H. cbn [Z.eqb Pos.eqb] in H.
  assert (E : flatg sb = flatg sb ++ []) by now rewrite app_nil_r. rewrite E in H. clear E.
  assert (Z0 : forall tys, stops tys (@nil pkt)) by (intros; exact Logic.I).
  assert (Z1 : forall tys, ~ In 14 tys -> stops tys (flatg sb ++ [])) by (intros tys N; apply (stop_groups tys sb [] 14 Tsb ltac:(lia) N (Z0 tys))).
  assert (Z2 : forall tys, ~ In 14 tys -> ~ In 17 tys -> stops tys (flatg ats ++ flatg sb ++ [])) by (intros tys N M; apply (stop_groups tys ats _ 17 Ta ltac:(lia) M (Z1 tys N))).
  assert (Z3 : forall tys, ~ In 14 tys -> ~ In 17 tys -> ~ In 13 tys -> stops tys (flatg us ++ flatg ats ++ flatg sb ++ [])) by (intros tys N M L; apply (stop_groups tys us _ 13 Tu ltac:(lia) L (Z2 tys N M))).
  unfold from_packets in H. apply bind_ok in H as (v0 & _ & H). apply bind_ok in H as (ko & Hk & H).
  rewrite (span_app ss _ S (Z3 [] ltac:(cbn; tauto) ltac:(cbn; tauto) ltac:(cbn; tauto))) in H. apply bind_ok in H as (sigs & Hs & H).
  rewrite (spans_groups [13] us) in H; [|exact Su|eapply Forall_impl; [|exact Tu]; cbn; intros g Q; lia|apply Z2; cbn; lia|apply flatg_len]. apply bind_ok in H as (uids & Hu & H).
  rewrite (spans_groups [17] ats) in H; [|exact Sa|eapply Forall_impl; [|exact Ta]; cbn; intros g Q; lia|apply Z1; cbn; lia|apply flatg_len]. apply bind_ok in H as (attrs & Ha & H).
  rewrite (spans_groups [14; 7] sb) in H; [|exact Ssb|eapply Forall_impl; [|exact Tsb]; cbn; intros g Q; lia|apply Z0|apply flatg_len]. apply bind_ok in H as (subs & Hb & H).
  apply ok_inj in H as <-. cbn [tk_secret tk_key tk_sigs tk_uids tk_attrs tk_subs]. split; [reflexivity|]. destruct G as [G1 G2]. cbn [fst snd] in G1, G2. split; [split; [exact (key_read local 6 _ _ _ (or_introl eq_refl) G1 Hk)|exact (sigs_read _ _ _ local G2 Hs)]|].
  split; [exact (parts_read local _ _ 13 _ _ _ uid_read Gu Hu)|]. split; [exact (parts_read local _ _ 17 _ _ _ (attr_read magic) Ga Ha)|].
  refine (parts_read local _ _ 14 _ _ _ _ Gs Hb). intros d q x M X. exact (key_read local 14 d q x (or_intror eq_refl) M X).
Qed.
Print Assumptions c115_parts.
Theorem c115_user_id_text d u t : uid_as d u -> Forall scalar t -> d = utf8 t -> snd u = t.
Proof. intros H S ->. unfold uid_as in H. rewrite H. exact (decode_replace_utf8 t S). Qed.
Print Assumptions c115_user_id_text.

(** ** key ids *)
Lemma be2 x : be_bytes 2 x = [(x / 256) mod 256; x mod 256].
Proof. cbn [be_bytes]. change (8 * Z.of_nat 1) with 8. change (8 * Z.of_nat 0) with 0. change 255 with (Z.ones 8). rewrite !Z.land_ones by lia. rewrite !Z.shiftr_div_pow2 by lia. change (2 ^ 8) with 256. change (2 ^ 0) with 1. rewrite Z.div_1_r. reflexivity. Qed.
Lemma mpis_nonneg ms encs : Forall2 rfc_mpi ms encs -> Forall (fun i => 0 <= i) ms.
Proof. induction 1 as [|i e ms encs H _ IH]; constructor; [|exact IH]. destruct H as (l & x & -> & _ & _ & _ & V & W). apply wf_app in W as [_ W]. rewrite <- V. apply be_val_nonneg; exact W. Qed.
Lemma mpis_unique ms e1 : Forall2 rfc_mpi ms e1 -> forall e2, Forall2 rfc_mpi ms e2 -> e1 = e2.
Proof. induction 1 as [|i e ms encs H _ IH]; intros e2 H2; inversion H2; subst; [reflexivity|]. f_equal; [eapply rfc_mpi_unique; eauto|apply IH; assumption]. Qed.
Lemma rfc_key_fields v ct alg exp ms k : rfc_key v ct alg exp ms = Some k -> k_version k = v /\ k_ctime k = ct /\ KeyPackets.k_exp k = exp.
Proof.
  unfold rfc_key. intros H. destruct ms as [|a [|b [|c [|d [|? ?]]]]]; try discriminate H; match type of H with (if ?x then _ else _) = _ => destruct x; [|discriminate H] end; injection H as <-; cbn; auto.
Qed.
(** what key_to writes of a version 4 public key just read *)
Lemma back_same local mktime d ko fl k : clock_back local mktime -> key_body fl d k -> key_as local d ko ->
  ko_pub ko = k /\ k_version k = 4 /\ key_to mktime false ko = Ok (Pkt (ko_fmt ko) (BPub false k)).
Proof.
  intros Cl (ct & alg & ms & encs & Hct & Hk & F & -> & B) (P & S & L).
  destruct (c25_reserialise_iff_canonical fl 4 ct alg None ms encs k [] _ Hct (or_intror (conj (conj (Z.le_refl 4) eq_refl) eq_refl)) Hk (rfcs_readable _ _ F) B (eq_sym (app_nil_r _))) as [R _].
  rewrite R in P. apply ok_inj in P. destruct (rfc_key_fields _ _ _ _ _ _ Hk) as (V & T & X). rewrite <- P in L. rewrite T in L. pose proof (Cl _ _ Hct L) as M. split; [congruence|]. split; [exact V|].
  unfold key_to. rewrite M, S, <- P, V. cbn [bind]. replace (4 <? 4) with false by reflexivity. cbn [andb bind]. do 3 f_equal. rewrite <- T, <- X, <- V. destruct k; reflexivity.
Qed.
Lemma key_id_of fl md5 sha1 d k : (forall x, wf (sha1 x) /\ zlen (sha1 x) = 20) -> key_body fl d k -> key_id fl md5 sha1 k = Ok (hex_text (rfc_key_id sha1 d)).
Proof.
  intros Sh (ct & alg & ms & encs & Hct & Hk & F & -> & B).
  destruct (c37_fingerprint_v4_partial fl md5 sha1 4 ct alg None ms k Hct (or_intror (conj (conj (Z.le_refl 4) eq_refl) eq_refl)) (Z.le_refl 4) Hk) as (e2 & F2 & H).
  - pose proof (mpis_nonneg _ _ F) as N. rewrite Forall_forall in *. intros i I. split; [exact (N i I)|exact (B i I)].
  - intros x. apply Sh.
  - rewrite <- (mpis_unique _ _ F _ F2) in H. rewrite be2 in H. unfold rfc_key_id. change (skipn 12) with (fun l : bytes => skipn 12 l). cbv beta.
    rewrite (c37_key_id fl md5 sha1 k _ (proj1 (Sh _)) (proj2 (Sh _)) H). f_equal. f_equal.
    unfold slice_from. rewrite (proj2 (Sh _)). reflexivity.
Qed.
Theorem c115_key_id local mktime fl md5 sha1 d ko : clock_back local mktime -> (forall x, wf (sha1 x) /\ zlen (sha1 x) = 20) -> (exists k, key_body fl d k) -> key_as local d ko ->
  ko_key_id mktime fl md5 sha1 ko = Ok (hex_text (rfc_key_id sha1 d)).
Proof.
  intros Cl Sh (k & K) A. destruct (back_same local mktime d ko fl k Cl K A) as (P & V & W). unfold ko_key_id. rewrite P, V. cbn [Z.ltb Z.compare Pos.compare Pos.compare_cont]. rewrite W. cbn [bind p_body]. exact (key_id_of fl md5 sha1 d k Sh K).
Qed.
Print Assumptions c115_key_id.
Lemma own_ids_read local mktime magic fl md5 sha1 c octets tk : clock_back local mktime -> (forall x, wf (sha1 x) /\ zlen (sha1 x) = 20) ->
  cert_octets c octets -> read_key local magic (InBytes octets) false = Ok tk -> Forall (fun d => exists k, key_body fl d k) (map fst (ct_primary c :: ct_subs c)) ->
  own_ids mktime fl md5 sha1 tk = Ok (map hex_text (cert_ids sha1 c)).
Proof.
  intros Cl Sh C H K. destruct (c115_parts local magic c octets tk C H) as (_ & [P _] & _ & _ & S). unfold own_ids, cert_ids. rewrite map_map. rewrite map_cons in K. cbn [fst snd] in P.
  cbn [mapM map]. rewrite (c115_key_id local mktime fl md5 sha1 _ _ Cl Sh (Forall_inv K) P). cbn [bind]. enough (E : mapM (ko_key_id mktime fl md5 sha1) (map fst (tk_subs tk)) = Ok (map (fun x => hex_text (rfc_key_id sha1 x)) (map fst (ct_subs c)))) by now rewrite E.
  apply Forall_inv_tail in K. clear -Cl Sh K S. revert K. induction S as [|p x ps xs [A _] S IH]; intros K; [reflexivity|]. cbn [mapM map] in *. rewrite (c115_key_id local mktime fl md5 sha1 _ _ Cl Sh (Forall_inv K) A). cbn [bind]. rewrite (IH (Forall_inv_tail K)). reflexivity.
Qed.

(** ** the signatures *)
Lemma sig_dated local d s ts : dated_signature local d ts -> sig_as d s ->
  exists ob ty, k_body (ksig_of s) = V4 ob /\ has_type d ty /\ k_type (ksig_of s) = ty /\ sig_issuers (ksig_of s) = Ok (map hex_text (all_of 16 ts)) /\ (exists c, sig_created local (ksig_of s) = Ok c) /\
    exists h u, ts = h ++ u /\ holds_subpackets d h u /\ read_as d ob.
Proof.
  intros (h & u & x & c & -> & P & F & L) S. destruct (holds_read d h u P) as (_ & st & pk & ha & h2 & ms & E). unfold sig_as in S. pose proof S as S0. rewrite E in S. apply bind_ok in S as (hs & _ & S). apply bind_ok in S as (us & _ & S). apply ok_inj in S.
  assert (T : exists ty, has_type d ty /\ st = ty).
  { pose proof P as (st' & pk' & ha' & es1 & es2 & h2' & ms' & encs & A1 & A2 & M & R). pose proof (c31_read st' pk' ha' h es1 u es2 h2' ms' encs d A1 A2 M R) as E'. rewrite S0 in E'. symmetry in E'. apply bind_ok in E' as (hs' & _ & E'). apply bind_ok in E' as (us' & _ & E'). apply ok_inj in E'. rewrite <- S in E'. injection E' as -> _ _ _ _ _ _.
    exists st. split; [|reflexivity]. destruct R as (l1 & l2 & -> & _). unfold has_type. cbn [app]. eauto. }
  destruct T as (ty & T & <-). exists (sig_obj_of hs us), st. unfold ksig_of. rewrite <- S. cbn [k_body k_type]. assert (R : read_as d (sig_obj_of hs us)) by (rewrite <- S in S0; unfold read_as; do 8 eexists; split; [exact S0|reflexivity]).
  split; [reflexivity|]. split; [exact T|]. split; [reflexivity|]. unfold sig_issuers, sig_created. cbn [k_body]. split; [exact (c113_issuers d h u _ P R)|]. split; [exists c; rewrite (proj1 (c113_times local d h u _ x P R F)); exact L|].
  exists h, u. auto.
Qed.
Lemma type_fun d a b : has_type d a -> has_type d b -> a = b.
Proof. intros (r & ->) (r' & E). injection E as <- _. reflexivity. Qed.
Lemma ids_wf local d ts : dated_signature local d ts -> Forall wf (all_of 16 ts).
Proof.
  intros (h & u & x & c & -> & P & _). destruct (holds_read d h u P) as (W & _). unfold all_of. rewrite Forall_map. rewrite Forall_forall in *. intros t I. apply filter_In in I as [I _]. exact (W t I).
Qed.
Lemma cert_wf sha1 c : (forall x, wf (sha1 x) /\ zlen (sha1 x) = 20) -> Forall wf (cert_ids sha1 c).
Proof. intros Sh. unfold cert_ids. rewrite Forall_map, Forall_forall. intros x _. unfold rfc_key_id. destruct (Sh ([153; (zlen x / 256) mod 256; zlen x mod 256] ++ x)) as [W _]. rewrite <- (firstn_skipn 12 (sha1 _)) in W. apply wf_app in W as [_ W]. exact W. Qed.
Lemma issuer_common ids ts : Forall wf ids -> Forall wf (all_of 16 ts) -> ((exists x, In x (map hex_text (all_of 16 ts)) /\ In x (map hex_text ids)) <-> issued_by ids ts).
Proof.
  intros W1 W2. rewrite Forall_forall in W1, W2. split.
  - intros (x & A & B). apply in_map_iff in A as (a & <- & A). apply in_map_iff in B as (b & E & B). apply hex_text_inj in E; [|exact (W1 b B)|exact (W2 a A)]. exists a. rewrite <- E in *. auto.
  - intros (a & A & B). exists (hex_text a). split; apply in_map; assumption.
Qed.
Lemma candidate_self local sha1 c types d s ts : (forall x, wf (sha1 x) /\ zlen (sha1 x) = 20) -> dated_signature local d ts -> sig_as d s ->
  ((exists cr, candidate local (map hex_text (cert_ids sha1 c)) types (ksig_of s) cr) <-> self_signature (cert_ids sha1 c) types d ts).
Proof.
  intros Sh D S. destruct (sig_dated local d s ts D S) as (ob & ty & _ & T & E & I & (cr & Cr) & _). pose proof (issuer_common (cert_ids sha1 c) ts (cert_wf sha1 c Sh) (ids_wf local d ts D)) as Q. split.
  - intros (cr' & (ids & x & I' & A & B) & Ty & _). rewrite I in I'. apply ok_inj in I' as <-. split; [apply Q; eauto|]. exists ty. rewrite <- E in *. auto.
  - intros (Is & ty' & T' & Ty). apply Q in Is as (x & A & B). rewrite <- (type_fun _ _ _ T T') in Ty. rewrite <- E in Ty. exists cr. split; [eauto|]. auto.
Qed.
Lemma recent_total local own types sigs : Forall (fun k => (exists ids, sig_issuers k = Ok ids) /\ exists c, sig_created local k = Ok c) sigs -> forall i acc, exists r, most_recent_from local own types sigs i acc = Ok r.
Proof.
  induction 1 as [|k sigs ((ids & I) & (c & C)) F IH]; intros i acc; cbn [most_recent_from]; [eauto|]. rewrite I. cbn [bind]. destruct (negb (meet ids own)); [apply IH|]. destruct (negb (is_in (k_type k) types)); [apply IH|]. rewrite C. cbn [bind]. apply IH.
Qed.

(** ** what a part says *)
Lemma F2_nth {A B} (R : A -> B -> Prop) l m n a : Forall2 R l m -> nth_error l n = Some a -> exists b, nth_error m n = Some b /\ R a b.
Proof. intros F. revert n. induction F as [|x y l m H F IH]; intros [|n] E; try discriminate E; cbn [nth_error] in *; [injection E as <-; eauto|exact (IH n E)]. Qed.
Lemma F2_nth_none {A B} (R : A -> B -> Prop) l m n : Forall2 R l m -> nth_error l n = None -> nth_error m n = None.
Proof. intros F. revert n. induction F as [|x y l m H F IH]; intros [|n] E; try discriminate E; cbn [nth_error] in *; auto. Qed.
Lemma sigs_of local magic c octets tk fl pl bodies : cert_octets c octets -> read_key local magic (InBytes octets) false = Ok tk ->
  Forall (fun d => exists k, key_body fl d k) (map fst (ct_primary c :: ct_subs c)) -> bodies_at c pl = Some bodies ->
  exists v (tys : list Z * list Z) sigs, sigs_at tk pl = Some (v, tys, sigs) /\ 4 <= v /\ Forall2 sig_as bodies sigs /\ forall (rev : bool) (t : Z), In t (if rev then snd tys else fst tys) <-> In t (types_at pl rev).
Proof.
  intros C H K B. destruct (c115_parts local magic c octets tk C H) as (_ & [P Ps] & U & A & S). cbn [fst snd] in *.
  assert (Q : forall d ko, (exists k, key_body fl d k) -> key_as local d ko -> k_version (ko_pub ko) = 4).
  { intros d ko (k & ct & alg & ms & encs & Hct & Hk & F & -> & Bd) (X & _ & _). destruct (c25_reserialise_iff_canonical fl 4 ct alg None ms encs k [] _ Hct (or_intror (conj (conj (Z.le_refl 4) eq_refl) eq_refl)) Hk (rfcs_readable _ _ F) Bd (eq_sym (app_nil_r _))) as [R _].
    rewrite R in X. apply ok_inj in X as <-. exact (proj1 (rfc_key_fields _ _ _ _ _ _ Hk)). }
  destruct pl as [|n|n|n]; unfold bodies_at in B; cbn [sigs_at] in *.
  - cbn [option_map] in B. injection B as <-. do 3 eexists. split; [reflexivity|]. rewrite map_cons in K. rewrite (Q _ _ (Forall_inv K) P). split; [lia|]. split; [exact Ps|]. intros [|] t; cbn; tauto.
  - match type of B with context [@nth_error ?T ?l n] => destruct (@nth_error T l n) as [p|] eqn:N end; [|discriminate B]. injection B as <-. destruct (F2_nth _ _ _ n p U N) as (x & E & _ & X). rewrite E. cbn [option_map]. do 3 eexists. split; [reflexivity|]. split; [lia|]. split; [exact X|]. intros [|] t; cbn; tauto.
  - match type of B with context [@nth_error ?T ?l n] => destruct (@nth_error T l n) as [p|] eqn:N end; [|discriminate B]. injection B as <-. destruct (F2_nth _ _ _ n p A N) as (x & E & _ & X). rewrite E. cbn [option_map]. do 3 eexists. split; [reflexivity|]. split; [lia|]. split; [exact X|]. intros [|] t; cbn; tauto.
  - match type of B with context [@nth_error ?T ?l n] => destruct (@nth_error T l n) as [p|] eqn:N end; [|discriminate B]. injection B as <-. destruct (F2_nth _ _ _ n p S N) as (x & E & X1 & X). rewrite E. cbn [option_map]. do 3 eexists. split; [reflexivity|].
    rewrite (Q _ _ (proj1 (Forall_forall _ _) K _ (in_map fst (ct_primary c :: ct_subs c) p (or_intror (nth_error_In _ _ N)))) X1). split; [lia|]. split; [exact X|]. intros [|] t; cbn; tauto.
Qed.
Lemma dated_total local bodies sigs : Forall (fun d => exists ts, dated_signature local d ts) bodies -> Forall2 sig_as bodies sigs -> Forall (fun k => (exists ids, sig_issuers k = Ok ids) /\ exists c, sig_created local k = Ok c) (map ksig_of sigs).
Proof.
  intros D F. induction F as [|d s ds ss S F IH]; cbn [map]; [constructor|]. destruct (Forall_inv D) as (ts & T). destruct (sig_dated local d s ts T S) as (_ & _ & _ & _ & _ & I & Cr & _). constructor; [eauto|exact (IH (Forall_inv_tail D))].
Qed.
(** the position of the governing signature *)
Lemma recent_at local sha1 c types a data b ts sa s sb : modern local -> (forall x, wf (sha1 x) /\ zlen (sha1 x) = 20) -> Forall2 sig_as (a ++ data :: b) (sa ++ s :: sb) -> length a = length sa ->
  Forall (fun d => exists ts, dated_signature local d ts) (a ++ data :: b) -> dated_signature local data ts -> self_signature (cert_ids sha1 c) types data ts ->
  Forall (fun d => forall ts, dated_signature local d ts -> ~ self_signature (cert_ids sha1 c) types d ts) b ->
  most_recent_from local (map hex_text (cert_ids sha1 c)) types (map ksig_of (sa ++ s :: sb)) 0 None = Ok (Some (length sa)).
Proof.
  intros M Sh F L D T Sf N. destruct (recent_total local (map hex_text (cert_ids sha1 c)) types _ (dated_total local _ _ D F) 0 None) as (r & R). rewrite R. f_equal.
  assert (Ps : sig_as data s). { destruct (F2_nth _ _ _ (length a) data F) as (s' & E & Q); [rewrite nth_error_app2 by lia; rewrite Nat.sub_diag; reflexivity|]. rewrite L, nth_error_app2, Nat.sub_diag in E by lia. injection E as <-. exact Q. }
  assert (At : nth_error (map ksig_of (sa ++ s :: sb)) (length sa) = Some (ksig_of s)) by (rewrite nth_error_map, nth_error_app2, Nat.sub_diag by lia; reflexivity).
  destruct (proj2 (candidate_self local sha1 c types data s ts Sh T Ps) Sf) as (cr & Cd).
  destruct (most_recent_loop local _ _ M _ _ _ _ R) as [(j & k & ck & E & Ck & -> & Late)|(_ & No)]; [|exfalso; exact (No _ _ _ At Cd)]. cbn [Nat.add]. f_equal.
  destruct (Nat.lt_trichotomy j (length sa)) as [Q|[Q|Q]]; [exfalso; exact (Late _ _ _ Q At Cd)|exact Q|]. exfalso.
  rewrite nth_error_map, nth_error_app2 in E by lia. destruct (j - length sa)%nat as [|i] eqn:J; [lia|]. cbn [nth_error] in E. destruct (nth_error sb i) as [s'|] eqn:Ni; [|discriminate E]. injection E as <-.
  assert (Z1 : nth_error (sa ++ s :: sb) j = Some s') by (rewrite nth_error_app2 by lia; rewrite J; exact Ni).
  destruct (nth_error b i) as [d'|] eqn:Nb.
  - destruct (F2_nth _ _ _ j d' F) as (s2 & E2 & S2); [rewrite nth_error_app2 by lia; rewrite L, J; exact Nb|]. rewrite Z1 in E2. injection E2 as <-.
    apply nth_error_In in Nb. destruct (proj1 (Forall_forall _ _) D d' (in_or_app a (data :: b) d' (or_intror (or_intror Nb)))) as (ts' & T'). apply (proj1 (Forall_forall _ _) N d' Nb ts' T'). apply (candidate_self local sha1 c types d' s' ts' Sh T' S2). eauto.
  - assert (Y : nth_error (a ++ data :: b) j = None) by (rewrite nth_error_app2 by lia; rewrite L, J; exact Nb). rewrite (F2_nth_none _ _ _ j F Y) in Z1. discriminate Z1.
Qed.

(** The attribute of a part reports what the first subpacket of its type says in the last self-signature of its kind there. *)
Theorem c115_reports_partial local mktime magic fl md5 sha1 c octets tk pl n p rev bodies a data ts b : modern local -> clock_back local mktime -> (forall x, wf (sha1 x) /\ zlen (sha1 x) = 20) ->
  cert_octets c octets -> Forall (fun d => exists k, key_body fl d k) (map fst (ct_primary c :: ct_subs c)) -> read_key local magic (InBytes octets) false = Ok tk ->
  told n = Some (p, rev) -> bodies_at c pl = Some bodies -> Forall (fun d => exists ts, dated_signature local d ts) bodies ->
  bodies = a ++ data :: b -> dated_signature local data ts -> self_signature (cert_ids sha1 c) (types_at pl rev) data ts ->
  Forall (fun d => forall ts, dated_signature local d ts -> ~ self_signature (cert_ids sha1 c) (types_at pl rev) d ts) b ->
  (forall d v, first_of (rfc_place p) ts d -> rfc_says p d v -> cert_get local mktime fl md5 sha1 tk pl n = Some (Ok (KVal v))) /\
  (none_of (rfc_place p) ts -> cert_get local mktime fl md5 sha1 tk pl n = Some (Ok (KVal VNone))).
Proof.
  intros M Cl Sh C K H Tn B D -> T Sf N. pose proof (own_ids_read local mktime magic fl md5 sha1 c octets tk Cl Sh C H K) as Own.
  destruct (sigs_of local magic c octets tk fl pl _ C H K B) as (v0 & (slf & rv) & sigs & At & V & F & Ty). cbn [fst snd] in Ty.
  destruct (Forall2_app_inv_l _ _ F) as (sa & sb' & Fa & Fb & E). inversion Fb as [|x s y sb Ps Pb]; subst. assert (La : length a = length sa) by (clear -Fa; induction Fa; cbn; congruence).
  pose proof (sig_dated local data s ts T Ps) as (ob & ty & Kb & _ & _ & _ & _ & h & u & -> & P & R).
  assert (Rec : most_recent_from local (map hex_text (cert_ids sha1 c)) (if rev then rv else slf) (map ksig_of (sa ++ s :: sb)) 0 None = Ok (Some (length sa))).
  { apply (recent_at local sha1 c _ a data b (h ++ u)); try assumption.
    - destruct Sf as (Is & t & Ht & It). split; [exact Is|]. exists t. split; [exact Ht|]. apply (proj2 (Ty rev t)). exact It.
    - rewrite Forall_forall in N |- *. intros d Id ts' Td (Is & t & Ht & It). apply (N d Id ts' Td). split; [exact Is|]. exists t. split; [exact Ht|]. apply (proj1 (Ty rev t)). exact It. }
  assert (Get : forall r, get_prop ob p = Ok r -> cert_get local mktime fl md5 sha1 tk pl n = Some (Ok (KVal r))).
  { intros r Pr. unfold cert_get. rewrite At. replace (4 <=? v0) with true by lia. f_equal. destruct (sa ++ s :: sb) as [|s0 ss] eqn:Es; [destruct sa; discriminate Es|]. rewrite Own. cbn [bind]. rewrite <- Es in *.
    unfold key_get. assert (Tb : exists d, mixin_table n = (AProp p, d, rev)) by (destruct n; try discriminate Tn; injection Tn as <- <-; eexists; reflexivity). destruct Tb as (df & ->).
    unfold mixin_get, most_recent. cbn [sd_version sd_own sd_self sd_rev sd_sigs]. replace (4 <=? v0) with true by lia. rewrite Rec. cbn [bind]. rewrite nth_error_map, nth_error_app2, Nat.sub_diag by lia. cbn [nth_error option_map]. unfold sig_attr. rewrite Kb, Pr. reflexivity. }
  assert (Rp : In p reported) by (destruct n; try discriminate Tn; injection Tn as <- _; cbn; tauto).
  destruct (c113_reports_partial data h u ob p P R Rp) as [G1 G2]. split; [intros d r Fd Sd; exact (Get r (G1 d r Fd Sd))|intros No; exact (Get VNone (G2 No))].
Qed.
Print Assumptions c115_reports_partial.
(** Where no signature of the kind is a self-signature, the attribute is the default. *)
Theorem c115_unsaid local mktime magic fl md5 sha1 c octets tk pl n p rev bodies : modern local -> clock_back local mktime -> (forall x, wf (sha1 x) /\ zlen (sha1 x) = 20) ->
  cert_octets c octets -> Forall (fun d => exists k, key_body fl d k) (map fst (ct_primary c :: ct_subs c)) -> read_key local magic (InBytes octets) false = Ok tk ->
  told n = Some (p, rev) -> bodies_at c pl = Some bodies -> Forall (fun d => exists ts, dated_signature local d ts) bodies ->
  Forall (fun d => forall ts, dated_signature local d ts -> ~ self_signature (cert_ids sha1 c) (types_at pl rev) d ts) bodies ->
  cert_get local mktime fl md5 sha1 tk pl n = Some (Ok (KVal (unsaid n))).
Proof.
  intros M Cl Sh C K H Tn B D N. pose proof (own_ids_read local mktime magic fl md5 sha1 c octets tk Cl Sh C H K) as Own.
  destruct (sigs_of local magic c octets tk fl pl _ C H K B) as (v0 & (slf & rv) & sigs & At & V & F & Ty). cbn [fst snd] in Ty.
  set (own := match sigs with [] => [] | _ => map hex_text (cert_ids sha1 c) end).
  assert (Rec : most_recent_from local own (if rev then rv else slf) (map ksig_of sigs) 0 None = Ok None).
  { destruct (recent_total local own (if rev then rv else slf) _ (dated_total local _ _ D F) 0 None) as (r & R). rewrite R. f_equal. destruct (most_recent_loop local _ _ M _ _ _ _ R) as [(j & k & ck & E & Ck & _ & _)|(-> & _)]; [exfalso|reflexivity].
    rewrite nth_error_map in E. destruct (nth_error sigs j) as [s|] eqn:Nj; [|discriminate E]. injection E as <-. destruct (nth_error bodies j) as [d|] eqn:Nb; [|rewrite (F2_nth_none _ _ _ j F Nb) in Nj; discriminate Nj].
    destruct (F2_nth _ _ _ j d F Nb) as (s' & E & S). rewrite Nj in E. injection E as <-. assert (Eo : own = map hex_text (cert_ids sha1 c)) by (destruct sigs; [destruct j; discriminate Nj|reflexivity]). rewrite Eo in Ck.
    apply nth_error_In in Nb. destruct (proj1 (Forall_forall _ _) D d Nb) as (ts & T). apply (proj1 (Forall_forall _ _) N d Nb ts T). destruct (proj1 (candidate_self local sha1 c _ d s ts Sh T S) (ex_intro _ ck Ck)) as (Is & t & Ht & It). split; [exact Is|]. exists t. split; [exact Ht|]. apply (proj1 (Ty rev t)). exact It. }
  assert (Tb : exists q, mixin_table n = (q, unsaid n, rev)) by (destruct n; try discriminate Tn; injection Tn as <- <-; eexists; reflexivity). destruct Tb as (q & Tb).
  unfold cert_get. rewrite At. replace (4 <=? v0) with true by lia. f_equal. assert (Eo : match sigs with [] => Ok [] | _ => own_ids mktime fl md5 sha1 tk end = Ok own) by (subst own; destruct sigs; [reflexivity|exact Own]). rewrite Eo. cbn [bind]. clearbody own.
  unfold key_get. rewrite Tb. unfold mixin_get, most_recent. cbn [sd_version sd_own sd_self sd_rev sd_sigs]. replace (4 <=? v0) with true by lia. rewrite Rec. reflexivity.
Qed.
Print Assumptions c115_unsaid.
(** What is not so: a self-signature that says when the key expires, the only signature of the part, is reported as no expiration. *)
Theorem c115_expiration_refuted local mktime magic fl md5 sha1 c octets tk pl data ts d : modern local -> clock_back local mktime -> (forall x, wf (sha1 x) /\ zlen (sha1 x) = 20) ->
  cert_octets c octets -> Forall (fun d => exists k, key_body fl d k) (map fst (ct_primary c :: ct_subs c)) -> read_key local magic (InBytes octets) false = Ok tk ->
  bodies_at c pl = Some [data] -> dated_signature local data ts -> self_signature (cert_ids sha1 c) (types_at pl false) data ts ->
  first_of 9 ts d -> be_val d <> 0 -> none_of 31 ts ->
  cert_get local mktime fl md5 sha1 tk pl K_expiration_time = Some (Ok (KVal VNone)).
Proof.
  intros M Cl Sh C K H B T Sf F9 Nz N31. pose proof (own_ids_read local mktime magic fl md5 sha1 c octets tk Cl Sh C H K) as Own.
  destruct (sigs_of local magic c octets tk fl pl _ C H K B) as (v0 & (slf & rv) & sigs & At & V & F & Ty). cbn [fst snd] in Ty.
  inversion F as [|x s y sb Ps Pb]; subst. inversion Pb; subst. pose proof (sig_dated local data s ts T Ps) as (ob & ty & Kb & _ & _ & I & _ & h & u & -> & P & R).
  assert (D : Forall (fun d => exists ts, dated_signature local d ts) [data]) by (constructor; [eauto|constructor]).
  assert (Rec : most_recent_from local (map hex_text (cert_ids sha1 c)) slf [ksig_of s] 0 None = Ok (Some 0%nat)).
  { refine (recent_at local sha1 c slf [] data [] (h ++ u) [] s [] M Sh F eq_refl D T _ (Forall_nil _)). destruct Sf as (Is & t & Ht & It). split; [exact Is|]. exists t. split; [exact Ht|]. apply (proj2 (Ty false t)). exact It. }
  unfold cert_get. rewrite At. replace (4 <=? v0) with true by lia. rewrite Own. cbn [bind]. f_equal. unfold key_get. cbn [mixin_table]. unfold mixin_get, most_recent. cbn [sd_version sd_own sd_self sd_rev sd_sigs map]. replace (4 <=? v0) with true by lia. rewrite Rec.
  cbn [bind nth_error]. unfold sig_attr. rewrite Kb. unfold get_key_expiration. rewrite (first_time data h u ob 9 d P R ltac:(cbn; tauto) F9). cbn [bind truthy]. replace (negb (negb (be_val d =? 0))) with false by lia. unfold target_of.
  destruct (read_objs data h u ob P R 31) as (l & E & S). rewrite (none_filter _ _ N31) in E. apply ok_inj in E as <-. rewrite S. cbn [map]. unfold sig_issuers in I. rewrite Kb in I. rewrite I. cbn [bind revocable_from Nat.eqb]. reflexivity.
Qed.
Print Assumptions c115_expiration_refuted.

(** ** a certificate *)
Definition ct_local (t : Z) : res Z := if 0 <=? t then Ok (t * 1000000) else Err ValueError.
Definition ct_mktime (c : Z) : res Z := Ok (c / 1000000).
Definition ct_magic (d : bytes) : text := [].
Definition ct_sha (x : bytes) : bytes := map (fun n => nth n x 0 mod 256) (seq 0 12 ++ seq 6 8).
Definition ct_key : bytes := [4; 0; 0; 0; 100; 1; 0; 4; 11; 0; 2; 3].
Definition ct_sub : bytes := [4; 0; 0; 0; 101; 1; 0; 4; 13; 0; 2; 3].
Definition ct_sig_body (ty : Z) (hashed : bytes) (issuer : bytes) : bytes := [4; ty; 1; 8] ++ [0; zlen hashed] ++ hashed ++ [0; zlen issuer + 2] ++ (zlen issuer + 1) :: 16 :: issuer ++ [17; 34] ++ [0; 3; 5].
Definition ct_id : bytes := rfc_key_id ct_sha ct_key.
Definition ct_sub_id : bytes := rfc_key_id ct_sha ct_sub.
Definition ct_own : bytes := ct_sig_body 19 [5; 2; 0; 0; 0; 200; 4; 11; 9; 8; 7; 2; 27; 3] ct_id.
Definition ct_other : bytes := ct_sig_body 16 [5; 2; 0; 0; 1; 0; 2; 11; 2] [9; 9; 9; 9; 9; 9; 9; 9].
Definition ct_direct : bytes := ct_sig_body 31 [5; 2; 0; 0; 0; 200; 5; 9; 0; 0; 0; 60] ct_id.
Definition ct_binding : bytes := ct_sig_body 24 [5; 2; 0; 0; 0; 201; 2; 27; 12] ct_id.
Definition ex_cert : cert := Cert (ct_key, [ct_direct]) [([97; 195; 169], [ct_own; ct_other])] [] [(ct_sub, [ct_binding])].
Definition ct_raw : list raw_packet := map (fun r => Raw OldH (fst r) (snd r)) (cert_packets ex_cert).
Definition ct_wire : bytes := flat_map (fun r => (128 + 4 * ptype r) :: zlen (pcontent r) :: pcontent r) ct_raw.
Lemma old_wire l : Forall (fun r => 0 <= ptype r <= 15 /\ zlen (pcontent r) < 256 /\ hfmt r = OldH) l -> rfc_packets l (flat_map (fun r => (128 + 4 * ptype r) :: zlen (pcontent r) :: pcontent r) l).
Proof.
  induction 1 as [|[f t b] l (A & B & E) F IH]; [constructor|]. cbn [flat_map ptype pcontent hfmt] in *. subst f. apply (rps_cons false (Raw OldH t b) l ((128 + 4 * t) :: zlen b :: b)); [|exact IH].
  replace (128 + 4 * t) with (128 + 4 * t + 0) by lia. apply (rp_old t b 0 [zlen b] A). pose proof (zlen_nonneg b) as N. assert (Q : rfc_old_length (be_val [zlen b]) 0 [zlen b]) by (constructor; [reflexivity|apply Forall_cons; [unfold byte; lia|apply Forall_nil]]). replace (be_val [zlen b]) with (zlen b) in Q by (generalize (zlen b); intros x; cbn [be_val]; change (zlen (@nil Z)) with 0; lia). exact Q.
Qed.
Example cert_wire : cert_octets ex_cert ct_wire.
Proof. exists ct_raw. split; [apply old_wire|reflexivity]. repeat (apply Forall_cons; [vm_compute; intuition discriminate|]). apply Forall_nil. Qed.
Lemma ct_keys : Forall (fun d => exists k, key_body Z.log2 d k) (map fst (ct_primary ex_cert :: ct_subs ex_cert)).
Proof.
  assert (M : forall a b, [0; a; b] = [0; a] ++ [b]) by reflexivity.
  apply Forall_cons; [|apply Forall_cons; [|apply Forall_nil]]; eexists.
  - exists 100, 1, [11; 3], [[0; 4; 11]; [0; 2; 3]]. split; [lia|]. split; [reflexivity|]. split; [|split; [reflexivity|]].
    + apply Forall2_cons; [|apply Forall2_cons; [|constructor]]; [exists [0; 4], [11]|exists [0; 2], [3]]; repeat (split; [reflexivity|]); wfl.
    + repeat (apply Forall_cons; [split; [vm_compute; discriminate|reflexivity]|]). apply Forall_nil.
  - exists 101, 1, [13; 3], [[0; 4; 13]; [0; 2; 3]]. split; [lia|]. split; [reflexivity|]. split; [|split; [reflexivity|]].
    + apply Forall2_cons; [|apply Forall2_cons; [|constructor]]; [exists [0; 4], [13]|exists [0; 2], [3]]; repeat (split; [reflexivity|]); wfl.
    + repeat (apply Forall_cons; [split; [vm_compute; discriminate|reflexivity]|]). apply Forall_nil.
Qed.
Lemma ct_modern : modern ct_local.
Proof. intros t c H. unfold ct_local in H. destruct (0 <=? t) eqn:E; [|discriminate H]. apply ok_inj in H. lia. Qed.
Lemma ct_clock : clock_back ct_local ct_mktime.
Proof. intros t c B H. unfold ct_local in H. replace (0 <=? t) with true in H by lia. apply ok_inj in H as <-. unfold ct_mktime. now rewrite Z.div_mul by lia. Qed.
Lemma ct_sha_ok : forall x, wf (ct_sha x) /\ zlen (ct_sha x) = 20.
Proof. intros x. split; [|reflexivity]. unfold ct_sha. apply Forall_forall. intros y I. apply in_map_iff in I as (n & <- & _). unfold byte. apply Z.mod_pos_bound. lia. Qed.
Definition own_h : list triple := [(2, false, [0; 0; 0; 200]); (11, false, [9; 8; 7]); (27, false, [3])].
Definition direct_h : list triple := [(2, false, [0; 0; 0; 200]); (9, false, [0; 0; 0; 60])].
Lemma own_dated : dated_signature ct_local ct_own (own_h ++ [(16, false, ct_id)]).
Proof.
  exists own_h, [(16, false, ct_id)], [0; 0; 0; 200], 200000000. split; [reflexivity|]. split; [|split; [exists [], false; eexists; split; [reflexivity|constructor]|reflexivity]].
  exists 19, 1, 8, [[5; 2; 0; 0; 0; 200]; [4; 11; 9; 8; 7]; [2; 27; 3]], [9 :: 16 :: ct_id], [17; 34], [5], [[0; 3; 5]].
  split; [unfold rfc_area, own_h; repeat (constructor; [apply sv_sub; [cbn; lia|reflexivity|reflexivity]|]); constructor|].
  split; [unfold rfc_area; constructor; [apply sv_sub; [cbn; lia|reflexivity|reflexivity]|constructor]|].
  split; [repeat constructor; exists [0; 3], [5]; repeat split; repeat constructor; lia|].
  exists [0; 14], [0; 10]. split; [reflexivity|]. repeat (split; [reflexivity|]). apply wfb_spec. reflexivity.
Qed.
Lemma direct_dated : dated_signature ct_local ct_direct (direct_h ++ [(16, false, ct_id)]).
Proof.
  exists direct_h, [(16, false, ct_id)], [0; 0; 0; 200], 200000000. split; [reflexivity|]. split; [|split; [exists [], false; eexists; split; [reflexivity|constructor]|reflexivity]].
  exists 31, 1, 8, [[5; 2; 0; 0; 0; 200]; [5; 9; 0; 0; 0; 60]], [9 :: 16 :: ct_id], [17; 34], [5], [[0; 3; 5]].
  split; [unfold rfc_area, direct_h; repeat (constructor; [apply sv_sub; [cbn; lia|reflexivity|reflexivity]|]); constructor|].
  split; [unfold rfc_area; constructor; [apply sv_sub; [cbn; lia|reflexivity|reflexivity]|constructor]|].
  split; [repeat constructor; exists [0; 3], [5]; repeat split; repeat constructor; lia|].
  exists [0; 12], [0; 10]. split; [reflexivity|]. repeat (split; [reflexivity|]). apply wfb_spec. reflexivity.
Qed.
Lemma other_dated : dated_signature ct_local ct_other ([(2, false, [0; 0; 1; 0]); (11, false, [2])] ++ [(16, false, [9; 9; 9; 9; 9; 9; 9; 9])]).
Proof.
  exists [(2, false, [0; 0; 1; 0]); (11, false, [2])], [(16, false, [9; 9; 9; 9; 9; 9; 9; 9])], [0; 0; 1; 0], 256000000. split; [reflexivity|]. split; [|split; [exists [], false; eexists; split; [reflexivity|constructor]|reflexivity]].
  exists 16, 1, 8, [[5; 2; 0; 0; 1; 0]; [2; 11; 2]], [[9; 16; 9; 9; 9; 9; 9; 9; 9; 9]], [17; 34], [5], [[0; 3; 5]].
  split; [unfold rfc_area; repeat (constructor; [apply sv_sub; [cbn; lia|reflexivity|reflexivity]|]); constructor|].
  split; [unfold rfc_area; constructor; [apply sv_sub; [cbn; lia|reflexivity|reflexivity]|constructor]|].
  split; [repeat constructor; exists [0; 3], [5]; repeat split; repeat constructor; lia|].
  exists [0; 9], [0; 10]. split; [reflexivity|]. repeat (split; [reflexivity|]). apply wfb_spec. reflexivity.
Qed.
(** the preferred ciphers of the user id, from its own certification and not from the later one of another key; and the expiration that is not seen *)
Example cert_reads : exists tk, read_key ct_local ct_magic (InBytes ct_wire) false = Ok tk /\
  cert_get ct_local ct_mktime Z.log2 ct_sha ct_sha tk (OnUserId 0) K_symmetric = Some (Ok (KVal (VList [9; 8; 7]))) /\
  cert_get ct_local ct_mktime Z.log2 ct_sha ct_sha tk (OnUserId 0) K_sign = Some (Ok (KVal (VBool true))) /\
  cert_get ct_local ct_mktime Z.log2 ct_sha ct_sha tk (OnSubkey 0) K_sign = Some (Ok (KVal (VBool false))) /\
  cert_get ct_local ct_mktime Z.log2 ct_sha ct_sha tk OnKey K_expiration_time = Some (Ok (KVal VNone)) /\
  cert_get ct_local ct_mktime Z.log2 ct_sha ct_sha tk (OnUserId 0) K_revocation_code = Some (Ok (KVal VNone)).
Proof. eexists. split; [vm_compute; reflexivity|]. repeat (split; [vm_compute; reflexivity|]). vm_compute. reflexivity. Qed.
Example cert_hyps : bodies_at ex_cert (OnUserId 0) = Some ([] ++ ct_own :: [ct_other]) /\ Forall (fun d => exists ts, dated_signature ct_local d ts) [ct_own; ct_other] /\
  self_signature (cert_ids ct_sha ex_cert) (types_at (OnUserId 0) false) ct_own (own_h ++ [(16, false, ct_id)]) /\
  first_of (rfc_place P_preferred_symmetric) (own_h ++ [(16, false, ct_id)]) [9; 8; 7] /\ rfc_says P_preferred_symmetric [9; 8; 7] (VList [9; 8; 7]) /\
  first_of 9 (direct_h ++ [(16, false, ct_id)]) [0; 0; 0; 60] /\ self_signature (cert_ids ct_sha ex_cert) (types_at OnKey false) ct_direct (direct_h ++ [(16, false, ct_id)]).
Proof.
  assert (H : forall hs d ty tys, ~ In 16 (map (fun t : triple => fst (fst t)) hs) -> has_type d ty -> In ty tys -> self_signature (cert_ids ct_sha ex_cert) tys d (hs ++ [(16, false, ct_id)])).
  { intros hs d ty tys _ T I. split; [|eauto]. exists ct_id. split; [unfold all_of; rewrite filter_app, map_app; apply in_or_app; right; left; reflexivity|left; reflexivity]. }
  split; [reflexivity|]. split; [apply Forall_cons; [eexists; exact own_dated|apply Forall_cons; [eexists; exact other_dated|apply Forall_nil]]|].
  split; [apply (H own_h ct_own 19); [cbn; intuition discriminate|eexists; reflexivity|cbn; tauto]|].
  split; [exists [(2, false, [0; 0; 0; 200])], false; eexists; split; [reflexivity|apply Forall_cons; [cbn; discriminate|apply Forall_nil]]|].
  split; [reflexivity|].
  split; [exists [(2, false, [0; 0; 0; 200])], false; eexists; split; [reflexivity|apply Forall_cons; [cbn; discriminate|apply Forall_nil]]|].
  apply (H direct_h ct_direct 31); [cbn; intuition discriminate|eexists; reflexivity|cbn; tauto].
Qed.
