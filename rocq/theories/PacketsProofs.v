From Verif Require Import Base BaseProofs Spec Utils UtilsProofs HexProofs Text Utf8 SpecUtf8 Utf8Proofs Framing SpecFraming FramingProofs FramingProps S2k SpecS2k S2kProofs SymCipher SessionKeys SessionKeysProofs
  Armor SpecArmor ArmorProps KeyPackets SpecKey KeyProofs DataPackets SpecData DataProofs SigPackets SpecSig SigProofs SigStable UserAttr SpecAttr AttrProofs Packets SpecPackets.

Lemma pub_ok_back fl k : pub_ok fl k -> exists d, pub_content fl k = Ok d /\ d <> [] /\ pub_from_content d = Ok k.
Proof.
  intros (v & ct & alg & exp & ms & A & B & C & D). destruct (pub_write fl v ct alg exp ms k A B C D) as (encs & F & W). eexists. split; [exact W|]. split.
  - unfold rfc_pub_body. destruct exp; discriminate.
  - pose proof (pub_parse v ct alg exp ms encs k [] A B C (rfcs_readable _ _ F)) as P. rewrite app_nil_r in P. unfold pub_from_content. rewrite P. reflexivity.
Qed.
Lemma bl_byte sym bl : symmetric_cipher_block_lengths sym = Some bl -> byte sym.
Proof. unfold symmetric_cipher_block_lengths, byte. intros H. repeat match type of H with (if ?b then _ else _) = _ => destruct b eqn:? end; try discriminate H; lia. Qed.
Lemma sec_ok_back fl rec sub k : body_ok fl (BSec sub k) -> exact_log fl -> exists d, sec_content fl rec k = Ok d /\ d <> [] /\ sec_from_content d = Ok k.
Proof.
  destruct k as [k [s|] sym iv enc cs hs]; [|easy]. cbn [body_ok]. intros ((v & ct & alg & exp & ms & A & B & C & D) & -> & Hs & Hb & Hne & ->) Hfl.
  set (u := if cs then 255 else 254). assert (Hu : u = 254 \/ u = 255) by (unfold u; destruct cs; auto).
  replace cs with (u =? 255) by (unfold u; destruct cs; reflexivity). replace (negb (u =? 255)) with (u =? 254) by (unfold u; destruct cs; reflexivity).
  pose proof (bl_byte _ _ Hb) as Hy.
  destruct (c21_round fl s [] [] Hfl Hs) as (sb & E1 & _).
  destruct (sec_write fl v ct alg exp ms k u s iv _ enc sb rec A B C D Hu Hy E1 Hb eq_refl Hne) as (encs & F & W). eexists. split; [exact W|]. split.
  - unfold rfc_pub_body. destruct exp; discriminate.
  - destruct (sec_parse fl v ct alg exp ms encs k u s iv _ enc Hfl A B C (rfcs_readable _ _ F) Hu Hs Hb eq_refl) as (sb' & E1' & _ & P). rewrite E1 in E1'. apply ok_inj in E1' as <-. exact P.
Qed.
Lemma utf8_ne s : s <> [] -> utf8 s <> [].
Proof. destruct s as [|c s]; [easy|]. intros _ H. cbn [utf8 flat_map] in H. apply app_eq_nil in H as [H _]. pose proof (rfc_len c) as L. rewrite H in L. cbn in L. lia. Qed.
Lemma data_ok_back h d : data_ok d -> exists c d', data_content d = Ok c /\ c <> [] /\ data_from (data_type d) c = Ok d' /\ as_read (Pkt h (BData d)) = Pkt h (BData d').
Proof.
  destruct d as [a d|d|f n t d|v c|u|ty s|v d|d|m c d|ty d]; cbn [data_ok data_content data_type as_read]; intros H.
  - exists (a :: d). eexists. rewrite mk_bytes_wf by (constructor; auto). split; [reflexivity|]. split; [discriminate|]. split; [|reflexivity]. cbn [data_from Z.eqb Pos.eqb].
    unfold data_from, compressed_from. cbn [Z.eqb Pos.eqb]. rewrite get_cons_0, slice_from_1. reflexivity.
  - exists d. eexists. repeat split; auto.
  - destruct t as [t|t]; [easy|]. destruct H as ((c & Hc) & Hn & Hl & Hl' & Ht & Hd).
    destruct (literal_write f n t d c Hc Hd Hn Hl Hl' Ht) as (enc & W & R & P). exists enc. eexists. split; [exact W|]. split; [|split; [exact P|reflexivity]].
    destruct R as (tm & -> & _). discriminate.
  - destruct c as [c|].
    + destruct H as [-> H]. exists [0; c]. eexists. rewrite mk_bytes_wf by (repeat constructor; unfold byte; lia). split; [reflexivity|]. split; [discriminate|]. split; [|reflexivity].
      unfold data_from, trust_from. cbn [Z.eqb Pos.eqb]. rewrite get_cons_0. cbn [bind]. change (zlen [0; c] =? 2) with true. cbn [Z.eqb andb].
      change (get [0; c] 1) with (@Ok Z c). cbn [bind]. rewrite land_128 by (unfold byte; lia). replace (c <? 128) with true by lia. reflexivity.
    + exists [v]. eexists. rewrite mk_bytes_wf by (repeat constructor; apply H). split; [reflexivity|]. split; [discriminate|]. split; [|reflexivity].
      unfold data_from, trust_from. cbn [Z.eqb Pos.eqb]. rewrite get_cons_0. cbn [bind]. change (zlen [v] =? 2) with false. rewrite andb_false_r. reflexivity.
  - destruct H as [Hn H]. exists (utf8 u). eexists. rewrite encode_scalar by easy. split; [reflexivity|]. split; [now apply utf8_ne|]. split; [|reflexivity].
    unfold data_from, userid_from. cbn [Z.eqb Pos.eqb]. now rewrite decode_replace_utf8.
  - destruct H as (Ht & Hn & H). exists (utf8 s). eexists. rewrite encode_strict_scalar by easy. split; [reflexivity|]. split; [now apply utf8_ne|]. split; [|reflexivity].
    destruct Ht as [-> | ->]; unfold data_from, comment_from; cbn [Z.eqb Pos.eqb]; now rewrite decode_utf8.
  - exists (v :: d). eexists. rewrite mk_bytes_wf by (repeat constructor; apply H). split; [reflexivity|]. split; [discriminate|]. split; [|reflexivity].
    unfold data_from, seipd_from. cbn [Z.eqb Pos.eqb]. rewrite get_cons_0, slice_from_1. reflexivity.
  - exists d. eexists. split; [reflexivity|]. split; [intros ->; discriminate|]. split; [|reflexivity]. unfold data_from, mdc_from. cbn [Z.eqb Pos.eqb]. now rewrite H.
  - destruct H as [Hm Hc]. exists (m ++ c :: d). eexists. rewrite mk_bytes_wf by (repeat constructor; apply Hc). split; [reflexivity|]. split; [destruct m; discriminate|]. split; [|reflexivity].
    unfold data_from, control_from. cbn [Z.eqb Pos.eqb]. rewrite (get_at m) by easy. cbn [bind]. pose proof (slice_app' [] m (c :: d) 0 8) as S1. cbn [app] in S1. rewrite S1 by (change (zlen (@nil Z)) with 0; lia).
    replace (m ++ c :: d) with ((m ++ [c]) ++ d) by now rewrite <- app_assoc. replace 9 with (zlen (m ++ [c])) by (rewrite zlen_app; change (zlen [c]) with 1; lia). now rewrite slice_from_app.
  - destruct H as [Hn H]. exists d. eexists. split; [reflexivity|]. split; [easy|]. split; [|reflexivity]. unfold data_from, known_packets in *. cbn [In] in H.
    repeat match goal with |- context [ty =? ?k] => replace (ty =? k) with false by lia end. reflexivity.
Qed.
Lemma pkt_ok_back fl rec p : exact_log fl -> pkt_ok fl rec p -> exists c, body_content fl rec (p_body p) = Ok c /\ c <> [] /\ representable (Raw (p_fmt p) (pkt_type p) c) /\
  pkt_dec (Raw (p_fmt p) (pkt_type p) c) = Ok (as_read p).
Proof.
  intros Hfl [H R]. cut (exists c, body_content fl rec (p_body p) = Ok c /\ c <> [] /\ pkt_dec (Raw (p_fmt p) (pkt_type p) c) = Ok (as_read p)).
  { intros (c & A & B & C). exists c. auto. }
  clear R. destruct p as [h b]. cbn [p_fmt p_body pkt_type] in *. unfold pkt_dec, body_dec, pkt_type. cbn [hfmt ptype pcontent p_body].
  destruct b as [q|s|q|q|sub k|sub k|l|d]; cbn [body_ok] in H; cbn [body_content body_type as_read].
  - destruct q as [v [kid|] a e]; [|easy]. destruct H as (Hv & Ha & k & -> & Hk & Hl). exists (v :: k ++ a :: e). rewrite pkesk_content_of by easy. split; [reflexivity|]. split; [discriminate|].
    cbn [Z.eqb Pos.eqb]. rewrite pkesk_from by easy. reflexivity.
  - destruct (sig_round fl s H) as (data & st & pk & ha & h2 & vs & hs & us & x & y & encs & Q1 & Q2 & Q3 & Q4 & Q5 & Q6 & Q7). exists data. split; [exact Q2|]. split.
    + destruct Q6 as (l1 & l2 & -> & _). discriminate.
    + cbn [Z.eqb Pos.eqb]. unfold sig_from_content. rewrite Q7 by lia. reflexivity.
  - destruct q as [v sym s [e|]]; [|easy]. destruct H as (Hv & -> & Hy & Hs & He & n & Hn & Hl). destruct (skesk_parse_back fl v s e n Hfl Hv Hy Hs Hn Hl He) as (data & E1 & W & E2).
    exists data. split; [exact E1|]. split; [intros ->; discriminate|]. cbn [Z.eqb Pos.eqb]. rewrite E2. reflexivity.
  - easy.
  - destruct (sec_ok_back fl (rec k) sub k H Hfl) as (d & E1 & E2 & E3). exists d. split; [exact E1|]. split; [easy|]. destruct sub; cbn [Z.eqb Pos.eqb]; rewrite E3; reflexivity.
  - destruct (pub_ok_back fl k H) as (d & E1 & E2 & E3). exists d. split; [exact E1|]. split; [easy|]. destruct sub; cbn [Z.eqb Pos.eqb]; rewrite E3; reflexivity.
  - destruct H as [Hn H]. destruct (attrs_round l H) as (d & ts & encs & E1 & E2 & E3 & E4). exists d. split; [exact E1|]. split.
    + intros E0. rewrite E0 in E4. change (attrs_from_content []) with (@Ok (list attr) []) in E4. apply ok_inj in E4. congruence.
    + cbn [Z.eqb Pos.eqb]. rewrite E4. reflexivity.
  - destruct (data_ok_back h d H) as (c & d' & E1 & E2 & E3 & E4). exists c. split; [exact E1|]. split; [easy|]. cbn [as_read] in E4. rewrite E4. rewrite E3.
    assert (T : ~ In (data_type d) [1; 2; 3; 4; 5; 6; 7; 14; 17]).
    { destruct d; cbn [data_type data_ok In] in *; try lia. intros T. destruct H as [_ H]. apply H. unfold known_packets. cbn [In]. lia. }
    cbn [In] in T. repeat match goal with |- context [data_type d =? ?k] => replace (data_type d =? k) with false by lia end. reflexivity.
Qed.
Lemma pkts_round fl rec ps : exact_log fl -> Forall (pkt_ok fl rec) ps ->
  exists encs, mapM (pkt_bytes fl rec) ps = Ok encs /\ parse_binary_packet_data pkt_dec (concat encs) = (map as_read ps, None) /\ parse_binary_packet_stream pkt_dec (concat encs) = (map as_read ps, None).
Proof.
  intros Hfl H.
  assert (X : exists raws, (forall p, In p raws -> representable p /\ pcontent p <> []) /\ mapM pkt_dec raws = Ok (map as_read ps) /\ mapM (pkt_bytes fl rec) ps = mapM packet_bytes raws).
  { induction H as [|p ps Hp _ (raws & I1 & I2 & I3)]; [exists []; repeat split; easy|]. destruct (pkt_ok_back fl rec p Hfl Hp) as (c & A & B & C & D).
    exists (Raw (p_fmt p) (pkt_type p) c :: raws). split; [intros q [<- | Hq]; auto|]. split.
    - cbn [mapM map]. rewrite D. cbn [bind]. rewrite I2. reflexivity.
    - cbn [mapM]. rewrite <- I3. unfold pkt_bytes at 1. rewrite A. reflexivity. }
  destruct X as (raws & I1 & I2 & I3). destruct (c10_concat pkt_dec raws _ I1 I2) as (encs & E1 & E2). destruct (c10_stream pkt_dec raws _ I1 I2) as (encs' & E1' & E2'). rewrite E1 in E1'. apply ok_inj in E1' as <-.
  exists encs. rewrite I3. auto.
Qed.
