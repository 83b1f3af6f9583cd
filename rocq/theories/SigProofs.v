From Verif Require Import Base BaseProofs Spec Utils UtilsProofs HexProofs CodecProofs SpecFraming FramingProofs Text Utf8 SpecUtf8 Utf8Proofs S2k SessionKeysProofs KeyPackets SpecKey KeyProofs DataProofs SigPackets SpecSig.

Ltac wfl := repeat (apply Forall_cons; [first [assumption | unfold byte; lia]|]); try apply Forall_nil.
Lemma byte_all (P : Z -> bool) : forallb P (zrange 256) = true -> forall b, byte b -> P b = true.
Proof.
  intros H b Hb. rewrite forallb_forall in H. apply H. unfold zrange. apply in_map_iff. exists (Z.to_nat b). unfold byte in Hb. split; [lia|]. apply in_seq. lia.
Qed.
(** ** framing of one subpacket *)
Lemma tag_bits ty (c : bool) : 0 <= ty < 128 -> Z.land (ty + (if c then 128 else 0)) 127 = ty /\ bit (ty + (if c then 128 else 0)) 128 = c.
Proof.
  intros H. pose proof (byte_all (fun b => (Z.land b 127 =? (if b <? 128 then b else b - 128)) && Bool.eqb (bit b 128) (negb (b <? 128))) ltac:(vm_compute; reflexivity) (ty + (if c then 128 else 0))) as P.
  cbv beta in P. specialize (P ltac:(unfold byte; destruct c; lia)). apply andb_prop in P as [P1 P2]. apply eqb_prop in P2. rewrite P2. destruct c.
  - replace (ty + 128 <? 128) with false in * by lia. cbn [negb]. split; [lia|reflexivity].
  - replace (ty + 0 <? 128) with true in * by lia. cbn [negb]. split; [lia|reflexivity].
Qed.
Lemma sub_at emb ty c content enc pre suf : rfc_sub ty c content enc ->
  sub_from_data emb (pre ++ enc ++ suf) (zlen pre) = do b <- subbody_from emb ty content;; Ok (Sub ty c b, zlen pre + zlen enc).
Proof.
  intros (Ht & l & Hl & ->). unfold sub_from_data. rewrite <- !app_assoc. cbn [app]. rewrite (rfc_new_length_parse _ _ pre _ Hl). cbn [bind].
  set (tag := ty + (if c then 128 else 0)). rewrite (app_assoc pre l). rewrite <- zlen_app, get_app_0. cbn [bind]. destruct (tag_bits ty c Ht) as [T1 T2]. fold tag in T1, T2. rewrite T1, T2.
  replace ((pre ++ l) ++ tag :: content ++ suf) with (((pre ++ l) ++ [tag]) ++ content ++ suf) by now rewrite <- app_assoc.
  rewrite (slice_app' ((pre ++ l) ++ [tag]) content suf) by (rewrite (zlen_app (pre ++ l) [tag]); change (zlen [tag]) with 1; lia).
  destruct (subbody_from emb ty content); [|reflexivity]. cbn [bind]. apply ok2; [reflexivity|]. rewrite !zlen_app, zlen_cons. lia.
Qed.
Lemma rfc_sub_len ty c content enc : rfc_sub ty c content enc -> zlen content + 2 <= zlen enc.
Proof. intros (_ & l & Hl & ->). apply rfc_new_length_nonneg in Hl. rewrite !zlen_app. change (zlen [_]) with 1. lia. Qed.
Lemma area_parse emb ts encs : rfc_area ts encs -> forall pre suf acc fuel, (length ts < fuel)%nat ->
  sub_loop fuel emb (pre ++ concat encs ++ suf) (zlen pre) (zlen pre + zlen (concat encs)) acc =
  do ss <- mapM (sub_of emb) ts;; Ok (acc ++ ss, zlen pre + zlen (concat encs)).
Proof.
  induction 1 as [|[[ty c] d] enc ts encs Hr H IH]; intros pre suf acc fuel Hf; cbn [length concat mapM] in *.
  - destruct fuel; [lia|]. cbn [sub_loop]. change (zlen (@nil Z)) with 0. rewrite Z.add_0_r, Z.ltb_irrefl. cbn [bind]. now rewrite app_nil_r.
  - destruct fuel as [|fuel]; [lia|]. cbn [sub_loop]. cbn [fst snd] in Hr. pose proof (rfc_sub_len _ _ _ _ Hr). pose proof (zlen_nonneg d). pose proof (zlen_nonneg (concat encs)).
    replace (zlen pre <? zlen pre + zlen (enc ++ concat encs)) with true by (rewrite zlen_app; lia).
    rewrite <- app_assoc, (sub_at emb ty c d enc pre (concat encs ++ suf) Hr). unfold sub_of at 1. cbn [fst snd]. destruct (subbody_from emb ty d) as [b|e]; [|reflexivity]. cbn [bind].
    rewrite app_assoc. rewrite <- zlen_app. replace (zlen pre + zlen (enc ++ concat encs)) with (zlen (pre ++ enc) + zlen (concat encs)) by (rewrite !zlen_app; lia).
    rewrite IH by lia. destruct (mapM (sub_of emb) ts) as [ss|e]; [|reflexivity]. cbn [bind]. now rewrite <- app_assoc.
Qed.
Lemma area_len ts encs : rfc_area ts encs -> (length ts <= length (concat encs))%nat.
Proof.
  induction 1 as [|t enc ts encs Hr H IH]; cbn [length concat]; [lia|]. pose proof (rfc_sub_len _ _ _ _ Hr). rewrite app_length. pose proof (zlen_nonneg (snd t)). unfold zlen in *. lia.
Qed.
Lemma sig_values_ok ms encs : Forall2 readable_mpi ms encs -> forall pre acc fuel, (length ms < fuel)%nat ->
  sig_values fuel (pre ++ concat encs) (zlen pre) acc = Ok (acc ++ ms).
Proof.
  induction 1 as [|i enc ms encs Hi H IH]; intros pre acc fuel Hf; cbn [length concat] in *.
  - destruct fuel; [lia|]. cbn [sig_values]. rewrite app_nil_r, Z.ltb_irrefl, app_nil_r. reflexivity.
  - destruct fuel as [|fuel]; [lia|]. cbn [sig_values].
    assert (0 < zlen enc) by (destruct Hi as (l & b & -> & Hl & _); rewrite zlen_app; pose proof (zlen_nonneg b); lia).
    replace (zlen pre <? zlen (pre ++ enc ++ concat encs)) with true by (rewrite !zlen_app; pose proof (zlen_nonneg (concat encs)); lia).
    rewrite (mpi_at i enc pre (concat encs) (zlen pre) Hi eq_refl). cbn [bind]. rewrite (app_assoc pre enc), IH by lia. now rewrite <- app_assoc.
Qed.
Lemma zlen2_get (l : bytes) : zlen l = 2 -> exists a b, l = [a; b].
Proof. apply zlen_2. Qed.
(** ** version 4 bodies *)
Lemma sig4_parse emb st pk ha ts1 es1 ts2 es2 h2 ms encs data : rfc_area ts1 es1 -> rfc_area ts2 es2 -> Forall2 readable_mpi ms encs ->
  rfc_sig4 st pk ha (concat es1) (concat es2) h2 encs data ->
  sig_body emb data = do hs <- mapM (sub_of emb) ts1;;
                      do us <- mapM (sub_of emb) ts2;;
                      Ok (SigV4 4 st pk ha h2 ms hs us).
Proof.
  intros H1 H2 Hm (l1 & l2 & Hd & L1 & V1 & L2 & V2 & Lh & W). pose proof (area_len _ _ H1) as A1. pose proof (area_len _ _ H2) as A2. pose proof (len_mpis _ _ Hm) as A3.
  assert (Hlen : (length (concat es1) + length (concat es2) + length (concat encs) <= length data)%nat) by (rewrite Hd, !app_length; lia).
  unfold sig_body. set (fuel := S (length data)).
  assert (G : forall i x, nth_error [4; st; pk; ha] i = Some x -> get data (Z.of_nat i) = Ok x).
  { intros i x Hx. rewrite Hd. apply get_app_l; [lia|]. rewrite get_nonneg by lia. rewrite Nat2Z.id, Hx. reflexivity. }
  rewrite (G 0%nat 4 eq_refl : get data 0 = Ok 4). cbn [bind]. change ((4 =? 2) || (4 =? 3)) with false. change (4 =? 4) with true. cbv iota.
  rewrite (G 1%nat st eq_refl : get data 1 = Ok st), (G 2%nat pk eq_refl : get data 2 = Ok pk), (G 3%nat ha eq_refl : get data 3 = Ok ha). cbn [bind].
  assert (S1 : short_to_int data 4 = Ok (zlen (concat es1))). { rewrite Hd. change 4 with (zlen [4; st; pk; ha]). unfold short_to_int. rewrite (bytes_to_int_spec [4; st; pk; ha] l1 _ 2) by lia. now rewrite V1. }
  rewrite S1. cbn [bind]. set (p1 := [4; st; pk; ha] ++ l1). assert (P1 : zlen p1 = 6) by (unfold p1; rewrite zlen_app, L1; reflexivity).
  assert (D1 : data = p1 ++ concat es1 ++ (l2 ++ concat es2 ++ h2 ++ concat encs)) by (rewrite Hd; unfold p1; now rewrite <- !app_assoc).
  pose proof (area_parse emb ts1 es1 H1 p1 (l2 ++ concat es2 ++ h2 ++ concat encs) [] fuel ltac:(unfold fuel; lia)) as R1. rewrite <- D1, P1 in R1. rewrite R1.
  destruct (mapM (sub_of emb) ts1) as [hs|e]; [|reflexivity]. cbn [bind app].
  set (p2 := p1 ++ concat es1). assert (P2 : zlen p2 = 6 + zlen (concat es1)) by (unfold p2; rewrite zlen_app; lia).
  assert (D2 : data = p2 ++ l2 ++ concat es2 ++ h2 ++ concat encs) by (rewrite D1; unfold p2; now rewrite <- !app_assoc).
  rewrite <- P2. assert (S2 : short_to_int data (zlen p2) = Ok (zlen (concat es2))). { rewrite D2. unfold short_to_int. rewrite (bytes_to_int_spec p2 l2 _ 2) by lia. now rewrite V2. }
  rewrite S2. cbn [bind]. set (p3 := p2 ++ l2). assert (P3 : zlen p3 = zlen p2 + 2) by (unfold p3; rewrite zlen_app; lia).
  assert (D3 : data = p3 ++ concat es2 ++ h2 ++ concat encs) by (rewrite D2; unfold p3; now rewrite <- !app_assoc).
  rewrite <- P3. pose proof (area_parse emb ts2 es2 H2 p3 (h2 ++ concat encs) [] fuel ltac:(unfold fuel; lia)) as R2. rewrite <- D3 in R2. rewrite R2.
  destruct (mapM (sub_of emb) ts2) as [us|e]; [|reflexivity]. cbn [bind app].
  set (p4 := p3 ++ concat es2). assert (P4 : zlen p4 = zlen p3 + zlen (concat es2)) by (unfold p4; now rewrite zlen_app).
  assert (D4 : data = p4 ++ h2 ++ concat encs) by (rewrite D3; unfold p4; now rewrite <- !app_assoc). rewrite <- P4.
  assert (S4 : slice data (zlen p4) (zlen p4 + 2) = h2) by (rewrite D4; apply slice_app'; lia). rewrite S4.
  set (p5 := p4 ++ h2). assert (P5 : zlen p5 = zlen p4 + 2) by (unfold p5; rewrite zlen_app; lia).
  assert (D5 : data = p5 ++ concat encs) by (rewrite D4; unfold p5; now rewrite <- !app_assoc). rewrite <- P5.
  pose proof (sig_values_ok ms encs Hm p5 [] fuel ltac:(unfold fuel; lia)) as R5. rewrite <- D5 in R5. rewrite R5. reflexivity.
Qed.
(** ** writing *)
Lemma sig_content_v4 fl v st pk ha h2 vs hs us : sig_content fl (SigV4 v st pk ha h2 vs hs us) =
  do h <- mk_bytes [v; st; pk; ha];; do a <- subs_bytes fl hs;; do b <- subs_bytes fl us;; do m <- mpis fl vs;;
  Ok (h ++ int_to_2byte (zlen a) ++ a ++ int_to_2byte (zlen b) ++ b ++ h2 ++ m).
Proof.
  cbn [sig_content]. set (area := fix area (l : list subpkt) : res bytes := _).
  assert (A : forall l, area l = subs_bytes fl l). { induction l as [|[ty c b] l IH]; [reflexivity|]. cbn [area subs_bytes sub_bytes]. fold area. rewrite IH. destruct b; reflexivity. }
  destruct (mk_bytes _); [|reflexivity]. cbn [bind]. now rewrite !A.
Qed.
Lemma sub_frame_rfc ty c d : 0 <= ty < 128 -> zlen d < 4294967295 -> exists enc, sub_frame ty c d = Ok enc /\ rfc_sub ty c d enc /\ (wf d -> wf enc).
Proof.
  intros Ht Hl. pose proof (zlen_nonneg d). unfold sub_frame. destruct (new_length_conforms (zlen d + 1) false) as (l & E & W & R); [unfold MAX_PACKET_LENGTH; lia|].
  rewrite E. cbn [bind]. rewrite mk_bytes_wf by (repeat constructor; destruct c; lia). cbn [bind]. eexists. split; [reflexivity|]. split; [split; [easy|]; exists l; split; [exact R|reflexivity]|].
  intros Wd. rewrite !wf_app. split; [easy|]. split; [repeat constructor; destruct c; lia|easy].
Qed.
(** ** notation data *)
Lemma split_none s : ~ In 64 s -> split_at_sign s = (s, None).
Proof.
  induction s as [|c s IH]; intros H; [reflexivity|]. cbn [split_at_sign]. destruct (c =? 64) eqn:E; [exfalso; apply H; left; lia|]. rewrite IH by (intros K; apply H; now right). reflexivity.
Qed.
Lemma split_some a b : ~ In 64 a -> split_at_sign (a ++ 64 :: b) = (a, Some b).
Proof.
  induction a as [|c s IH]; intros H; [reflexivity|]. cbn [app split_at_sign]. destruct (c =? 64) eqn:E; [exfalso; apply H; left; lia|]. rewrite IH by (intros K; apply H; now right). reflexivity.
Qed.
Lemma split_inv s : let '(a, o) := split_at_sign s in ~ In 64 a /\ s = a ++ match o with None => [] | Some b => 64 :: b end.
Proof.
  induction s as [|c s IH]; [cbn; auto|]. cbn [split_at_sign]. destruct (c =? 64) eqn:E.
  - split; [easy|]. cbn [app]. f_equal. lia.
  - destruct (split_at_sign s) as [a o]. destruct IH as [IH1 IH2]. split; [intros [K|K]; [lia|easy]|]. cbn [app]. now rewrite <- IH2.
Qed.
Definition notation_of (name value : bytes) : subbody :=
  let '(n, ns) := split_at_sign (utf8_decode_replace name) in SbNotation n ns true (utf8_decode_replace value).
Lemma notation_parse emb f nl vl name value : (f = 0 \/ f = 128) -> zlen nl = 2 -> be_val nl = zlen name -> zlen vl = 2 -> be_val vl = zlen value ->
  subbody_from emb 20 ([f; 0; 0; 0] ++ nl ++ vl ++ name ++ value) = Ok (notation_of name value).
Proof.
  intros Hf L1 V1 L2 V2. set (d := [f; 0; 0; 0] ++ nl ++ vl ++ name ++ value).
  change (subbody_from emb 20 d) with (if negb (8 <=? zlen d) then Err AssertionError else
    if existsb (fun x => negb (x =? 0)) (slice (slice d 0 4) 1 4) then Err AssertionError else
    do f <- get d 0;;
    if negb (Z.land f 127 =? 0) then Err AssertionError else
    do nl <- short_to_int d 4;;
    do vl <- short_to_int d 6;;
    let raw_name := slice d 8 (8 + nl) in
    let value := slice d (8 + nl) (8 + nl + vl) in
    if negb (8 + nl + vl =? zlen d) then Err AssertionError else
    let '(name, ns) := split_at_sign (utf8_decode_replace raw_name) in
    Ok (SbNotation name ns true (utf8_decode_replace value))).
  pose proof (zlen_nonneg name). pose proof (zlen_nonneg value).
  assert (Ld : zlen d = 8 + zlen name + zlen value) by (unfold d; rewrite !zlen_app, L1, L2; change (zlen [f; 0; 0; 0]) with 4; lia).
  replace (8 <=? zlen d) with true by lia. cbn [negb].
  assert (S1 : slice d 0 4 = [f; 0; 0; 0]). { unfold d. exact (slice_app' [] [f; 0; 0; 0] (nl ++ vl ++ name ++ value) 0 4 eq_refl eq_refl). }
  rewrite S1. change (slice [f; 0; 0; 0] 1 4) with [0; 0; 0]. change (existsb (fun x => negb (x =? 0)) [0; 0; 0]) with false. cbv iota.
  assert (G : get d 0 = Ok f) by reflexivity. rewrite G. cbn [bind]. replace (Z.land f 127 =? 0) with true by (destruct Hf as [-> | ->]; reflexivity). cbn [negb].
  assert (T1 : short_to_int d 4 = Ok (zlen name)). { unfold d. change 4 with (zlen [f; 0; 0; 0]). unfold short_to_int. rewrite (bytes_to_int_spec [f; 0; 0; 0] nl _ 2) by lia. now rewrite V1. }
  assert (T2 : short_to_int d 6 = Ok (zlen value)). { unfold d. rewrite (app_assoc [f; 0; 0; 0]). replace 6 with (zlen ([f; 0; 0; 0] ++ nl)) by (rewrite zlen_app, L1; reflexivity). unfold short_to_int. rewrite (bytes_to_int_spec ([f; 0; 0; 0] ++ nl) vl _ 2) by lia. now rewrite V2. }
  rewrite T1, T2. cbn [bind]. cbv zeta. replace (8 + zlen name + zlen value =? zlen d) with true by lia. cbn [negb].
  assert (S2 : slice d 8 (8 + zlen name) = name). { replace d with (([f; 0; 0; 0] ++ nl ++ vl) ++ name ++ value) by (unfold d; now rewrite <- !app_assoc). apply slice_app'; rewrite ?zlen_app, ?L1, ?L2; change (zlen [f; 0; 0; 0]) with 4; lia. }
  assert (S3 : slice d (8 + zlen name) (8 + zlen name + zlen value) = value). { replace d with (([f; 0; 0; 0] ++ nl ++ vl ++ name) ++ value ++ []) by (unfold d; now rewrite app_nil_r, <- !app_assoc). apply slice_app'; rewrite ?zlen_app, ?L1, ?L2; change (zlen [f; 0; 0; 0]) with 4; lia. }
  rewrite S2, S3. unfold notation_of. now destruct (split_at_sign (utf8_decode_replace name)).
Qed.
Lemma zlen8 (d : bytes) : 8 <= zlen d -> exists a0 a1 a2 a3 nl vl r, d = [a0; a1; a2; a3] ++ nl ++ vl ++ r /\ zlen nl = 2 /\ zlen vl = 2.
Proof.
  intros H. do 8 (destruct d as [|?x d]; [exfalso; cbn in H; lia|]). exists x, x0, x1, x2, [x3; x4], [x5; x6], d. repeat split.
Qed.
Lemma notation_inv emb d b : wf d -> subbody_from emb 20 d = Ok b -> exists f nl vl name value, d = [f; 0; 0; 0] ++ nl ++ vl ++ name ++ value /\ (f = 0 \/ f = 128) /\
  zlen nl = 2 /\ be_val nl = zlen name /\ zlen vl = 2 /\ be_val vl = zlen value /\ b = notation_of name value.
Proof.
  intros W H. pose proof H as H0. destruct (Z_lt_le_dec (zlen d) 8) as [Hl|Hl].
  { exfalso. change (subbody_from emb 20 d) with (if negb (8 <=? zlen d) then Err AssertionError else
    if existsb (fun x => negb (x =? 0)) (slice (slice d 0 4) 1 4) then Err AssertionError else
    do f <- get d 0;; if negb (Z.land f 127 =? 0) then Err AssertionError else
    do nl <- short_to_int d 4;; do vl <- short_to_int d 6;;
    if negb (8 + nl + vl =? zlen d) then Err AssertionError else
    let '(name, ns) := split_at_sign (utf8_decode_replace (slice d 8 (8 + nl))) in
    Ok (SbNotation name ns true (utf8_decode_replace (slice d (8 + nl) (8 + nl + vl))))) in H. replace (8 <=? zlen d) with false in H by lia. discriminate. }
  destruct (zlen8 d Hl) as (f & a1 & a2 & a3 & nl & vl & r & -> & L1 & L2). set (d := [f; a1; a2; a3] ++ nl ++ vl ++ r) in *.
  change (subbody_from emb 20 d) with (if negb (8 <=? zlen d) then Err AssertionError else
    if existsb (fun x => negb (x =? 0)) (slice (slice d 0 4) 1 4) then Err AssertionError else
    do f <- get d 0;; if negb (Z.land f 127 =? 0) then Err AssertionError else
    do nl <- short_to_int d 4;; do vl <- short_to_int d 6;;
    if negb (8 + nl + vl =? zlen d) then Err AssertionError else
    let '(name, ns) := split_at_sign (utf8_decode_replace (slice d 8 (8 + nl))) in
    Ok (SbNotation name ns true (utf8_decode_replace (slice d (8 + nl) (8 + nl + vl))))) in H.
  replace (8 <=? zlen d) with true in H by lia. cbn [negb] in H.
  assert (S1 : slice d 0 4 = [f; a1; a2; a3]). { unfold d. exact (slice_app' [] [f; a1; a2; a3] (nl ++ vl ++ r) 0 4 eq_refl eq_refl). }
  rewrite S1 in H. change (slice [f; a1; a2; a3] 1 4) with [a1; a2; a3] in H. destruct (existsb (fun x => negb (x =? 0)) [a1; a2; a3]) eqn:E; [discriminate|]. cbn [existsb] in E.
  assert (a1 = 0 /\ a2 = 0 /\ a3 = 0) as (-> & -> & ->) by lia.
  assert (G : get d 0 = Ok f) by reflexivity. rewrite G in H. cbn [bind] in H. destruct (Z.land f 127 =? 0) eqn:Ef; [|discriminate]. cbn [negb] in H.
  assert (Hf : byte f) by (inversion W; assumption).
  assert (Hf' : f = 0 \/ f = 128). { pose proof (byte_all (fun b => negb (Z.land b 127 =? 0) || (b =? 0) || (b =? 128)) ltac:(vm_compute; reflexivity) f Hf) as P. cbv beta in P. rewrite Ef in P. lia. }
  assert (T1 : short_to_int d 4 = Ok (be_val nl)). { unfold d. change 4 with (zlen [f; 0; 0; 0]). unfold short_to_int. now rewrite (bytes_to_int_spec [f; 0; 0; 0] nl _ 2) by lia. }
  assert (T2 : short_to_int d 6 = Ok (be_val vl)). { unfold d. rewrite (app_assoc [f; 0; 0; 0]). replace 6 with (zlen ([f; 0; 0; 0] ++ nl)) by (rewrite zlen_app, L1; reflexivity). unfold short_to_int. now rewrite (bytes_to_int_spec ([f; 0; 0; 0] ++ nl) vl _ 2) by lia. }
  rewrite T1, T2 in H. cbn [bind] in H. destruct (8 + be_val nl + be_val vl =? zlen d) eqn:El; [|discriminate]. clear H.
  assert (Wn : 0 <= be_val nl). { apply be_val_nonneg. unfold d in W. rewrite !wf_app in W. tauto. }
  assert (Wv : 0 <= be_val vl). { apply be_val_nonneg. unfold d in W. rewrite !wf_app in W. tauto. }
  assert (Lr : zlen r = be_val nl + be_val vl). { unfold d in El. rewrite !zlen_app, L1, L2 in El. change (zlen [f; 0; 0; 0]) with 4 in El. lia. }
  destruct (split_at r 0 (be_val nl) ltac:(lia) ltac:(lia) ltac:(lia)) as (p & name & value & Er & Lp & Ln). apply zlen_0 in Lp as ->. cbn [app] in Er. subst r. rewrite zlen_app in Lr.
  exists f, nl, vl, name, value. split; [reflexivity|]. split; [exact Hf'|]. split; [exact L1|]. split; [lia|]. split; [exact L2|]. split; [lia|].
  unfold d in H0. rewrite (notation_parse emb f nl vl name value Hf' L1 ltac:(lia) L2 ltac:(lia)) in H0. apply ok_inj in H0. now symmetry.
Qed.
(** ** representable objects are read back *)
Lemma int_2_spec t : 0 <= t < 65536 -> be_val (int_to_2byte t) = t /\ zlen (int_to_2byte t) = 2 /\ wf (int_to_2byte t).
Proof.
  intros H. rewrite int_to_2byte_be. split; [rewrite be_bytes_val; apply Z.mod_small; cbn; lia|]. split; [now rewrite be_bytes_len|apply be_bytes_wf].
Qed.
Lemma time_parse emb ty d : In ty [2; 3; 9] -> subbody_from emb ty d = if negb (zlen d =? 4) then Err AssertionError else do t <- long_to_int d 0;; Ok (SbTime t).
Proof. intros [<- | [<- | [<- | []]]]; reflexivity. Qed.
Lemma boolean_parse emb ty d : In ty [4; 7; 25] -> subbody_from emb ty d = do b <- bool_from d;; Ok (SbBool b).
Proof. intros [<- | [<- | [<- | []]]]; reflexivity. Qed.
Lemma algs_parse emb ty d : In ty [11; 21; 22] -> subbody_from emb ty d = Ok (SbAlgs d).
Proof. intros [<- | [<- | [<- | []]]]; reflexivity. Qed.
Lemma uri_parse emb ty d : In ty [24; 26] -> subbody_from emb ty d = if negb (0 <? zlen d) then Err AssertionError else Ok (SbUri (utf8_decode_replace d)).
Proof. intros [<- | [<- | []]]; reflexivity. Qed.
Lemma issuer_parse emb d : subbody_from emb 16 d = if negb (zlen d =? 8) then Err AssertionError else do k <- bytearray_to_hex d 0 (Some 16);; Ok (SbIssuer k).
Proof. reflexivity. Qed.
Lemma unknown_parse emb ty d : ~ In ty known_subs -> subbody_from emb ty d = Ok SbUnknown.
Proof.
  intros H. unfold subbody_from, known_subs in *.
  repeat match goal with |- context [ty =? ?k] => replace (ty =? k) with false by (symmetry; apply Z.eqb_neq; intros ->; apply H; cbn; tauto) end. reflexivity.
Qed.
Lemma utf8_nonempty u : u <> [] -> Forall scalar u -> 0 < zlen (utf8 u).
Proof.
  intros Hn Hs. destruct u as [|c u]; [easy|]. pose proof (zlen_nonneg (utf8 (c :: u))). destruct (Z.eq_dec (zlen (utf8 (c :: u))) 0) as [E|E]; [|lia].
  apply zlen_0 in E. pose proof (utf8_inj (c :: u) [] Hs ltac:(constructor) E). discriminate.
Qed.
Lemma plain_back ty b : plain_ok ty b -> exists d, plain_content b = Ok d /\ wf d /\ (forall emb, subbody_from emb ty d = Ok b).
Proof.
  destruct b as [|t|b|dp am|p|s a f|l|f a s|k|n ns h v|b|u|c0 s0 c1 st au sp mu|u|c r|b|pa ha h hl|s]; cbn [plain_ok plain_content]; intros H; try contradiction.
  - destruct H. exists []. split; [reflexivity|]. split; [apply wf_nil|]. intros. now apply unknown_parse.
  - destruct H as [Ht H]. destruct (int_4_spec t H) as (V & L & W). set (d := int_to_4byte t) in *. clearbody d. exists d. split; [reflexivity|]. split; [exact W|]. intros emb. rewrite time_parse by exact Ht. rewrite L. cbn [negb Z.eqb Pos.eqb].
    pose proof (bytes_to_int_spec [] d [] 4 (eq_sym L)) as P. rewrite app_nil_r in P. cbn [app] in P. change (zlen (@nil Z)) with 0 in P. unfold long_to_int. rewrite P. cbn [bind]. now rewrite V.
  - exists [if b then 1 else 0]. split; [reflexivity|]. split; [repeat constructor; destruct b; lia|]. intros emb. rewrite boolean_parse by exact H. destruct b; reflexivity.
  - destruct H as (-> & H1 & H2). exists [dp; am]. split; [apply mk_bytes_wf; wfl|]. split; [wfl|]. reflexivity.
  - destruct H as [Ht W]. exists l. split; [now apply mk_bytes_wf|]. split; [exact W|]. intros. now apply algs_parse.
  - destruct H as (-> & b & -> & W & L). exists b. split; [|split; [exact W|]].
    + rewrite hex_to_bytes_text_expected by (assumption || lia). rewrite L. change (Z.to_nat (8 - 8)) with O. cbn [repeat app]. unfold slice_from, clip. change (Z.max 0 (8 - 8)) with 0. change (0 <? 0) with false. cbv iota. rewrite L. reflexivity.
    + intros emb. rewrite issuer_parse, L. cbn [negb Z.eqb Pos.eqb]. pose proof (bytearray_to_hex_at [] b [] 16 W ltac:(lia)) as P. rewrite app_nil_r in P. cbn [app] in P. change (zlen (@nil Z)) with 0 in P. rewrite P. reflexivity.
  - destruct H as (-> & -> & Hn & Hat & Hv & Lv & Hns). set (raw := utf8 n ++ match ns with Some s => 64 :: utf8 s | None => [] end).
    assert (Er : utf8_encode_replace n ++ match ns with Some (c :: s) => [64] ++ utf8_encode_replace (c :: s) | _ => [] end = raw).
    { unfold raw. rewrite encode_scalar by exact Hn. f_equal. destruct ns as [[|c s]|]; [destruct Hns; congruence| |reflexivity]. destruct Hns as (_ & Hs & _). now rewrite encode_scalar by exact Hs. }
    assert (Hs : exists w, raw = utf8 w /\ Forall scalar w /\ split_at_sign w = (n, ns)).
    { destruct ns as [s|]; unfold raw.
      - destruct Hns as (_ & Hs & _). exists (n ++ 64 :: s). split; [now rewrite utf8_app|]. split; [|now apply split_some]. apply Forall_app. split; [exact Hn|]. constructor; [unfold scalar; lia|exact Hs].
      - exists n. split; [apply app_nil_r|]. split; [exact Hn|]. now apply split_none. }
    assert (Lr : zlen raw < 65536). { unfold raw. rewrite zlen_app. destruct ns as [s|]; [rewrite zlen_cons; lia|change (zlen (@nil Z)) with 0; lia]. }
    rewrite Er, (encode_scalar v Hv). destruct Hs as (w & Ew & Sw & Sp). pose proof (zlen_nonneg raw). pose proof (zlen_nonneg (utf8 v)).
    destruct (int_2_spec (zlen raw) ltac:(lia)) as (V1 & L1 & W1). destruct (int_2_spec (zlen (utf8 v)) ltac:(lia)) as (V2 & L2 & W2).
    set (nl := int_to_2byte (zlen raw)) in *. clearbody nl. set (vl := int_to_2byte (zlen (utf8 v))) in *. clearbody vl.
    change (bflag true 128) with 128. eexists. split; [reflexivity|]. split.
    + rewrite !wf_app. split; [wfl|]. split; [exact W1|]. split; [exact W2|]. split; [rewrite Ew|]; now apply utf8_wf.
    + intros emb. rewrite (notation_parse emb 128 nl vl raw (utf8 v) (or_intror eq_refl) L1 V1 L2 V2). unfold notation_of. rewrite Ew, (decode_replace_utf8 w Sw), Sp, (decode_replace_utf8 v Hv). reflexivity.
  - subst ty. exists [bflag b 128]. split; [reflexivity|]. split; [destruct b; repeat constructor; unfold bflag; lia|]. intros emb. destruct b; reflexivity.
  - destruct H as (Ht & Hu & Hs). exists (utf8 u). rewrite (encode_scalar u Hs). split; [reflexivity|]. split; [now apply utf8_wf|]. intros emb. rewrite uri_parse by exact Ht. pose proof (utf8_nonempty u Hu Hs). replace (0 <? zlen (utf8 u)) with true by lia. cbn [negb]. now rewrite decode_replace_utf8.
  - subst ty. eexists. split; [reflexivity|]. split; [|intros emb; destruct c0, s0, c1, st, au, sp, mu; reflexivity]. repeat constructor; destruct c0, s0, c1, st, au, sp, mu; unfold bflag; lia.
  - destruct H as (-> & Hs). exists (utf8 u). rewrite (encode_scalar u Hs). split; [reflexivity|]. split; [now apply utf8_wf|]. intros emb. change (subbody_from emb 28 (utf8 u)) with (do s <- utf8_decode (utf8 u);; Ok (SbUserId s)). now rewrite decode_utf8.
  - destruct H as (-> & Hc & Hs). rewrite mk_bytes_wf by (wfl). cbn [bind]. rewrite (encode_scalar r Hs). exists (c :: utf8 r). split; [reflexivity|]. split; [constructor; [exact Hc|now apply utf8_wf]|]. intros emb.
    change (subbody_from emb 29 (c :: utf8 r)) with (do x <- get (c :: utf8 r) 0;; Ok (SbReason x (utf8_decode_replace (slice_from (c :: utf8 r) 1)))). rewrite get_cons_0, slice_from_1. cbn [bind]. now rewrite decode_replace_utf8.
  - subst ty. exists [bflag b 1]. split; [reflexivity|]. split; [destruct b; repeat constructor; unfold bflag; lia|]. intros emb. destruct b; reflexivity.
Qed.
(** ** whole signatures *)
Definition sub_good (fl : Z -> Z) (P : sigpkt -> Prop) (s : subpkt) : Prop := sub_ok fl s /\ match sub_body s with SbEmbedded e => P e | _ => True end.
Lemma sig_ok_strong fl (P : sigpkt -> Prop) :
  (forall st pk ha h2 vs hs us, byte st -> byte pk -> byte ha -> zlen h2 = 2 -> wf h2 -> Forall (value_ok fl) vs ->
    Forall (sub_good fl P) hs -> Forall (sub_good fl P) us ->
    (forall a, subs_bytes fl hs = Ok a -> zlen a < 65536) -> (forall a, subs_bytes fl us = Ok a -> zlen a < 65536) ->
    P (SigV4 4 st pk ha h2 vs hs us)) -> forall s, sig_ok fl s -> P s.
Proof.
  intros X. fix F 2. intros s H.
  assert (G : forall l, Forall (sub_ok fl) l -> Forall (sub_good fl P) l -> Forall (sub_good fl P) l) by auto.
  destruct H as [st pk ha h2 vs hs us B1 B2 B3 L2 W2 Hv Hh Hu A1 A2]. apply X; try assumption.
  - clear A1 A2. induction Hh as [|x l Hx Hl IH]; constructor; [|exact IH]. split; [exact Hx|]. destruct Hx as [ty c b Hb _|c e He _]; cbn [sub_body]; [|exact (F e He)]. destruct b; exact I || (cbn [plain_ok] in Hb; contradiction).
  - clear A1 A2. induction Hu as [|x l Hx Hl IH]; constructor; [|exact IH]. split; [exact Hx|]. destruct Hx as [ty c b Hb _|c e He _]; cbn [sub_body]; [|exact (F e He)]. destruct b; exact I || (cbn [plain_ok] in Hb; contradiction).
Qed.
Lemma plain_ty ty b : plain_ok ty b -> 0 <= ty < 128.
Proof. destruct b; cbn [plain_ok In]; intuition lia. Qed.
Lemma plain_not_emb ty b : plain_ok ty b -> forall fl, sub_content fl b = plain_content b.
Proof. destruct b; cbn [plain_ok]; try contradiction; reflexivity. Qed.
Definition sig_back (fl : Z -> Z) (s : sigpkt) : Prop := exists data, sig_content fl s = Ok data /\ wf data /\ (forall fuel, (length data < fuel)%nat -> sig_from fuel data = Ok s).
Lemma area_back fl l : Forall (sub_good fl (sig_back fl)) l -> exists ts encs, rfc_area ts encs /\ subs_bytes fl l = Ok (concat encs) /\ wf (concat encs) /\
  (forall f, (length (concat encs) <= f)%nat -> mapM (sub_of (sig_from f)) ts = Ok l).
Proof.
  induction 1 as [|s l [Hs He] Hl (ts & encs & A & B & W & M)]; [exists [], []; repeat split; constructor|].
  assert (exists ty c d enc, rfc_sub ty c d enc /\ wf enc /\ sub_bytes fl s = Ok enc /\ forall f, (length enc <= f)%nat -> sub_of (sig_from f) (ty, c, d) = Ok s) as (ty & c & d & enc & R & We & Sb & So).
  { destruct Hs as [ty c b Hb Hlen|c e Hok Hlen].
    - destruct (plain_back ty b Hb) as (d & Hd & Wd & Hp). destruct (sub_frame_rfc ty c d (plain_ty _ _ Hb)) as (enc & E1 & E2 & E3); [specialize (Hlen d Hd); lia|].
      exists ty, c, d, enc. split; [exact E2|]. split; [now apply E3|]. split; [|intros f _; unfold sub_of; cbn [fst snd]; now rewrite Hp].
      unfold sub_bytes. rewrite (plain_not_emb _ _ Hb), Hd. cbn [bind]. exact E1.
    - cbn [sub_body] in He. destruct He as (d & Hd & Wd & Hp). destruct (sub_frame_rfc 32 c d ltac:(lia)) as (enc & E1 & E2 & E3); [specialize (Hlen d Hd); lia|].
      exists 32, c, d, enc. split; [exact E2|]. split; [now apply E3|]. split; [unfold sub_bytes, sub_content; rewrite Hd; cbn [bind]; exact E1|].
      intros f Hf. unfold sub_of. cbn [fst snd]. change (subbody_from (sig_from f) 32 d) with (do s <- sig_from f d;; Ok (SbEmbedded s)). pose proof (rfc_sub_len _ _ _ _ E2) as Q. rewrite Hp; [reflexivity|]. unfold zlen in Q. lia. }
  exists ((ty, c, d) :: ts), (enc :: encs). split; [constructor; assumption|]. cbn [concat subs_bytes mapM]. rewrite Sb, B. cbn [bind]. split; [reflexivity|]. split; [now apply wf_app|].
  intros f Hf. rewrite app_length in Hf. rewrite So, M by lia. reflexivity.
Qed.
Lemma mpis_back fl vs : Forall (value_ok fl) vs -> exists encs, mpis fl vs = Ok (concat encs) /\ Forall2 rfc_mpi vs encs.
Proof.
  induction 1 as [|v vs (H1 & H2 & H3) H (encs & E & F)]; [exists []; split; [reflexivity|constructor]|].
  destruct (opt_mpi_ok fl v H1 H2 H3) as (enc & E1 & R). exists (enc :: encs). cbn [mpis concat]. rewrite E1, E. split; [reflexivity|now constructor].
Qed.
Lemma readable_wf ms encs : Forall2 readable_mpi ms encs -> wf (concat encs).
Proof. induction 1 as [|i e ms es (l & b & -> & _ & _ & _ & W) H IH]; [constructor|]. cbn [concat]. now apply wf_app. Qed.
Lemma sig_round fl s : sig_ok fl s -> exists data st pk ha h2 vs hs us a b encs, s = SigV4 4 st pk ha h2 vs hs us /\ sig_content fl s = Ok data /\
  subs_bytes fl hs = Ok a /\ subs_bytes fl us = Ok b /\ Forall2 rfc_mpi vs encs /\ rfc_sig4 st pk ha a b h2 encs data /\ (forall fuel, (length data < fuel)%nat -> sig_from fuel data = Ok s).
Proof.
  intros H.
  assert (St : forall st pk ha h2 vs hs us, byte st -> byte pk -> byte ha -> zlen h2 = 2 -> wf h2 -> Forall (value_ok fl) vs ->
    Forall (sub_good fl (sig_back fl)) hs -> Forall (sub_good fl (sig_back fl)) us ->
    (forall a, subs_bytes fl hs = Ok a -> zlen a < 65536) -> (forall a, subs_bytes fl us = Ok a -> zlen a < 65536) ->
    exists data a b encs, sig_content fl (SigV4 4 st pk ha h2 vs hs us) = Ok data /\ subs_bytes fl hs = Ok a /\ subs_bytes fl us = Ok b /\ Forall2 rfc_mpi vs encs /\ rfc_sig4 st pk ha a b h2 encs data /\
      (forall fuel, (length data < fuel)%nat -> sig_from fuel data = Ok (SigV4 4 st pk ha h2 vs hs us))).
  { intros st pk ha h2 vs hs us B1 B2 B3 L2 W2 Hv Hh Hu Z1 Z2.
    destruct (area_back fl hs Hh) as (ts1 & es1 & A1 & S1 & W3 & M1). destruct (area_back fl us Hu) as (ts2 & es2 & A2 & S2 & W4 & M2). destruct (mpis_back fl vs Hv) as (encs & Em & Rm).
    specialize (Z1 _ S1). specialize (Z2 _ S2). pose proof (zlen_nonneg (concat es1)). pose proof (zlen_nonneg (concat es2)).
    destruct (int_2_spec (zlen (concat es1)) ltac:(lia)) as (V1 & L1 & W5). destruct (int_2_spec (zlen (concat es2)) ltac:(lia)) as (V2 & L3 & W6).
    set (l1 := int_to_2byte (zlen (concat es1))) in *. set (l2 := int_to_2byte (zlen (concat es2))) in *.
    set (data := [4; st; pk; ha] ++ l1 ++ concat es1 ++ l2 ++ concat es2 ++ h2 ++ concat encs).
    assert (Ec : sig_content fl (SigV4 4 st pk ha h2 vs hs us) = Ok data).
    { rewrite sig_content_v4, mk_bytes_wf by wfl. cbn [bind]. rewrite S1. cbn [bind]. rewrite S2. cbn [bind]. rewrite Em. reflexivity. }
    assert (Rs : rfc_sig4 st pk ha (concat es1) (concat es2) h2 encs data).
    { exists l1, l2. split; [reflexivity|]. repeat split; try assumption. unfold data. rewrite !wf_app. split; [wfl|]. repeat split; try assumption. eapply readable_wf, rfcs_readable, Rm. }
    clearbody l1 l2. exists data, (concat es1), (concat es2), encs. split; [exact Ec|]. split; [exact S1|]. split; [exact S2|]. split; [exact Rm|]. split; [exact Rs|].
    intros fuel Hf. destruct fuel as [|f]; [lia|]. cbn [sig_from]. rewrite (sig4_parse (sig_from f) st pk ha ts1 es1 ts2 es2 h2 vs encs data A1 A2 (rfcs_readable _ _ Rm) Rs).
    unfold data in Hf. rewrite !app_length in Hf. rewrite M1, M2 by lia. reflexivity. }
  assert (Hb : forall s, sig_ok fl s -> sig_back fl s).
  { apply sig_ok_strong. intros st pk ha h2 vs hs us B1 B2 B3 L2 W2 Hv Hh Hu Z1 Z2. destruct (St st pk ha h2 vs hs us B1 B2 B3 L2 W2 Hv Hh Hu Z1 Z2) as (data & a & b & encs & E & _ & _ & _ & R & P).
    exists data. split; [exact E|]. split; [|exact P]. now destruct R as (l1 & l2 & _ & _ & _ & _ & _ & _ & W). }
  assert (Hg : forall l, Forall (sub_ok fl) l -> Forall (sub_good fl (sig_back fl)) l).
  { intros l Hl. eapply Forall_impl; [|exact Hl]. intros x Hx. split; [exact Hx|]. destruct Hx as [ty c b Hp _|c e He _]; cbn [sub_body]; [|now apply Hb]. destruct b; exact I || (cbn [plain_ok] in Hp; contradiction). }
  destruct H as [st pk ha h2 vs hs us B1 B2 B3 L2 W2 Hv Hh Hu A1 A2].
  destruct (St st pk ha h2 vs hs us B1 B2 B3 L2 W2 Hv (Hg _ Hh) (Hg _ Hu) A1 A2) as (data & a & b & encs & Q). exists data, st, pk, ha, h2, vs, hs, us, a, b, encs. split; [reflexivity|exact Q].
Qed.
