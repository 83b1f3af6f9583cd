From Verif Require Import Base BaseProofs Spec Utils UtilsProofs Framing SpecFraming FramingProofs FramingProps S2k Cipher SymCipher SpecCfb SpecCipher CipherProofs CfbProofs SessionKeys SessionKeysProofs KeyProofs Text Utf8 SpecUtf8 Utf8Proofs DataPackets SigPackets Packets Message SpecMessage.

Lemma dec_three E D ctr o c1 c2 c3 outs o' : decrypt_calls E D ctr o [c1; c2; c3] = Ok (outs, o') ->
  exists r1 o1 r2 o2 r3, cipher_decrypt E D ctr o c1 = Ok (r1, o1) /\ cipher_decrypt E D ctr o1 c2 = Ok (r2, o2) /\ cipher_decrypt E D ctr o2 c3 = Ok (r3, o') /\ outs = [r1; r2; r3].
Proof.
  cbn [decrypt_calls]. intros H. apply bind_ok in H as ([r1 o1] & H1 & H). apply bind_ok in H as ([rs o2] & H2 & H). injection H as <- <-.
  apply bind_ok in H2 as ([r2 o3] & H2 & H). apply bind_ok in H as ([rs' o4] & H3 & H). injection H as <- <-.
  apply bind_ok in H3 as ([r3 o5] & H3 & H). injection H as <- <-. exists r1, o1, r2, o3, r3. auto.
Qed.
Lemma last2_wf (iv : bytes) : wf iv -> wf (slice_from iv (-2)).
Proof. intros H. unfold slice_from. now apply Utf8Proofs.skipn_wf. Qed.
Lemma last2_len (iv : bytes) : 2 <= zlen iv -> zlen (slice_from iv (-2)) = 2.
Proof. intros H. unfold slice_from, clip. replace (-2 <? 0) with true by reflexivity. unfold zlen in *. rewrite skipn_length. lia. Qed.
Lemma firstn_app_all {A} (a b : list A) n : n = length a -> firstn n (a ++ b) = a.
Proof. intros ->. rewrite firstn_app, Nat.sub_diag, firstn_all, firstn_O. apply app_nil_r. Qed.

Lemma encrypt_rfc E sha1 alg k bl iv msg : symmetric_cipher_block_lengths alg = Some bl -> alg <> 0 -> In (zlen k) (cipher_key_sizes alg) -> good_block (E alg k) bl ->
  (forall d, zlen (sha1 d) = 20 /\ wf (sha1 d)) -> wf iv -> zlen iv = bl -> wf msg ->
  encrypt_data E sha1 iv true alg (Some k) msg = Ok (rfc_seipd (E alg k) bl sha1 iv (slice_from iv (-2)) msg).
Proof.
  intros Hb H0 Hk HE Hs Hiv Hl Hm. pose proof (bs_8_16 alg bl Hb H0) as Hbl. unfold encrypt_data. rewrite Hb.
  destruct (sym_new_ok alg k (repeat 0 (Z.to_nat bl)) bl Hb H0 Hk) as (o & Ho). { unfold zlen. rewrite repeat_length. lia. }
  rewrite Ho. cbn [bind the_key]. destruct (get_cfb_inv _ _ _ _ Ho) as (k' & bs' & Ek & Hb' & _ & Hbs & Hmo & Hcb & Hseg & HIV & Hl' & _). injection Ek as <-. rewrite Hb in Hb'. injection Hb' as <-.
  set (l2 := slice_from iv (-2)). assert (W2 : wf l2) by now apply last2_wf. assert (L2 : zlen l2 = 2) by (apply last2_len; lia). clearbody l2.
  set (mdc := sha1 (iv ++ l2 ++ msg ++ [211; 20])). destruct (Hs (iv ++ l2 ++ msg ++ [211; 20])) as [Lm Wm]. fold mdc in Lm, Wm.
  set (n := zlen msg + 2 + 22). set (pad := bl - n mod bl). destruct (pad_mod n bl Hbs) as [P1 P2]. fold pad in P1, P2.
  assert (Wd : wf (l2 ++ (msg ++ [211; 20]) ++ mdc)). { rewrite !wf_app. repeat split; auto. repeat constructor; lia. }
  destruct (cfb_calls_x (E alg k) (fun b => b) no_ctr o bl true [iv; l2 ++ (msg ++ [211; 20]) ++ mdc ++ repeat 0 (Z.to_nat pad)] (iv ++ l2 ++ (msg ++ [211; 20]) ++ mdc) (repeat 0 (Z.to_nat pad)))
    as (outs & o' & H1 & H2 & H3); try easy.
  - rewrite HIV. apply wf_zeros.
  - congruence.
  - constructor; [|constructor; [|constructor]].
    + split; [exact Hiv|]. rewrite Hl. apply Z.mod_same. lia.
    + split. { rewrite !app_assoc, wf_app. split; [rewrite <- !app_assoc in *; exact Wd|apply wf_zeros]. }
      rewrite !zlen_app. change (zlen [211; 20]) with 2. rewrite Lm, L2. unfold zlen at 2. rewrite repeat_length, Z2Nat.id by lia.
      replace (2 + (zlen msg + 2 + (20 + pad))) with (n + pad) by (unfold n; lia). exact P2.
  - cbn [concat]. rewrite app_nil_r, <- !app_assoc. reflexivity.
  - destruct (enc_two _ _ _ _ _ _ _ H1) as (r1 & o1 & r2 & R1 & R2 & ->). unfold sym_encrypt. rewrite R1. cbn [bind]. fold mdc. rewrite R2. cbn [bind]. f_equal.
    cbn [map] in H2. injection H2 as E1 E2. cbn [concat] in H3. rewrite app_nil_r in H3. rewrite HIV in H3. unfold rfc_seipd, mdc_plaintext, rfc_cfb_enc.
    replace (msg ++ [211; 20] ++ sha1 (iv ++ l2 ++ msg ++ [211; 20])) with ((msg ++ [211; 20]) ++ mdc) by (unfold mdc; now rewrite <- app_assoc).
    unfold cfb_x in H3. rewrite <- H3. rewrite !zlen_app, zlen_repeat in E2. change (zlen [211; 20]) with 2 in E2. rewrite Z2Nat.id in E2 by lia.
    rewrite slice_drop_last by (pose proof (zlen_nonneg msg); lia). rewrite firstn_app. rewrite (firstn_all2 r1) by (rewrite !app_length; unfold zlen in *; lia). f_equal. f_equal.
    rewrite !app_length. change (length [211; 20]) with 2%nat. unfold zlen in *. lia.
Qed.
Lemma cfb_dec_len E bs iv data : 0 < bs -> good_block E bs -> wf iv -> zlen iv = bs -> wf data ->
  zlen (rfc_cfb_dec E (Z.to_nat bs) iv data) = zlen data /\ wf (rfc_cfb_dec E (Z.to_nat bs) iv data).
Proof.
  intros Hbs HE Hiv Hl Hd.
  assert (HE' : forall b, wf b -> zlen b = Z.of_nat (Z.to_nat bs) -> wf (E b) /\ zlen (E b) = Z.of_nat (Z.to_nat bs)) by (intros b; rewrite Z2Nat.id by lia; apply HE).
  assert (Hl' : length iv = Z.to_nat bs) by (unfold zlen in Hl; lia).
  destruct (cfb_x_len E (Z.to_nat bs) ltac:(lia) HE' false (length data) iv data) as [A B]; auto. unfold cfb_x in A, B. unfold rfc_cfb_dec, zlen. rewrite A. auto.
Qed.
(** decryption of protected data of at least two blocks *)
Lemma decrypt_rfc E od alg k bl data v iv l2 D : symmetric_cipher_block_lengths alg = Some bl -> alg <> 0 -> In (zlen k) (cipher_key_sizes alg) -> good_block (E alg k) bl -> wf data ->
  2 * bl <= zlen data -> rfc_cfb_dec (E alg k) (Z.to_nat bl) (repeat 0 (Z.to_nat bl)) data = iv ++ l2 ++ D -> zlen iv = bl -> zlen l2 = 2 ->
  decrypt_octets E od (EncData data true v) alg (Some k) = if zlist_eqb l2 (slice_from iv (-2)) then Ok (iv, D) else Err ValueError.
Proof.
  intros Hb H0 Hk HE Hd Hlen HP Hliv Hl2. pose proof (bs_8_16 alg bl Hb H0) as Hbl. unfold decrypt_octets. cbn [ed_data ed_integrity]. rewrite Hb.
  destruct (sym_new_ok alg k (repeat 0 (Z.to_nat bl)) bl Hb H0 Hk) as (o & Ho). { unfold zlen. rewrite repeat_length. lia. }
  rewrite Ho. cbn [bind the_key]. destruct (get_cfb_inv _ _ _ _ Ho) as (k' & bs' & Ek & Hb' & _ & Hbs & Hmo & Hcb & Hseg & HIV & Hl' & _). injection Ek as <-. rewrite Hb in Hb'. injection Hb' as <-.
  destruct (pad_mod (zlen data - (bl + bl)) bl Hbs) as [P1 P2]. set (pad := bl - (zlen data - (bl + bl)) mod bl) in *.
  set (a := slice data 0 bl). set (b := slice data bl (bl + bl)).
  assert (Ha : zlen a = bl) by (unfold a; rewrite slice_len by lia; lia). assert (Hbb : zlen b = bl) by (unfold b; rewrite slice_len by lia; lia).
  set (c := slice_from (data ++ repeat 0 (Z.to_nat pad)) (bl + bl)).
  assert (Hsp : data = a ++ b ++ slice_from data (bl + bl)).
  { unfold a, b. rewrite (body_split data bl) at 1 by lia. f_equal. unfold slice_from. rewrite !clip_in by lia.
    rewrite slice_firstn_skipn by lia. replace (Z.to_nat (bl + bl)) with (Z.to_nat bl + Z.to_nat bl)%nat by lia. rewrite <- (firstn_skipn (Z.to_nat bl) (skipn (Z.to_nat bl) data)) at 1.
    f_equal; [f_equal; lia|]. now rewrite skipn_skipn. }
  assert (Hc : c = slice_from data (bl + bl) ++ repeat 0 (Z.to_nat pad)).
  { unfold c. rewrite Hsp at 1. rewrite <- !app_assoc. rewrite app_assoc. replace (bl + bl) with (zlen (a ++ b)) at 2 by (rewrite zlen_app; lia). apply slice_from_app. }
  assert (Wr : wf (slice_from data (bl + bl))) by (unfold slice_from; now apply Utf8Proofs.skipn_wf).
  assert (Lr : zlen (slice_from data (bl + bl)) = zlen data - (bl + bl)). { rewrite Hsp at 2. rewrite !zlen_app. lia. }
  assert (Lc : zlen c = zlen data - (bl + bl) + pad). { rewrite Hc, zlen_app, Lr. unfold zlen at 2. rewrite repeat_length. lia. }
  destruct (cfb_calls_x (E alg k) (fun x => x) no_ctr o bl false [a; b; c] data (repeat 0 (Z.to_nat pad))) as (outs & o' & H1 & H2 & H3); try easy.
  - rewrite HIV. apply wf_zeros.
  - congruence.
  - constructor; [|constructor; [|constructor; [|constructor]]].
    + split; [unfold a; now apply slice_wf|]. rewrite Ha. apply Z.mod_same. lia.
    + split; [unfold b; now apply slice_wf|]. rewrite Hbb. apply Z.mod_same. lia.
    + split; [rewrite Hc, wf_app; split; [exact Wr|apply wf_zeros]|]. rewrite Lc. exact P2.
  - cbn [concat]. rewrite app_nil_r, Hc. rewrite Hsp at 2. now rewrite <- !app_assoc.
  - destruct (dec_three _ _ _ _ _ _ _ _ _ H1) as (r1 & o1 & r2 & o2 & r3 & R1 & R2 & R3 & ->). unfold sym_decrypt. rewrite R1. cbn [bind]. rewrite R2. cbn [bind]. fold c. rewrite R3. cbn [bind].
    cbn [map] in H2. injection H2 as E1 E2 E3. cbn [concat] in H3. rewrite app_nil_r in H3. rewrite HIV in H3. unfold cfb_x in H3. fold (rfc_cfb_dec (E alg k) (Z.to_nat bl) (repeat 0 (Z.to_nat bl)) data) in H3. rewrite HP in H3.
    assert (Hf : firstn (length data) (r1 ++ r2 ++ r3) = r1 ++ r2 ++ firstn (Z.to_nat (zlen r3 - pad)) r3).
    { rewrite !firstn_app. rewrite (firstn_all2 r1), (firstn_all2 r2) by (unfold zlen in *; lia). do 3 f_equal. unfold zlen in *. lia. }
    rewrite Hf in H3. apply app_inj_len in H3 as [<- H3]; [|lia].
    assert (Hr2 : r2 = firstn 2 r2 ++ skipn 2 r2) by (now rewrite firstn_skipn).
    rewrite Hr2 in H3. rewrite <- app_assoc in H3. apply app_inj_len in H3 as [H4 <-]. 2:{ rewrite Hl2. unfold zlen in *. rewrite firstn_length. lia. }
    replace (slice r2 0 2) with l2. 2:{ rewrite <- H4. rewrite slice_firstn_skipn by lia. reflexivity. }
    destruct (zlist_eqb l2 (slice_from r1 (-2))); [|reflexivity]. cbn [negb]. do 2 f_equal.
    replace (slice_from r2 2) with (skipn 2 r2) by (unfold slice_from; rewrite clip_in by lia; reflexivity).
    rewrite slice_drop_last. 2:{ rewrite zlen_app. pose proof (zlen_nonneg (skipn 2 r2)). lia. }
    rewrite firstn_app. rewrite firstn_all2. 2:{ rewrite zlen_app. unfold zlen in *. lia. }
    f_equal. f_equal. rewrite zlen_app. unfold zlen in *. lia.
Qed.

(** ** the MDC *)
Lemma mdc_packet h : zlen h = 20 -> packet_from_packet_data pkt_dec ([211; 20] ++ h) 0 = Ok (22, Pkt NewH (BData (PMdc h))).
Proof.
  intros Hl. assert (R : rfc_packet false (Raw NewH 19 h) ([211; 20] ++ h)).
  { change ([211; 20] ++ h) with ((192 + 19) :: [20] ++ h). apply rp_new; [lia|]. rewrite Hl. apply nl_one. lia. }
  pose proof (raw_from_data_rfc false _ _ [] [] R) as P. cbn [app] in P. rewrite app_nil_r in P. change (zlen (@nil Z)) with 0 in P.
  unfold packet_from_packet_data. change ([211; 20] ++ h) with (211 :: 20 :: h). rewrite P. cbn [bind]. unfold pkt_dec, body_dec. cbn [ptype pcontent hfmt Z.eqb Pos.eqb].
  unfold data_from, mdc_from. cbn [Z.eqb Pos.eqb]. rewrite Hl. cbn [bind Z.eqb Pos.eqb]. do 2 f_equal. unfold zlen in *. cbn [length]. lia.
Qed.
Lemma slice_last20 (a h : bytes) : zlen h = 20 -> slice (a ++ h) 0 (-20) = a.
Proof.
  intros H. change (-20) with (- (20)). rewrite slice_drop_last by (rewrite zlen_app; pose proof (zlen_nonneg a); lia). rewrite zlen_app, H. apply firstn_app_all. unfold zlen. lia.
Qed.
Lemma slice_last22 (a m h : bytes) : zlen h = 20 -> zlen m = 2 -> slice (a ++ m ++ h) (-22) (-20) = m /\ slice_from (a ++ m ++ h) (-22) = m ++ h /\ slice (a ++ m ++ h) 0 (-22) = a.
Proof.
  intros Hh Hm. assert (L : zlen (a ++ m ++ h) = zlen a + 22) by (rewrite !zlen_app; lia). pose proof (zlen_nonneg a) as Ha.
  assert (C : forall n, 0 < n <= 22 -> clip (zlen a + 22) (- n) = zlen a + 22 - n). { intros n Hn. unfold clip. replace (- n <? 0) with true by lia. lia. }
  split; [|split].
  - unfold slice. rewrite L. change (-22) with (- (22)). change (-20) with (- (20)). rewrite !C by lia. rewrite skipn_app, skipn_all2 by (unfold zlen in *; lia). cbn [app].
    replace (Z.to_nat (zlen a + 22 - 22) - length a)%nat with 0%nat by (unfold zlen; lia). cbn [skipn]. rewrite firstn_app_all; [reflexivity|]. unfold zlen in *. lia.
  - unfold slice_from. rewrite L. change (-22) with (- (22)). rewrite !C by lia. rewrite skipn_app, skipn_all2 by (unfold zlen in *; lia). cbn [app].
    replace (Z.to_nat (zlen a + 22 - 22) - length a)%nat with 0%nat by (unfold zlen; lia). reflexivity.
  - change (-22) with (- (22)). rewrite slice_drop_last by lia. apply firstn_app_all. unfold zlen in *. lia.
Qed.
Lemma get_last {A} (l : list A) x : get (l ++ [x]) (-1) = Ok x.
Proof.
  unfold get. rewrite zlen_app. change (zlen [x]) with 1. pose proof (zlen_nonneg l). replace (-1 <? 0) with true by reflexivity.
  replace ((-1 + (zlen l + 1) <? 0) || (zlen l + 1 <=? -1 + (zlen l + 1))) with false by lia. replace (Z.to_nat (-1 + (zlen l + 1))) with (length l) by (unfold zlen; lia).
  rewrite nth_error_app2, Nat.sub_diag by lia. reflexivity.
Qed.
Lemma slice_but_last {A} (l : list A) x : slice (l ++ [x]) 0 (-1) = l.
Proof.
  change (-1) with (- (1)). rewrite slice_drop_last by (rewrite zlen_app; change (zlen [x]) with 1; pose proof (zlen_nonneg l); lia). rewrite zlen_app. change (zlen [x]) with 1. apply firstn_app_all. unfold zlen. lia.
Qed.
Lemma decrypt_mdc E sha1 od d alg key iv body h : ed_integrity d = true -> decrypt_octets E od d alg key = Ok (iv, body ++ [211; 20] ++ h) -> zlen h = 20 ->
  decrypt_data E sha1 od d alg key = (do ps <- all_packets body;; if zlist_eqb h (sha1 (iv ++ slice_from iv (-2) ++ body ++ [211; 20])) then open_message ps else Err ValueError).
Proof.
  intros Hi Hd Hh. unfold decrypt_data. rewrite Hd. cbn [bind]. destruct (slice_last22 body [211; 20] h Hh eq_refl) as (S1 & S2 & S3). rewrite S1, S2, S3.
  rewrite zlist_eqb_refl. destruct (all_packets body) as [ps|e]; [|reflexivity]. cbn [bind]. replace ([211; 20] ++ h) with (211 :: 20 :: h) at 1 by reflexivity. cbn [app].
  pose proof (mdc_packet h Hh) as P. cbn [app] in P. rewrite P. cbn [bind]. rewrite Hi, get_last, slice_but_last. cbn [bind]. unfold pkt_type. cbn [p_body body_type data_type Z.eqb Pos.eqb negb].
  pose proof (slice_last20 (body ++ [211; 20]) h Hh) as S4. rewrite <- app_assoc in S4. cbn [app] in S4. rewrite S4. reflexivity.
Qed.
Lemma cfb_dec_fields E D ctr o c r o' : c_mode o = MODE_CFB -> cipher_decrypt E D ctr o c = Ok (r, o') ->
  zlen c mod (c_seg o / 8) = 0 /\ c_mode o' = MODE_CFB /\ c_seg o' = c_seg o.
Proof.
  intros Hm. unfold cipher_decrypt. rewrite Hm. cbn [MODE_CFB MODE_CTR MODE_OFB MODE_ECB MODE_CBC Z.eqb Pos.eqb orb negb andb]. rewrite andb_false_r.
  destruct (zlen c mod (c_seg o / 8) =? 0) eqn:Ez; cbn [negb]; [|discriminate]. intros H. apply bind_ok in H as ([r0 iv] & _ & H). injection H as _ <-. apply Z.eqb_eq in Ez.
  split; [exact Ez|]. split; [exact Hm|reflexivity].
Qed.
(** what data can be decrypted at all *)
Lemma decrypt_octets_inv E od d alg key iv dec : ed_integrity d = true -> wf (ed_data d) -> (forall k bl, key = Some k -> symmetric_cipher_block_lengths alg = Some bl -> good_block (E alg k) bl) ->
  decrypt_octets E od d alg key = Ok (iv, dec) ->
  (iv = [] /\ dec = []) \/ exists k bl, key = Some k /\ symmetric_cipher_block_lengths alg = Some bl /\ alg <> 0 /\ In (zlen k) (cipher_key_sizes alg) /\ 2 * bl <= zlen (ed_data d) /\ zlen iv = bl /\
    rfc_cfb_dec (E alg k) (Z.to_nat bl) (repeat 0 (Z.to_nat bl)) (ed_data d) = iv ++ slice_from iv (-2) ++ dec.
Proof.
  destruct d as [data ig v]. cbn [ed_integrity ed_data]. intros -> Hd HE H. pose proof H as H'. unfold decrypt_octets in H. cbn [ed_data ed_integrity] in H.
  destruct (symmetric_cipher_block_lengths alg) as [bl|] eqn:Hb; [|discriminate]. apply bind_ok in H as (o & Ho & H).
  destruct (get_cfb_inv _ _ _ _ Ho) as (k & bs' & -> & Hb' & H0 & Hbs & Hmo & Hcb & Hseg & HIV & Hl' & Hk). rewrite Hb in Hb'. injection Hb' as <-. cbn [the_key] in H.
  specialize (HE k bl eq_refl eq_refl). pose proof (bs_8_16 alg bl Hb H0) as Hbl. pose proof (zlen_nonneg data) as Hn.
  assert (Hs8 : c_seg o / 8 = bl) by (rewrite Hseg; now rewrite Z.mul_comm, Z.div_mul).
  apply bind_ok in H as ([iv0 o1] & H1 & H). apply bind_ok in H as ([fb o2] & H2 & H).
  destruct (cfb_dec_fields _ _ _ _ _ _ _ Hmo H1) as (F1 & F2 & F3). destruct (cfb_dec_fields _ _ _ _ _ _ _ F2 H2) as (F4 & F5 & F6). rewrite F3 in F4. rewrite Hs8 in F1, F4.
  destruct (Z_lt_le_dec (zlen data) (2 * bl)) as [Hlt|Hge].
  - left. destruct (Z_lt_le_dec (zlen data) bl) as [Hlt1|Hge1].
    + assert (Ha : slice data 0 bl = data). { rewrite slice_firstn_skipn by lia. cbn [skipn Z.to_nat]. apply firstn_all2. unfold zlen in *. lia. }
      rewrite Ha in *. rewrite Z.mod_small in F1 by lia. apply zlen_0 in F1 as ->.
      destruct (cfb_calls_x (E alg k) (fun x => x) no_ctr o bl false [[]; []] [] []) as (outs & o' & C1 & C2 & C3); try easy.
      { rewrite HIV. apply wf_zeros. } { congruence. } { repeat constructor. }
      cbn [decrypt_calls] in C1. apply bind_ok in C1 as ([x1 y1] & D1 & C1). unfold sym_decrypt in H1, H2. rewrite D1 in H1. injection H1 as <- <-.
      assert (Hb0 : slice (@nil Z) bl (bl + bl) = []) by (rewrite slice_firstn_skipn by lia; now rewrite skipn_nil, firstn_nil). rewrite Hb0 in H2.
      rewrite H2 in C1. apply bind_ok in C1 as ([xs ys] & D2 & C1). cbn [bind] in D2. injection D2 as <- <-. injection C1 as <- <-. cbn [map] in C2. injection C2 as C2 C4.
      apply zlen_0 in C2 as ->. apply zlen_0 in C4 as ->. cbn [slice_from] in H. change (zlist_eqb (slice (@nil Z) 0 2) (slice_from [] (-2))) with true in H. cbn [negb] in H.
      apply bind_ok in H as ([r o3] & H3 & H). injection H as <- <-. split; [reflexivity|].
      set (pad := bl - (zlen (@nil Z) - (bl + bl)) mod bl) in *. assert (Hp : pad = bl). { unfold pad. change (zlen (@nil Z)) with 0. replace (0 - (bl + bl)) with (-2 * bl) by lia. rewrite Z.mod_mul by lia. lia. }
      clearbody pad. subst pad. assert (Hz : slice_from (([] : bytes) ++ repeat 0 (Z.to_nat bl)) (bl + bl) = []). { cbn [app]. unfold slice_from. rewrite clip_hi by (rewrite zlen_repeat; lia). rewrite skipn_all2; [reflexivity|]. rewrite zlen_repeat, repeat_length. lia. }
      rewrite Hz in H3. destruct (cfb_calls_x (E alg k) (fun x => x) no_ctr o bl false [[]; []; []] [] []) as (outs & o' & G1 & G2 & G3); try easy.
      { rewrite HIV. apply wf_zeros. } { congruence. } { repeat constructor. }
      cbn [decrypt_calls] in G1. rewrite D1 in G1. cbn [bind] in G1. rewrite H2 in G1. cbn [bind] in G1. unfold sym_decrypt in H3. rewrite H3 in G1. cbn [bind] in G1. injection G1 as <- <-. cbn [map] in G2. injection G2 as G2.
      apply zlen_0 in G2 as ->. cbn [app slice_from]. unfold slice. now rewrite skipn_nil, firstn_nil.
    + exfalso. assert (Lb : zlen (slice data bl (bl + bl)) = zlen data - bl). { rewrite slice_firstn_skipn by lia. unfold zlen in *. rewrite firstn_length, skipn_length. lia. }
      rewrite Lb, Z.mod_small in F4 by lia. assert (Hdl : zlen data = bl) by lia.
      assert (Hb0 : slice data bl (bl + bl) = []) by (apply zlen_0; lia). rewrite Hb0 in H2.
      assert (Ha : slice data 0 bl = data). { rewrite slice_firstn_skipn by lia. cbn [skipn Z.to_nat]. apply firstn_all2. unfold zlen in *. lia. } rewrite Ha in H1.
      destruct (cfb_calls_x (E alg k) (fun x => x) no_ctr o bl false [data; []] data []) as (outs & o' & C1 & C2 & C3); try easy.
      { rewrite HIV. apply wf_zeros. } { congruence. } { constructor; [split; [exact Hd|]|repeat constructor]. rewrite Hdl. apply Z.mod_same. lia. }
      cbn [decrypt_calls] in C1. unfold sym_decrypt in H1, H2. rewrite H1 in C1. cbn [bind] in C1. rewrite H2 in C1. cbn [bind] in C1. injection C1 as <- <-. cbn [map] in C2. injection C2 as C2 C4.
      apply zlen_0 in C4 as ->. pose proof (last2_len iv0 ltac:(lia)) as L2. destruct (zlist_eqb (slice [] 0 2) (slice_from iv0 (-2))) eqn:Ez; [|discriminate H].
      apply zlist_eqb_spec in Ez. rewrite <- Ez in L2. discriminate L2.
  - right. exists k, bl. destruct (cfb_dec_len (E alg k) bl (repeat 0 (Z.to_nat bl)) data Hbs HE (wf_zeros _) ltac:(rewrite zlen_repeat; lia) Hd) as [LP WP].
    set (P := rfc_cfb_dec (E alg k) (Z.to_nat bl) (repeat 0 (Z.to_nat bl)) data) in *.
    assert (HP : P = slice P 0 bl ++ slice P bl (bl + 2) ++ slice_from P (bl + 2)).
    { rewrite app_assoc, <- slice_cat by lia. apply body_split. lia. }
    rewrite (decrypt_rfc E od alg k bl data v _ _ _ Hb H0 Hk HE Hd Hge HP) in H'; [|rewrite slice_len by lia; lia|rewrite slice_len by lia; lia].
    destruct (zlist_eqb (slice P bl (bl + 2)) (slice_from (slice P 0 bl) (-2))) eqn:Ez; [|discriminate H']. apply zlist_eqb_spec in Ez. injection H' as <- <-.
    repeat split; auto; try (rewrite slice_len by lia; lia). rewrite <- Ez. exact HP.
Qed.
Lemma all_packets_ok d ps : all_packets d = Ok ps <-> parse_binary_packet_data pkt_dec d = (ps, None).
Proof. unfold all_packets. destruct (parse_binary_packet_data pkt_dec d) as [l [e|]]; split; congruence. Qed.
Lemma held_inv (dec : bytes) : slice dec (-22) (-20) = [211; 20] -> exists body h, dec = body ++ [211; 20] ++ h /\ zlen h = 20.
Proof.
  intros H. assert (L : 22 <= zlen dec).
  { destruct (Z_lt_le_dec (zlen dec) 22) as [Hl|]; [|lia]. exfalso. assert (L2 : zlen (slice dec (-22) (-20)) <= zlen dec - 20 \/ zlen (slice dec (-22) (-20)) = 0).
    { unfold slice. unfold clip. replace (-22 <? 0) with true by reflexivity. replace (-20 <? 0) with true by reflexivity. unfold zlen in *. rewrite firstn_length, skipn_length. lia. }
    rewrite H in L2. change (zlen [211; 20]) with 2 in L2. lia. }
  exists (slice dec 0 (zlen dec - 22)), (slice_from dec (zlen dec - 20)). assert (E : slice dec (-22) (-20) = slice dec (zlen dec - 22) (zlen dec - 20)).
  { unfold slice, clip. replace (-22 <? 0) with true by reflexivity. replace (-20 <? 0) with true by reflexivity. replace (zlen dec - 22 <? 0) with false by lia. replace (zlen dec - 20 <? 0) with false by lia. f_equal; [|f_equal]; lia. }
  split.
  - rewrite <- H, E. rewrite app_assoc, <- slice_cat by lia. apply body_split. lia.
  - unfold slice_from. rewrite clip_in by lia. unfold zlen in *. rewrite skipn_length. lia.
Qed.
Lemma decrypt_accepts E sha1 od d alg key m : ed_integrity d = true -> decrypt_data E sha1 od d alg key = Ok m ->
  exists iv dec ps h mdc, decrypt_octets E od d alg key = Ok (iv, dec) /\ packets_in dec (ps ++ [Pkt h (BData (PMdc mdc))]) /\
    mdc = sha1 (iv ++ slice_from iv (-2) ++ slice dec 0 (-20)) /\ open_message ps = Ok m.
Proof.
  intros Hi H. unfold decrypt_data in H. apply bind_ok in H as ([iv dec] & Hd & H). exists iv, dec.
  destruct (zlist_eqb (slice dec (-22) (-20)) [211; 20]) eqn:Eh.
  - apply zlist_eqb_spec in Eh. destruct (held_inv dec Eh) as (body & h & -> & Lh). pose proof (decrypt_mdc E sha1 od d alg key iv body h Hi Hd Lh) as X.
    unfold decrypt_data in X. rewrite Hd in X. cbn [bind] in X. rewrite Eh, zlist_eqb_refl in X. rewrite X in H. apply bind_ok in H as (ps & H1 & H2).
    destruct (zlist_eqb h _) eqn:E2 in H2; [|discriminate]. apply zlist_eqb_spec in E2. exists ps, NewH, h. split; [exact Hd|]. split; [|split].
    + right. exists body, h, ps. rewrite all_packets_ok in H1. auto.
    + pose proof (slice_last20 (body ++ [211; 20]) h Lh) as S4. rewrite <- app_assoc in S4. now rewrite S4.
    + exact H2.
  - apply bind_ok in H as (ps & H1 & H). cbn [bind] in H. rewrite Hi in H. apply bind_ok in H as (last & H2 & H). destruct (pkt_type last =? 19) eqn:Et; [|discriminate H]. cbn [negb] in H.
    assert (Hps : exists ps', ps = ps' ++ [last]).
    { destruct ps as [|p ps0]; [discriminate H2|]. destruct (@exists_last _ (p :: ps0)) as (ps' & x & Ex); [discriminate|]. rewrite Ex in *. rewrite get_last in H2. injection H2 as <-. now exists ps'. }
    destruct Hps as (ps' & ->). rewrite slice_but_last in H. destruct last as [h b]. cbn [p_body] in H. destruct b as [q|s|q|q|sub k|sub k|l|dd]; try discriminate H. destruct dd as [ | | | | | | |d0| | ]; try discriminate H.
    destruct (zlist_eqb d0 _) eqn:E2 in H; [|discriminate H]. apply zlist_eqb_spec in E2. exists ps', h, d0. repeat split; auto. left. now apply all_packets_ok.
Qed.
Lemma seipd_len (E : bytes -> bytes) bl sha1 iv l2 msg : 0 < bl -> good_block E bl -> (forall d, zlen (sha1 d) = 20 /\ wf (sha1 d)) -> wf iv -> wf l2 -> wf msg -> zlen iv = bl -> zlen l2 = 2 ->
  zlen (rfc_seipd E bl sha1 iv l2 msg) = bl + zlen msg + 24 /\ wf (rfc_seipd E bl sha1 iv l2 msg) /\ wf (mdc_plaintext sha1 iv l2 msg).
Proof.
  intros Hb HE Hs Wi W2 Wm Li L2. assert (W : wf (mdc_plaintext sha1 iv l2 msg)). { unfold mdc_plaintext. rewrite !wf_app. repeat split; auto; [repeat constructor; lia|apply Hs]. }
  destruct (rfc_cfb_len E bl (repeat 0 (Z.to_nat bl)) (mdc_plaintext sha1 iv l2 msg) Hb HE (wf_zeros _) ltac:(rewrite zlen_repeat; lia) W) as [A B]. unfold rfc_seipd. rewrite A.
  split; [|auto]. unfold mdc_plaintext. rewrite !zlen_app. change (zlen [211; 20]) with 2. rewrite (proj1 (Hs _)). lia.
Qed.
Lemma protected_octets E od sha1 alg k bl iv msg v : symmetric_cipher_block_lengths alg = Some bl -> alg <> 0 -> In (zlen k) (cipher_key_sizes alg) -> good_block (E alg k) bl ->
  (forall d, zlen (sha1 d) = 20 /\ wf (sha1 d)) -> wf iv -> zlen iv = bl -> wf msg ->
  decrypt_octets E od (EncData (rfc_seipd (E alg k) bl sha1 iv (slice_from iv (-2)) msg) true v) alg (Some k) = Ok (iv, msg ++ [211; 20] ++ sha1 (iv ++ slice_from iv (-2) ++ msg ++ [211; 20])).
Proof.
  intros Hb H0 Hk HE Hs Hiv Hl Hm. pose proof (bs_8_16 alg bl Hb H0) as Hbl.
  destruct (seipd_len (E alg k) bl sha1 iv (slice_from iv (-2)) msg ltac:(lia) HE Hs Hiv (last2_wf _ Hiv) Hm Hl (last2_len iv ltac:(lia))) as (L & W & WP).
  pose proof (rfc_cfb_inv (E alg k) bl (repeat 0 (Z.to_nat bl)) _ ltac:(lia) HE (wf_zeros _) ltac:(rewrite zlen_repeat; lia) WP) as Inv.
  rewrite (decrypt_rfc E od alg k bl _ v _ _ _ Hb H0 Hk HE W ltac:(pose proof (zlen_nonneg msg); lia) Inv Hl (last2_len iv ltac:(lia))). now rewrite zlist_eqb_refl.
Qed.
Lemma protected_round E od sha1 alg k bl iv msg v : symmetric_cipher_block_lengths alg = Some bl -> alg <> 0 -> In (zlen k) (cipher_key_sizes alg) -> good_block (E alg k) bl ->
  (forall d, zlen (sha1 d) = 20 /\ wf (sha1 d)) -> wf iv -> zlen iv = bl -> wf msg -> msg <> [] ->
  exists d, encdata_new E sha1 iv alg (Some k) msg true v = Ok d /\ ed_integrity d = true /\ ed_version d = v /\ ed_data d = rfc_seipd (E alg k) bl sha1 iv (slice_from iv (-2)) msg /\ wf (ed_data d) /\
    decrypt_data E sha1 od d alg (Some k) = (do ps <- all_packets msg;; open_message ps).
Proof.
  intros Hb H0 Hk HE Hs Hiv Hl Hm Hne. pose proof (bs_8_16 alg bl Hb H0) as Hbl. exists (EncData (rfc_seipd (E alg k) bl sha1 iv (slice_from iv (-2)) msg) true v). unfold encdata_new.
  rewrite (encrypt_rfc E sha1 alg k bl iv msg Hb H0 Hk HE Hs Hiv Hl Hm). destruct msg as [|x msg]; [easy|]. split; [reflexivity|]. cbn [ed_integrity ed_data ed_version]. split; [reflexivity|]. split; [reflexivity|]. split; [reflexivity|]. split.
  - now destruct (seipd_len (E alg k) bl sha1 iv (slice_from iv (-2)) (x :: msg) ltac:(lia) HE Hs Hiv (last2_wf _ Hiv) Hm Hl (last2_len iv ltac:(lia))) as (L & W & WP).
  - erewrite decrypt_mdc; [|reflexivity|apply (protected_octets E od sha1 alg k bl iv (x :: msg) v Hb H0 Hk HE Hs Hiv Hl Hm)|apply Hs]. now rewrite zlist_eqb_refl.
Qed.
(** without integrity protection *)
Lemma cfb_enc_misfit E ctr o c : c_mode o = MODE_CFB -> zlen c mod (c_seg o / 8) <> 0 -> cipher_encrypt E ctr o c = Err ValueError.
Proof.
  intros Hm Hc. unfold cipher_encrypt. rewrite Hm. cbn [MODE_CFB MODE_CTR MODE_OFB MODE_ECB MODE_CBC Z.eqb Pos.eqb orb negb andb].
  replace (zlen c mod (c_seg o / 8) =? 0) with false by (symmetry; now apply Z.eqb_neq). cbn [negb]. destruct (negb (zlen c mod c_bs o =? 0) && false) eqn:?; reflexivity.
Qed.
Lemma unprotected_fails E sha1 alg k bl iv msg : symmetric_cipher_block_lengths alg = Some bl -> alg <> 0 -> In (zlen k) (cipher_key_sizes alg) -> zlen iv = bl ->
  encrypt_data E sha1 iv false alg (Some k) msg = Err ValueError.
Proof.
  intros Hb H0 Hk Hl. pose proof (bs_8_16 alg bl Hb H0) as Hbl. unfold encrypt_data. rewrite Hb.
  destruct (sym_new_ok alg k (repeat 0 (Z.to_nat bl)) bl Hb H0 Hk) as (o & Ho). { rewrite zlen_repeat. lia. }
  rewrite Ho. cbn [bind the_key]. destruct (get_cfb_inv _ _ _ _ Ho) as (k' & bs' & Ek & Hb' & _ & Hbs & Hmo & Hcb & Hseg & HIV & Hl' & _). rewrite Hb in Hb'. injection Hb' as <-.
  unfold sym_encrypt. rewrite cfb_enc_misfit; [reflexivity|exact Hmo|]. rewrite Hseg. replace (8 * bl / 8) with bl by (rewrite Z.mul_comm, Z.div_mul; lia). rewrite zlen_app, last2_len, Hl by lia.
  replace (bl + 2) with (2 + 1 * bl) by lia. rewrite Z.mod_add, Z.mod_small by lia. lia.
Qed.
Lemma unprotected_unread E sha1 od d alg key m : ed_integrity d = false -> decrypt_data E sha1 od d alg key <> Ok m.
Proof.
  intros Hi H. unfold decrypt_data in H. apply bind_ok in H as ([iv dec] & Hd & H). assert (dec = []).
  { unfold decrypt_octets in Hd. rewrite Hi in Hd. destruct (symmetric_cipher_block_lengths alg); [|discriminate]. apply bind_ok in Hd as (o & _ & Hd). apply bind_ok in Hd as ([x o1] & _ & Hd). apply bind_ok in Hd as (r & _ & Hd). injection Hd as _ <-.
    change (- 0) with 0. unfold slice. now rewrite Z.sub_diag. }
  subst dec. change (zlist_eqb (slice (@nil Z) (-22) (-20)) [211; 20]) with false in H. cbn iota in H. change (all_packets []) with (@Ok (list pkt) []) in H. cbn [bind] in H. rewrite Hi in H. discriminate H.
Qed.
