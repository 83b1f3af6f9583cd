From Verif Require Import Base BaseProofs Spec Utils UtilsProofs CodecProofs SpecFraming FramingProofs KeyProofs DataProofs SigProofs SigStable UserAttr SpecAttr.

Lemma image_parse f image d : rfc_image f image d -> attr_from_content 1 d = Ok (AImage 1 16 (Some f) image).
Proof.
  intros ->. unfold attr_from_content. change (1 =? 1) with true. cbv iota. set (d := [16; 0; 1; f] ++ repeat 0 12 ++ image).
  assert (G0 : get d 0 = Ok 16) by reflexivity. assert (G : forall i x, nth_error [16; 0; 1; f] i = Some x -> get d (Z.of_nat i) = Ok x).
  { intros i x Hx. apply get_app_l; [lia|]. rewrite get_nonneg by lia. rewrite Nat2Z.id, Hx. reflexivity. }
  rewrite G0, (G 1%nat 0 eq_refl : get d 1 = Ok 0), (G 2%nat 1 eq_refl : get d 2 = Ok 1), (G 3%nat f eq_refl : get d 3 = Ok f). cbn [bind]. change (16 + Z.shiftl 0 8) with 16. change (negb (16 =? 16)) with false. cbn [bind]. change (1 =? 1) with true. cbv iota.
  assert (S1 : slice d 4 16 = repeat 0 12) by (unfold d; apply (slice_app' [16; 0; 1; f] (repeat 0 12) image); reflexivity). rewrite S1. change (existsb (fun x => negb (x =? 0)) (repeat 0 12)) with false. cbv iota.
  assert (S2 : slice_from d 16 = image). { unfold d. rewrite app_assoc. replace 16 with (zlen ([16; 0; 1; f] ++ repeat 0 12)) by reflexivity. apply slice_from_app. } now rewrite S2.
Qed.
Lemma image_write f image : byte f -> attr_content (AImage 1 16 (Some f) image) = Ok ([16; 0; 1; f] ++ repeat 0 12 ++ image).
Proof. intros Hf. unfold attr_content. change (mk_bytes [Z.land 16 255; Z.land (Z.shiftr 16 8) 255; 1]) with (@Ok bytes [16; 0; 1]). cbn [bind]. rewrite mk_bytes_wf by wfl. reflexivity. Qed.
Lemma firstn_zeros (l : bytes) : existsb (fun x => negb (x =? 0)) l = false -> l = repeat 0 (length l).
Proof. induction l as [|x l IH]; intros H; [reflexivity|]. cbn [existsb length repeat] in *. apply orb_false_iff in H as [H1 H2]. f_equal; [lia|auto]. Qed.
(** what image contents parse, and to what *)
Lemma image_inv d a : wf d -> attr_from_content 1 d = Ok a -> exists f, byte f /\
  ((exists image, rfc_image f image d /\ a = AImage 1 16 (Some f) image) \/ (exists k, (k < 12)%nat /\ d = [16; 0; 1; f] ++ repeat 0 k /\ a = AImage 1 16 (Some f) [])).
Proof.
  intros W H. unfold attr_from_content in H. change (1 =? 1) with true in H. cbv iota in H. apply bind_ok in H as (x & Hx & H). apply bind_ok in H as (y & Hy & H). apply bind_ok in H as (v & Hv & H).
  destruct (v =? 1) eqn:Ev; [|discriminate]. destruct (x + Z.shiftl y 8 =? 16) eqn:Eh; [|discriminate]. cbn [negb] in H. apply bind_ok in H as (f & Hf & H). destruct (existsb _ _) eqn:Ez; [discriminate|]. apply ok_inj in H as <-.
  destruct (get0_inv d x Hx) as [t ->]. rewrite get_cons_S in Hy by lia. destruct (get0_inv t y Hy) as [t1 ->]. do 2 (rewrite get_cons_S in Hv by lia). destruct (get0_inv t1 v Hv) as [t2 ->]. do 3 (rewrite get_cons_S in Hf by lia). destruct (get0_inv t2 f Hf) as [t3 ->].
  inversion W as [|? ? B1 W1]; subst. inversion W1 as [|? ? B2 W2]; subst. inversion W2 as [|? ? B3 W3]; subst. inversion W3 as [|? ? B4 W4]; subst.
  assert (v = 1) by lia. subst v. rewrite Z.shiftl_mul_pow2 in * by lia. change (2 ^ 8) with 256 in *. unfold byte in B1, B2. assert (x = 16 /\ y = 0) as [-> ->] by lia. change (16 + 0 * 256) with 16.
  exists f. split; [exact B4|]. set (h := [16; 0; 1; f]). change (16 :: 0 :: 1 :: f :: t3) with (h ++ t3) in *.
  destruct (Z_lt_le_dec (zlen t3) 12) as [L|L].
  - right. exists (length t3). split; [unfold zlen in L; lia|]. assert (S : slice (h ++ t3) 4 16 = t3). { pose proof (slice_cat (h ++ t3) 4) as _. unfold slice, clip. replace (4 <? 0) with false by lia. replace (16 <? 0) with false by lia. rewrite zlen_app. change (zlen h) with 4. pose proof (zlen_nonneg t3). rewrite (Z.min_l 4), (Z.min_r 16) by lia. change (Z.to_nat 4) with 4%nat. cbn [h app skipn]. rewrite firstn_all2; [reflexivity|unfold zlen; lia]. }
    rewrite S in Ez. apply firstn_zeros in Ez. split; [now rewrite <- Ez|]. f_equal. unfold slice_from, clip. replace (16 <? 0) with false by lia. rewrite skipn_all2; [reflexivity|]. rewrite zlen_app. change (zlen h) with 4. rewrite app_length. cbn [h length]. unfold zlen in *. lia.
  - left. destruct (split_at t3 0 12 ltac:(lia) ltac:(lia) ltac:(lia)) as (p & z & image & Et & Lp & Lz). apply zlen_0 in Lp as ->. cbn [app] in Et. subst t3. exists image.
    rewrite (slice_app' h z image 4 16) in Ez by (change (zlen h) with 4; lia). apply firstn_zeros in Ez. replace (length z) with 12%nat in Ez by (unfold zlen in Lz; lia). split; [unfold rfc_image; now rewrite <- Ez|].
    f_equal. rewrite app_assoc. replace 16 with (zlen (h ++ z)) by (rewrite zlen_app, Lz; reflexivity). apply slice_from_app.
Qed.
Lemma attr_stable ty d a : wf d -> attr_from_content ty d = Ok a -> attr_type a = ty /\ (attr_content a = Ok d <-> if ty =? 1 then exists f image, rfc_image f image d else d = []).
Proof.
  intros W H. destruct (ty =? 1) eqn:E.
  - assert (ty = 1) by lia. subst ty. destruct (image_inv d a W H) as (f & Bf & [(image & R & ->)|(k & Hk & Ed & ->)]); (split; [reflexivity|]); rewrite image_write by exact Bf; rewrite ok_iff.
    + split; [eauto|]. intros _. now rewrite R.
    + split.
      * intros Q. apply (f_equal (@length Z)) in Q. rewrite Ed, !app_length, !repeat_length in Q. cbn [length] in Q. lia.
      * intros (f' & image & R). unfold rfc_image in R. rewrite R in Ed. apply (f_equal (@length Z)) in Ed. rewrite !app_length, !repeat_length in Ed. cbn [length] in Ed. lia.
  - unfold attr_from_content in H. rewrite E in H. apply ok_inj in H as <-. split; [reflexivity|]. cbn [attr_content]. rewrite ok_iff. split; congruence.
Qed.
Lemma attr_at ty d enc pre suf : rfc_attr ty d enc -> attr_from_data (pre ++ enc ++ suf) (zlen pre) = do a <- attr_from_content ty d;; Ok (a, zlen pre + zlen enc).
Proof.
  intros (Ht & l & Hl & ->). unfold attr_from_data. rewrite <- !app_assoc. cbn [app]. rewrite (rfc_new_length_parse _ _ pre _ Hl). cbn [bind]. rewrite (app_assoc pre l), <- zlen_app, get_app_0. cbn [bind].
  replace ((pre ++ l) ++ ty :: d ++ suf) with (((pre ++ l) ++ [ty]) ++ d ++ suf) by now rewrite <- app_assoc.
  rewrite (slice_app' ((pre ++ l) ++ [ty]) d suf) by (rewrite (zlen_app (pre ++ l) [ty]); change (zlen [ty]) with 1; lia).
  destruct (attr_from_content ty d); [|reflexivity]. cbn [bind]. apply ok2; [reflexivity|]. rewrite !zlen_app, zlen_cons. lia.
Qed.
Lemma attrs_parse ts encs : rfc_attrs ts encs -> forall pre acc fuel, (length ts < fuel)%nat ->
  attr_loop fuel (pre ++ concat encs) (zlen pre) acc = do l <- mapM (fun t => attr_from_content (fst t) (snd t)) ts;; Ok (acc ++ l).
Proof.
  induction 1 as [|[ty d] enc ts encs R H IH]; intros pre acc fuel Hf; (destruct fuel as [|fuel]; [cbn in Hf; lia|]); cbn [attr_loop concat mapM length fst snd] in *.
  - rewrite app_nil_r, Z.ltb_irrefl. cbn [bind]. now rewrite app_nil_r.
  - assert (0 < zlen enc). { destruct R as (_ & l & Hl & ->). apply rfc_new_length_nonneg in Hl. rewrite !zlen_app. change (zlen [ty]) with 1. pose proof (zlen_nonneg d). pose proof (zlen_nonneg l). lia. }
    pose proof (zlen_nonneg (concat encs)). replace (zlen pre <? zlen (pre ++ enc ++ concat encs)) with true by (rewrite !zlen_app; lia).
    rewrite (attr_at ty d enc pre (concat encs) R). destruct (attr_from_content ty d) as [a|e]; [|reflexivity]. cbn [bind]. rewrite (app_assoc pre), <- zlen_app, IH by lia.
    destruct (mapM _ ts); [|reflexivity]. cbn [bind]. now rewrite <- app_assoc.
Qed.
Lemma attr_frame a d : byte (attr_type a) -> attr_content a = Ok d -> zlen d < 4294967295 -> exists enc, attr_bytes a = Ok enc /\ rfc_attr (attr_type a) d enc /\ forall enc', rfc_attr (attr_type a) d enc' -> zlen enc <= zlen enc'.
Proof.
  intros B H L. pose proof (zlen_nonneg d). unfold attr_bytes. rewrite H. cbn [bind]. destruct (new_length_conforms (zlen d + 1) false) as (l & E & W & R); [unfold MAX_PACKET_LENGTH; lia|].
  rewrite E. cbn [bind]. rewrite mk_bytes_wf by wfl. cbn [bind]. eexists. split; [reflexivity|]. split; [split; [exact B|]; exists l; auto|].
  intros enc' (_ & l' & R' & ->). pose proof (new_length_shortest (zlen d + 1) false l l' ltac:(lia) E R'). rewrite !zlen_app. lia.
Qed.
Lemma attrs_round l : Forall attr_ok l -> exists d ts encs, attrs_content l = Ok d /\ rfc_attrs ts encs /\ d = concat encs /\ attrs_from_content d = Ok l.
Proof.
  intros H.
  assert (G : exists ts encs, rfc_attrs ts encs /\ attrs_content l = Ok (concat encs) /\ mapM (fun t => attr_from_content (fst t) (snd t)) ts = Ok l /\ (length ts <= length (concat encs))%nat).
  { induction H as [|a l Ha H (ts & encs & R & C & M & Hl)]; [exists [], []; repeat split; constructor|].
    assert (exists d, attr_content a = Ok d /\ attr_from_content (attr_type a) d = Ok a /\ byte (attr_type a) /\ zlen d < 4294967295) as (d & D1 & D2 & D3 & D4).
    { destruct a as [ty|v hl fmt data]; cbn [attr_ok] in Ha.
      - exists []. split; [reflexivity|]. destruct Ha as [B Hn]. cbn [attr_type]. unfold attr_from_content. replace (ty =? 1) with false by lia. repeat split; try apply B.
      - destruct Ha as (-> & -> & (f & -> & Bf) & L). exists ([16; 0; 1; f] ++ repeat 0 12 ++ data). rewrite image_write by exact Bf. split; [reflexivity|]. split; [now apply image_parse|]. split; [unfold byte; cbn; lia|]. rewrite !zlen_app. change (zlen [16; 0; 1; f]) with 4. change (zlen (repeat 0 12)) with 12. lia. }
    destruct (attr_frame a d D3 D1 D4) as (enc & E1 & E2 & _). exists ((attr_type a, d) :: ts), (enc :: encs). split; [constructor; assumption|]. cbn [attrs_content concat mapM fst snd length]. rewrite E1, C, D2, M. cbn [bind]. split; [reflexivity|]. split; [reflexivity|].
    rewrite app_length. destruct E2 as (_ & l0 & R0 & ->). rewrite !app_length. cbn [length]. lia. }
  destruct G as (ts & encs & R & C & M & Hl). exists (concat encs), ts, encs. split; [exact C|]. split; [exact R|]. split; [reflexivity|]. unfold attrs_from_content.
  pose proof (attrs_parse ts encs R [] [] (S (length (concat encs))) ltac:(lia)) as P. cbn [app] in P. change (zlen (@nil Z)) with 0 in P. rewrite P, M. reflexivity.
Qed.
Lemma attrs_read ts encs : rfc_attrs ts encs -> attrs_from_content (concat encs) = mapM (fun t => attr_from_content (fst t) (snd t)) ts.
Proof.
  intros R. assert (Hl : (length ts <= length (concat encs))%nat). { induction R as [|t enc ts encs (_ & l & _ & ->) R IH]; [reflexivity|]. cbn [length concat]. rewrite !app_length. cbn [length]. lia. }
  unfold attrs_from_content. pose proof (attrs_parse ts encs R [] [] (S (length (concat encs))) ltac:(lia)) as P. cbn [app] in P. change (zlen (@nil Z)) with 0 in P. rewrite P. destruct (mapM _ ts); reflexivity.
Qed.
