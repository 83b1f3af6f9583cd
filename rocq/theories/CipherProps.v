From Verif Require Import Base BaseProofs Cipher SpecCipher CipherProofs CipherCalls CipherStream.

Lemma iterE_shift E n iv : iterE E n (E iv) = iterE E (S n) iv.
Proof. induction n as [|n IH]; cbn [iterE]; [reflexivity|]. now rewrite IH. Qed.
Lemma ofb_blocks_eq E n : forall iv, ofb_blocks E iv n = map (fun k => iterE E (S k) iv) (seq 0 n).
Proof.
  induction n as [|n IH]; intros iv; [reflexivity|]. cbn [ofb_blocks seq map]. rewrite IH. f_equal.
  rewrite <- seq_shift, map_map. apply map_ext. intros k. apply iterE_shift.
Qed.
Lemma iterE_ok E D bs iv : block_cipher bs E D -> wf iv -> zlen iv = bs -> forall n, wf (iterE E n iv) /\ zlen (iterE E n iv) = bs.
Proof. intros HE Hw Hl. induction n as [|n [H1 H2]]; cbn [iterE]; [easy|]. now apply HE. Qed.

Section StreamCalls.
Variables (E D : bytes -> bytes) (ctr : nat -> bytes).
Lemma ofb_calls bs iv : (0 < bs)%nat -> (forall n, length (iterE E n iv) = bs) -> forall chunks o p,
  c_mode o = MODE_OFB -> c_bs o = Z.of_nat bs -> ofb_inv E bs iv p (c_IV o) (c_count o) ->
  exists outs o', encrypt_calls E ctr o chunks = Ok (outs, o') /\ decrypt_calls E D ctr o chunks = Ok (outs, o') /\
    map zlen outs = map zlen chunks /\
    concat outs = xor_bytes (kseg bs (fun k => iterE E (S k) iv) p (length (concat chunks))) (concat chunks).
Proof.
  intros Hb HE chunks. induction chunks as [|c cs IH]; intros o p Hm Ho Hi; cbn [encrypt_calls decrypt_calls].
  - exists [], o. repeat split.
  - assert (Hcall : exists out o', cipher_encrypt E ctr o c = Ok (out, o') /\ cipher_decrypt E D ctr o c = Ok (out, o') /\
        c_mode o' = MODE_OFB /\ c_bs o' = Z.of_nat bs /\ ofb_inv E bs iv (p + length c) (c_IV o') (c_count o') /\
        out = xor_bytes (kseg bs (fun k => iterE E (S k) iv) p (length c)) c).
    { destruct (ofb_loop_spec E bs iv Hb HE (loop_fuel c) c [] (c_IV o) (c_count o) [] p Hi) as (iv' & count' & Heq & Hi').
      { unfold loop_fuel. destruct (_ =? _); lia. }
      cbn [app] in Heq. change (zlen (@nil Z)) with 0 in Heq. rewrite <- Ho in Heq.
      exists (xor_bytes (kseg bs (fun k => iterE E (S k) iv) p (length c)) c), (set_count (set_IV o iv') count').
      assert (He : cipher_encrypt E ctr o c = Ok (xor_bytes (kseg bs (fun k => iterE E (S k) iv) p (length c)) c, set_count (set_IV o iv') count')).
      { unfold cipher_encrypt. rewrite Hm, Heq. destruct (zlen c mod c_bs o =? 0); reflexivity. }
      split; [exact He|]. split; [unfold cipher_decrypt; rewrite Hm; exact He|]. repeat split; assumption. }
    destruct Hcall as (out & o' & He & Hd & Hm' & Ho' & Hi' & Hout).
    destruct (IH o' (p + length c)%nat Hm' Ho' Hi') as (outs & o'' & H1 & H2 & H3 & H4).
    exists (out :: outs), o''. rewrite He, Hd. cbn [bind]. rewrite H1, H2. cbn [bind]. split; [reflexivity|]. split; [reflexivity|].
    split; [cbn [map]; rewrite H3, Hout; unfold zlen; rewrite xor_len, kseg_len; f_equal; lia|].
    cbn [concat]. rewrite H4, Hout, app_length, kseg_app, xor_app by (rewrite kseg_len; reflexivity). reflexivity.
Qed.
Lemma ctr_calls bs : (0 < bs)%nat -> (forall n, zlen (ctr n) = Z.of_nat bs) -> (forall n, length (E (ctr n)) = bs) -> forall chunks o p,
  c_mode o = MODE_CTR -> c_bs o = Z.of_nat bs -> ctr_inv E bs ctr p (c_IV o) (c_count o) (c_calls o) ->
  exists outs o', encrypt_calls E ctr o chunks = Ok (outs, o') /\ decrypt_calls E D ctr o chunks = Ok (outs, o') /\
    map zlen outs = map zlen chunks /\
    concat outs = xor_bytes (kseg bs (fun k => E (ctr k)) p (length (concat chunks))) (concat chunks).
Proof.
  intros Hb Hctr HE chunks. induction chunks as [|c cs IH]; intros o p Hm Ho Hi; cbn [encrypt_calls decrypt_calls].
  - exists [], o. repeat split.
  - assert (Hcall : exists out o', cipher_encrypt E ctr o c = Ok (out, o') /\ cipher_decrypt E D ctr o c = Ok (out, o') /\
        c_mode o' = MODE_CTR /\ c_bs o' = Z.of_nat bs /\ ctr_inv E bs ctr (p + length c) (c_IV o') (c_count o') (c_calls o') /\
        out = xor_bytes (kseg bs (fun k => E (ctr k)) p (length c)) c).
    { destruct (ctr_loop_spec E bs ctr Hb Hctr HE (loop_fuel c) c [] (c_IV o) (c_count o) (c_calls o) [] p Hi) as (iv' & count' & calls' & Heq & Hi').
      { unfold loop_fuel. destruct (_ =? _); lia. }
      cbn [app] in Heq. change (zlen (@nil Z)) with 0 in Heq. rewrite <- Ho in Heq.
      exists (xor_bytes (kseg bs (fun k => E (ctr k)) p (length c)) c), (set_calls (set_count (set_IV o iv') count') calls').
      assert (He : cipher_encrypt E ctr o c = Ok (xor_bytes (kseg bs (fun k => E (ctr k)) p (length c)) c, set_calls (set_count (set_IV o iv') count') calls')).
      { unfold cipher_encrypt. rewrite Hm, Heq. destruct (zlen c mod c_bs o =? 0); reflexivity. }
      split; [exact He|]. split; [unfold cipher_decrypt; rewrite Hm; exact He|]. repeat split; assumption. }
    destruct Hcall as (out & o' & He & Hd & Hm' & Ho' & Hi' & Hout).
    destruct (IH o' (p + length c)%nat Hm' Ho' Hi') as (outs & o'' & H1 & H2 & H3 & H4).
    exists (out :: outs), o''. rewrite He, Hd. cbn [bind]. rewrite H1, H2. cbn [bind]. split; [reflexivity|]. split; [reflexivity|].
    split; [cbn [map]; rewrite H3, Hout; unfold zlen; rewrite xor_len, kseg_len; f_equal; lia|].
    cbn [concat]. rewrite H4, Hout, app_length, kseg_app, xor_app by (rewrite kseg_len; reflexivity). reflexivity.
Qed.
End StreamCalls.

Definition modes := [MODE_ECB; MODE_CBC; MODE_CFB; MODE_OFB; MODE_CTR].
Lemma land_7 x : Z.land x 7 = x mod 8.
Proof. change 7 with (Z.ones 3). now rewrite Z.land_ones. Qed.
(** what [new] guarantees about the object *)
Lemma cipher_new_inv bs ks key mode IV hc seg o : cipher_new bs ks key mode IV hc seg = Ok o ->
  In mode modes /\ c_mode o = mode /\ c_bs o = bs /\ c_count o = bs /\ c_calls o = 0%nat /\ In (zlen key) ks /\
  (mode <> MODE_ECB -> mode <> MODE_CTR -> exists iv, IV = Some iv /\ c_IV o = iv /\ zlen iv = bs) /\
  (mode = MODE_CFB -> exists s, 0 < s <= bs /\ c_seg o = 8 * s) /\ (hc = true <-> mode = MODE_CTR).
Proof.
  unfold cipher_new, modes. destruct (_ || _) eqn:E1 in |- *; [discriminate|]. destruct (mode =? MODE_PGP) eqn:E2; [discriminate|].
  destruct (negb _) eqn:E3 in |- *; [discriminate|].
  destruct ((mode =? MODE_CTR) && _) eqn:E4 in |- *; [discriminate|].
  destruct (_ && negb _) eqn:E5 in |- *; [discriminate|].
  set (sg := if (mode =? MODE_CFB) && (seg =? 0) then 8 else seg).
  destruct (_ && (_ || _)) eqn:E6 in |- *; [discriminate|].
  destruct ((mode =? MODE_CTR) && negb hc) eqn:E7; [discriminate|].
  destruct (negb (mode =? MODE_CTR) && hc) eqn:E8; [discriminate|].
  intros [= <-]. cbn [c_mode c_bs c_count c_calls c_IV c_seg].
  rewrite land_7 in E6. unfold MODE_ECB, MODE_CBC, MODE_CFB, MODE_PGP, MODE_OFB, MODE_CTR in *. apply negb_false_iff in E3.
  repeat split.
  - cbn. destruct (mode =? 1) eqn:?, (mode =? 2) eqn:?, (mode =? 3) eqn:?, (mode =? 5) eqn:?, (mode =? 6) eqn:?; lia.
  - apply existsb_exists in E3. destruct E3 as (x & Hx & He). now replace (zlen key) with x by lia.
  - intros Hn1 Hn2. destruct IV as [v|]; [|cbn in E5; lia]. exists v. repeat split. cbn in E5. lia.
  - intros ->. exists (sg / 8). destruct (negb (sg mod 8 =? 0)) eqn:E9; lia.
  - intros ->. lia.
  - intros ->. destruct hc; [reflexivity|cbn in E7; lia].
Qed.

Definition chunks_ok (o : cobj) (chunks : list bytes) : Prop := Forall (fun c => wf c /\ valid_len o (zlen c)) chunks.
Lemma chunks_oks o s chunks : (forall n, valid_len o n -> n mod s = 0) -> chunks_ok o chunks -> oks s chunks.
Proof. intros H Hc. eapply Forall_impl; [|exact Hc]. intros c [Hw Hv]. auto. Qed.
Lemma valid_block o n : c_mode o = MODE_ECB \/ c_mode o = MODE_CBC -> valid_len o n -> n mod c_bs o = 0.
Proof. unfold valid_len. intros [-> | ->]; exact (fun H => H). Qed.
Lemma valid_cfb o s n : c_mode o = MODE_CFB -> c_seg o = 8 * s -> valid_len o n -> n mod s = 0.
Proof. unfold valid_len. intros -> ->. replace (8 * s / 8) with s by lia. exact (fun H => H). Qed.
Lemma blocks_wf_pieces s bl pieces o : blocks_of s bl -> concat pieces = concat bl -> Forall (fun c => valid_len o (zlen c)) pieces -> chunks_ok o pieces.
Proof.
  intros Hb He Hv. assert (Hw : wf (concat pieces)) by (rewrite He; eapply blocks_wf; eauto).
  clear He. unfold chunks_ok. induction Hv as [|c cs Hc Hv IH]; constructor; cbn [concat] in Hw; apply wf_app in Hw; [tauto|]. apply IH. tauto.
Qed.

Lemma c45_round (E D : bytes -> bytes) (ctr : nat -> bytes) bs ks key mode IV hc seg o chunks :
  0 < bs -> block_cipher bs E D -> (forall k, wf (ctr k) /\ zlen (ctr k) = bs) -> (forall iv, IV = Some iv -> wf iv) ->
  cipher_new bs ks key mode IV hc seg = Ok o -> chunks_ok o chunks ->
  exists outs o', encrypt_calls E ctr o chunks = Ok (outs, o') /\ map zlen outs = map zlen chunks /\
  forall pieces, concat pieces = concat outs -> Forall (fun c => valid_len o (zlen c)) pieces ->
  exists res o'', decrypt_calls E D ctr o pieces = Ok (res, o'') /\ concat res = concat chunks.
Proof.
  intros Hbs HE Hctr HIV Hnew Hch. destruct (cipher_new_inv _ _ _ _ _ _ _ _ Hnew) as (Hmode & Hm & Hb & Hcount & Hcalls & _ & Hiv & Hseg & _).
  assert (HE1 : forall b, wf b -> zlen b = bs -> wf (E b) /\ zlen (E b) = bs) by (intros b W L; now apply HE).
  destruct Hmode as [<- | [<- | [<- | [<- | [<- | []]]]]].
  - (* ECB *)
    rewrite <- Hb in HE1, Hbs.
    destruct (ecb_calls_enc E D ctr o Hm Hbs HE1 chunks) as (outs & bl & Ee & H1 & H2 & H3 & H4 & H5).
    { eapply chunks_oks; [|exact Hch]. intros n. apply valid_block. auto. }
    exists outs, o. split; [exact Ee|]. split; [exact H4|]. intros pieces Hp Hv.
    destruct (ecb_calls_dec E D ctr o Hm Hbs pieces) as (res & bl' & Ed & D1 & D2 & D3).
    { eapply chunks_oks; [|eapply blocks_wf_pieces; [exact H5|rewrite Hp; exact H3|exact Hv]]. intros n. apply valid_block. auto. }
    exists res, o. split; [exact Ed|].
    assert (bl' = map E bl) as -> by (apply (blocks_unique (Z.to_nat (c_bs o))); [lia|easy|easy|congruence]).
    rewrite D3, map_map, <- H2. f_equal. rewrite <- (map_id bl) at 2. apply map_ext_in. intros b Hin.
    unfold blocks_of in H1. rewrite Forall_forall in H1. destruct (H1 b Hin) as [B1 B2]. apply HE; [easy|]. unfold zlen. lia.
  - (* CBC *)
    destruct (Hiv ltac:(easy) ltac:(easy)) as (iv & Eiv & Ciov & Liv).
    destruct (cbc_calls_enc E D ctr bs Hbs HE chunks) with (o := o) as (outs & o' & bl & Ee & H1 & H2 & H3 & H4);
      [eapply chunks_oks; [|exact Hch]; intros n; rewrite <- Hb; apply valid_block; auto|exact Hm|exact Hb|rewrite Ciov; now apply HIV|congruence|].
    exists outs, o'. split; [exact Ee|]. split; [exact H4|]. intros pieces Hp Hv.
    assert (HE' : block_cipher (Z.of_nat (Z.to_nat bs)) E D) by (rewrite Z2Nat.id by lia; exact HE).
    destruct (cbc_spec_blocks E D _ HE' bl H1 (c_IV o)) as (S1 & _); [rewrite Ciov; now apply HIV|rewrite Ciov; unfold zlen in Liv; lia|].
    destruct (cbc_calls_dec E D ctr bs Hbs pieces) with (o := o) as (res & o'' & bl' & Ed & D1 & D2 & D3);
      [eapply chunks_oks; [|eapply blocks_wf_pieces; [exact S1|rewrite Hp; exact H3|exact Hv]]; intros n; rewrite <- Hb; apply valid_block; auto|exact Hm|exact Hb|].
    exists res, o''. split; [exact Ed|].
    assert (bl' = cbc_spec E (c_IV o) bl) as -> by (apply (blocks_unique (Z.to_nat bs)); [lia|easy|easy|congruence]).
    rewrite D3, (cbc_inv E D _ HE') by (easy || (rewrite Ciov; first [now apply HIV|unfold zlen in Liv; lia])). exact H2.
  - (* CFB *)
    destruct (Hiv ltac:(easy) ltac:(easy)) as (iv & Eiv & Ciov & Liv).
    destruct (Hseg eq_refl) as (s & Hs & Sseg).
    destruct (cfb_calls E D ctr bs s Hs HE1 true chunks) with (o := o) as (outs & o' & bl & Ee & H1 & H2 & H3 & H4);
      [eapply chunks_oks; [|exact Hch]; intros n; now apply valid_cfb|exact Hm|exact Hb|exact Sseg|rewrite Ciov; now apply HIV|congruence|].
    exists outs, o'. split; [exact Ee|]. split; [exact H4|]. intros pieces Hp Hv.
    assert (HE' : forall b, wf b -> zlen b = Z.of_nat (Z.to_nat bs) -> wf (E b) /\ zlen (E b) = Z.of_nat (Z.to_nat bs)) by (intros b; rewrite Z2Nat.id by lia; apply HE1).
    assert (Hreg : regok (Z.to_nat bs) (c_IV o)) by (rewrite Ciov; split; [now apply HIV|unfold zlen in Liv; lia]).
    assert (Hsb : (0 < Z.to_nat s <= Z.to_nat bs)%nat) by lia.
    destruct (cfb_outs_blocks E _ _ Hsb HE' true bl H1 (c_IV o) Hreg) as [S1 _].
    destruct (cfb_calls E D ctr bs s Hs HE1 false pieces) with (o := o) as (res & o'' & bl' & Ed & D1 & D2 & D3 & _);
      [eapply chunks_oks; [|eapply blocks_wf_pieces; [exact S1|rewrite Hp; exact H3|exact Hv]]; intros n; now apply valid_cfb|exact Hm|exact Hb|exact Sseg|rewrite Ciov; now apply HIV|congruence|].
    exists res, o''. split; [exact Ed|].
    assert (bl' = cfb_outs E true (Z.to_nat s) (c_IV o) bl) as -> by (apply (blocks_unique (Z.to_nat s)); [lia|easy|easy|congruence]).
    rewrite D3, (cfb_inv E _ _ Hsb HE') by easy. exact H2.
  - (* OFB *)
    destruct (Hiv ltac:(easy) ltac:(easy)) as (iv & Eiv & Ciov & Liv).
    assert (Hlen : forall n, length (iterE E n iv) = Z.to_nat bs).
    { intros n. destruct (iterE_ok E D bs iv HE (HIV iv Eiv) Liv n) as [_ H]. unfold zlen in H. lia. }
    assert (Hinv : ofb_inv E (Z.to_nat bs) iv 0 (c_IV o) (c_count o)).
    { exists 0%nat, (Z.to_nat bs). rewrite Hcount, Ciov. repeat split; lia. }
    assert (Hbn : (0 < Z.to_nat bs)%nat) by lia.
    assert (Hbo : c_bs o = Z.of_nat (Z.to_nat bs)) by lia.
    destruct (ofb_calls E D ctr (Z.to_nat bs) iv Hbn Hlen chunks o 0 Hm Hbo Hinv) as (outs & o' & H1 & _ & H3 & H4).
    exists outs, o'. split; [exact H1|]. split; [exact H3|]. intros pieces Hp _.
    destruct (ofb_calls E D ctr (Z.to_nat bs) iv Hbn Hlen pieces o 0 Hm Hbo Hinv) as (res & o'' & _ & D2 & _ & D4).
    exists res, o''. split; [exact D2|]. rewrite D4, Hp, H4, xor_len, kseg_len, Nat.min_id.
    rewrite xor_comm, (xor_comm (kseg _ _ _ _)). apply xor_inv. rewrite kseg_len. lia.
  - (* CTR *)
    assert (Hlen : forall n, length (E (ctr n)) = Z.to_nat bs).
    { intros n. destruct (Hctr n) as [W L]. destruct (HE1 _ W L) as [_ H]. unfold zlen in H. lia. }
    assert (Hctr' : forall n, zlen (ctr n) = Z.of_nat (Z.to_nat bs)) by (intros n; rewrite Z2Nat.id by lia; apply Hctr).
    assert (Hinv : ctr_inv E (Z.to_nat bs) ctr 0 (c_IV o) (c_count o) (c_calls o)).
    { exists (Z.to_nat bs). rewrite Hcount, Hcalls. repeat split; lia. }
    assert (Hbn : (0 < Z.to_nat bs)%nat) by lia.
    assert (Hbo : c_bs o = Z.of_nat (Z.to_nat bs)) by lia.
    destruct (ctr_calls E D ctr (Z.to_nat bs) Hbn Hctr' Hlen chunks o 0 Hm Hbo Hinv) as (outs & o' & H1 & _ & H3 & H4).
    exists outs, o'. split; [exact H1|]. split; [exact H3|]. intros pieces Hp _.
    destruct (ctr_calls E D ctr (Z.to_nat bs) Hbn Hctr' Hlen pieces o 0 Hm Hbo Hinv) as (res & o'' & _ & D2 & _ & D4).
    exists res, o''. split; [exact D2|]. rewrite D4, Hp, H4, xor_len, kseg_len, Nat.min_id.
    rewrite xor_comm, (xor_comm (kseg _ _ _ _)). apply xor_inv. rewrite kseg_len. lia.
Qed.

(** the outputs are those of SP 800-38A *)
Lemma c45_spec (E D : bytes -> bytes) (ctr : nat -> bytes) bs ks key mode iv hc seg o chunks outs o' :
  0 < bs -> block_cipher bs E D -> (forall k, wf (ctr k) /\ zlen (ctr k) = bs) -> wf iv ->
  cipher_new bs ks key mode (Some iv) hc seg = Ok o -> chunks_ok o chunks ->
  encrypt_calls E ctr o chunks = Ok (outs, o') ->
  (mode = MODE_ECB -> forall bl, concat bl = concat chunks -> Forall (fun b => zlen b = bs) bl -> concat outs = concat (ecb_spec E bl)) /\
  (mode = MODE_CBC -> forall bl, concat bl = concat chunks -> Forall (fun b => zlen b = bs) bl -> concat outs = concat (cbc_spec E iv bl)) /\
  (mode = MODE_CFB -> forall s bl, c_seg o = 8 * s -> concat bl = concat chunks -> Forall (fun b => zlen b = s) bl -> concat outs = concat (cfb_spec E (Z.to_nat s) iv bl)) /\
  (mode = MODE_OFB -> forall n, zlen (concat chunks) <= bs * Z.of_nat n -> concat outs = xor_bytes (concat chunks) (concat (ofb_blocks E iv n))).
Proof.
  intros Hbs HE Hctr HIV Hnew Hch Henc. destruct (cipher_new_inv _ _ _ _ _ _ _ _ Hnew) as (Hmode & Hm & Hb & Hcount & Hcalls & _ & Hiv & Hseg & _).
  assert (HE1 : forall b, wf b -> zlen b = bs -> wf (E b) /\ zlen (E b) = bs) by (intros b W L; now apply HE).
  assert (Hwf : wf (concat chunks)).
  { clear - Hch. induction Hch as [|c cs [Hc _] _ IH]; cbn [concat]; [apply wf_nil|]. now apply wf_app. }
  assert (Hbl : forall s bl, concat bl = concat chunks -> Forall (fun b => zlen b = s) bl -> blocks_of (Z.to_nat s) bl).
  { intros s bl Hc Hl. rewrite <- Hc in Hwf. clear - Hwf Hl. induction Hl as [|b bl Hx Hl IH]; constructor; cbn [concat] in Hwf; apply wf_app in Hwf; [|tauto].
    split; [unfold zlen in Hx; lia|tauto]. }
  split; [|split; [|split]].
  - intros -> bl Hc Hl. rewrite <- Hb in HE1, Hbs.
    destruct (ecb_calls_enc E D ctr o Hm Hbs HE1 chunks) as (outs' & bl' & Ee & H1 & H2 & H3 & H4 & H5).
    { eapply chunks_oks; [|exact Hch]. intros n. apply valid_block. auto. }
    rewrite Ee in Henc. injection Henc as <- <-. rewrite H3. unfold ecb_spec. do 2 f_equal.
    apply (blocks_unique (Z.to_nat (c_bs o))); [lia|easy|rewrite Hb; now apply Hbl|congruence].
  - intros -> bl Hc Hl. destruct (Hiv ltac:(easy) ltac:(easy)) as (iv' & [= <-] & Ciov & Liv).
    destruct (cbc_calls_enc E D ctr bs Hbs HE chunks) with (o := o) as (outs' & o'' & bl' & Ee & H1 & H2 & H3 & H4);
      [eapply chunks_oks; [|exact Hch]; intros n; rewrite <- Hb; apply valid_block; auto|exact Hm|exact Hb|congruence|congruence|].
    rewrite Ee in Henc. injection Henc as <- <-. rewrite H3, Ciov. do 2 f_equal.
    apply (blocks_unique (Z.to_nat bs)); [lia|easy|now apply Hbl|congruence].
  - intros -> s bl Sseg Hc Hl. destruct (Hiv ltac:(easy) ltac:(easy)) as (iv' & [= <-] & Ciov & Liv).
    destruct (Hseg eq_refl) as (s' & Hs & Sseg'). assert (s' = s) as -> by lia.
    destruct (cfb_calls E D ctr bs s Hs HE1 true chunks) with (o := o) as (outs' & o'' & bl' & Ee & H1 & H2 & H3 & H4);
      [eapply chunks_oks; [|exact Hch]; intros n; now apply valid_cfb|exact Hm|exact Hb|exact Sseg|congruence|congruence|].
    rewrite Ee in Henc. injection Henc as <- <-. rewrite H3, Ciov, cfb_outs_enc. do 2 f_equal.
    apply (blocks_unique (Z.to_nat s)); [lia|easy|now apply Hbl|congruence].
  - intros -> n Hn. destruct (Hiv ltac:(easy) ltac:(easy)) as (iv' & [= <-] & Ciov & Liv).
    assert (Hlen : forall n, length (iterE E n iv) = Z.to_nat bs).
    { intros k. destruct (iterE_ok E D bs iv HE HIV Liv k) as [_ H]. unfold zlen in H. lia. }
    assert (Hinv : ofb_inv E (Z.to_nat bs) iv 0 (c_IV o) (c_count o)).
    { exists 0%nat, (Z.to_nat bs). rewrite Hcount, Ciov. repeat split; lia. }
    destruct (ofb_calls E D ctr (Z.to_nat bs) iv ltac:(lia) Hlen chunks o 0 Hm ltac:(lia) Hinv) as (outs' & o'' & H1 & _ & H3 & H4).
    rewrite H1 in Henc. injection Henc as <- <-. rewrite H4, xor_comm, ofb_blocks_eq.
    rewrite (kseg_blocks (Z.to_nat bs) _ ltac:(lia) n) by (intros; rewrite ?Hlen; unfold zlen in Hn; nia).
    apply xor_firstn. lia.
Qed.
Lemma c45_spec_ctr (E D : bytes -> bytes) (ctr : nat -> bytes) bs ks key IV hc seg o chunks outs o' n :
  0 < bs -> block_cipher bs E D -> (forall k, wf (ctr k) /\ zlen (ctr k) = bs) ->
  cipher_new bs ks key MODE_CTR IV hc seg = Ok o -> encrypt_calls E ctr o chunks = Ok (outs, o') ->
  zlen (concat chunks) <= bs * Z.of_nat n -> concat outs = xor_bytes (concat chunks) (concat (ctr_blocks E ctr n)).
Proof.
  intros Hbs HE Hctr Hnew Henc Hn. destruct (cipher_new_inv _ _ _ _ _ _ _ _ Hnew) as (Hmode & Hm & Hb & Hcount & Hcalls & _).
  assert (Hlen : forall n, length (E (ctr n)) = Z.to_nat bs).
  { intros k. destruct (Hctr k) as [W L]. destruct (HE _ W L) as [[_ H] _]. unfold zlen in H. lia. }
  assert (Hctr' : forall n, zlen (ctr n) = Z.of_nat (Z.to_nat bs)) by (intros k; rewrite Z2Nat.id by lia; apply Hctr).
  assert (Hinv : ctr_inv E (Z.to_nat bs) ctr 0 (c_IV o) (c_count o) (c_calls o)).
  { exists (Z.to_nat bs). rewrite Hcount, Hcalls. repeat split; lia. }
  destruct (ctr_calls E D ctr (Z.to_nat bs) ltac:(lia) Hctr' Hlen chunks o 0 Hm ltac:(lia) Hinv) as (outs' & o'' & H1 & _ & H3 & H4).
  rewrite H1 in Henc. injection Henc as <- <-. rewrite H4, xor_comm. unfold ctr_blocks.
  rewrite (kseg_blocks (Z.to_nat bs) _ ltac:(lia) n) by (intros; rewrite ?Hlen; unfold zlen in Hn; nia).
  apply xor_firstn. lia.
Qed.
(** a length that does not fit is refused *)
Lemma c45_rejects (E D : bytes -> bytes) (ctr : nat -> bytes) bs ks key mode IV hc seg o c :
  cipher_new bs ks key mode IV hc seg = Ok o -> ~ valid_len o (zlen c) ->
  cipher_encrypt E ctr o c = Err ValueError /\ cipher_decrypt E D ctr o c = Err ValueError.
Proof.
  intros Hnew. destruct (cipher_new_inv _ _ _ _ _ _ _ _ Hnew) as (Hmode & Hm & Hb & _).
  unfold valid_len, cipher_encrypt, cipher_decrypt. rewrite Hm.
  destruct Hmode as [<- | [<- | [<- | [<- | [<- | []]]]]]; cbn [MODE_ECB MODE_CBC MODE_CFB MODE_OFB MODE_CTR Z.eqb Pos.eqb orb andb negb]; intros Hv.
  1,2: rewrite (proj2 (Z.eqb_neq _ _) Hv); split; reflexivity.
  2,3: tauto.
  rewrite (proj2 (Z.eqb_neq _ _) Hv). cbn. destruct (zlen c mod c_bs o =? 0); split; reflexivity.
Qed.
