From Verif Require Import Base BaseProofs Cipher SpecCipher CipherProofs CipherCalls SpecCfb.

Section P.
Variables (E : bytes -> bytes) (bs : nat).
Hypothesis Hbs : (0 < bs)%nat.
Hypothesis HE : forall b, wf b -> zlen b = Z.of_nat bs -> wf (E b) /\ zlen (E b) = Z.of_nat bs.

Lemma cfb_enc_nil n reg : cfb_enc E bs n reg [] = [].
Proof. revert reg. induction n as [|n IH]; intros reg; cbn [cfb_enc]; [reflexivity|]. now rewrite firstn_nil, skipn_nil, IH. Qed.
Lemma cfb_dec_nil n reg : cfb_dec E bs n reg [] = [].
Proof. revert reg. induction n as [|n IH]; intros reg; cbn [cfb_dec]; [reflexivity|]. now rewrite firstn_nil, skipn_nil, IH. Qed.

Definition cfb_x (enc : bool) := if enc then cfb_enc E bs else cfb_dec E bs.
Lemma cfb_x_S enc n reg d : cfb_x enc (S n) reg d =
  xor_bytes (firstn bs d) (E reg) ++ cfb_x enc n (if enc then xor_bytes (firstn bs d) (E reg) else firstn bs d) (skipn bs d).
Proof. now destruct enc. Qed.
Lemma cfb_x_nil enc n reg : cfb_x enc n reg [] = [].
Proof. destruct enc; [apply cfb_enc_nil|apply cfb_dec_nil]. Qed.

Lemma Elen reg : wf reg -> length reg = bs -> length (E reg) = bs /\ wf (E reg).
Proof. intros W L. destruct (HE reg W) as [A B]; unfold zlen in *; [lia|]. split; [lia|easy]. Qed.
Lemma cfb_x_len enc n : forall reg d, (length d <= n)%nat -> wf reg -> length reg = bs -> wf d -> length (cfb_x enc n reg d) = length d /\ wf (cfb_x enc n reg d).
Proof.
  induction n as [|n IH]; intros reg d Hn Hr Hl Hd.
  - destruct d; [|cbn in Hn; lia]. destruct enc; (split; [reflexivity|constructor]).
  - rewrite cfb_x_S. destruct (Elen reg Hr Hl) as [L W].
    destruct (Nat.le_gt_cases (length d) bs) as [Hs|Hs].
    + rewrite (skipn_all2 d Hs), (firstn_all2 d Hs), cfb_x_nil, app_nil_r. split; [rewrite xor_len; lia|now apply xor_wf].
    + assert (Hw : wf (firstn bs d) /\ wf (skipn bs d)) by (rewrite <- (firstn_skipn bs d) in Hd; now apply wf_app in Hd).
      assert (Hf : length (firstn bs d) = bs) by (rewrite firstn_length; lia).
      assert (Hx : length (xor_bytes (firstn bs d) (E reg)) = bs) by (rewrite xor_len; lia).
      assert (Hxw : wf (xor_bytes (firstn bs d) (E reg))) by (apply xor_wf; tauto).
      destruct (IH (if enc then xor_bytes (firstn bs d) (E reg) else firstn bs d) (skipn bs d)) as [I1 I2];
        [rewrite skipn_length; lia|destruct enc; tauto|destruct enc; easy|tauto|].
      split; [rewrite app_length, I1, Hx, skipn_length; lia|apply wf_app; split; [|exact I2]; easy].
Qed.
Lemma cfb_x_enough enc n : forall m reg d, (length d <= n)%nat -> (length d <= m)%nat -> cfb_x enc n reg d = cfb_x enc m reg d.
Proof.
  induction n as [|n IH]; intros m reg d Hn Hm.
  - destruct d; [|cbn in Hn; lia]. now rewrite !cfb_x_nil.
  - destruct m as [|m]; [destruct d; [|cbn in Hm; lia]; now rewrite !cfb_x_nil|].
    rewrite !cfb_x_S. f_equal. destruct d as [|x d]; [now rewrite skipn_nil, !cfb_x_nil|].
    apply IH; rewrite skipn_length; cbn [length] in *; lia.
Qed.
(** decryption inverts encryption *)
Lemma cfb_dec_enc n : forall reg d, (length d <= n)%nat -> wf reg -> length reg = bs -> wf d -> cfb_dec E bs n reg (cfb_enc E bs n reg d) = d.
Proof.
  induction n as [|n IH]; intros reg d Hn Hr Hl Hd; cbn [cfb_enc cfb_dec].
  - destruct d; [reflexivity|cbn in Hn; lia].
  - destruct (Elen reg Hr Hl) as [L W].
    destruct (Nat.le_gt_cases (length d) bs) as [Hs|Hs].
    + rewrite (skipn_all2 d Hs), (firstn_all2 d Hs), cfb_enc_nil, app_nil_r.
      rewrite firstn_all2 by (rewrite xor_len; lia). rewrite skipn_all2 by (rewrite xor_len; lia).
      rewrite cfb_dec_nil, app_nil_r. apply xor_inv. lia.
    + assert (Hw : wf (firstn bs d) /\ wf (skipn bs d)) by (rewrite <- (firstn_skipn bs d) in Hd; now apply wf_app in Hd).
      assert (Hx : length (xor_bytes (firstn bs d) (E reg)) = bs) by (rewrite xor_len, firstn_length; lia).
      rewrite firstn_app, Hx, Nat.sub_diag. cbn [firstn]. rewrite app_nil_r, firstn_all2 by lia.
      rewrite skipn_app, Hx, Nat.sub_diag. cbn [skipn]. rewrite skipn_all2 by lia. cbn [app].
      rewrite IH; [|rewrite skipn_length; lia|apply xor_wf; tauto|easy|tauto].
      rewrite xor_inv by (rewrite firstn_length; lia). apply firstn_skipn.
Qed.

(** the block recurrences of Cipher/SpecCipher on whole blocks, cut back to the data *)
Lemma cfb_outs_x enc bl : blocks_of bs bl -> forall reg data z n, concat bl = data ++ z -> (length data <= n)%nat -> wf reg -> length reg = bs ->
  firstn (length data) (concat (cfb_outs E enc bs reg bl)) = cfb_x enc n reg data.
Proof.
  induction 1 as [|b bl [Hb Hw] Hbl IH]; intros reg data z n Hc Hn Hr Hl; cbn [concat cfb_outs] in *.
  - symmetry in Hc. apply app_eq_nil in Hc. destruct Hc as [-> _]. now rewrite cfb_x_nil.
  - cbv zeta. destruct (Elen reg Hr Hl) as [L W]. rewrite (firstn_all2 (n := bs) (E reg)) by lia.
    rewrite (skipn_all2 (n := bs) reg) by lia. cbn [app].
    assert (Hx : length (xor_bytes b (E reg)) = bs) by (rewrite xor_len; lia).
    destruct n as [|n]; [destruct data; [now rewrite cfb_x_nil|cbn in Hn; lia]|]. rewrite cfb_x_S.
    destruct (Nat.le_gt_cases (length data) bs) as [Hs|Hs].
    + rewrite (skipn_all2 data Hs), (firstn_all2 data Hs), cfb_x_nil, app_nil_r.
      assert (Hd : b = data ++ firstn (bs - length data) z).
      { pose proof (f_equal (firstn bs) Hc) as F. rewrite firstn_app in F. rewrite (firstn_all2 (n := bs) b) in F by lia.
        rewrite Hb, Nat.sub_diag in F. cbn [firstn] in F. rewrite app_nil_r in F. rewrite F, firstn_app, firstn_all2 by lia. reflexivity. }
      rewrite firstn_app, Hx. replace (length data - bs)%nat with 0%nat by lia. cbn [firstn]. rewrite app_nil_r.
      rewrite Hd. replace (E reg) with (firstn (length data) (E reg) ++ skipn (length data) (E reg)) by apply firstn_skipn.
      rewrite xor_app by (rewrite firstn_length; lia). rewrite firstn_app, xor_len, firstn_length.
      replace (length data - _)%nat with 0%nat by lia. cbn [firstn]. rewrite app_nil_r.
      rewrite firstn_all2 by (rewrite xor_len, firstn_length; lia).
      replace (firstn (length data) (firstn (length data) (E reg) ++ skipn (length data) (E reg))) with (firstn (length data) (E reg)) by now rewrite firstn_skipn.
      rewrite firstn_skipn. apply xor_firstn. lia.
    + assert (Hd : b = firstn bs data).
      { pose proof (f_equal (firstn bs) Hc) as F. rewrite !firstn_app in F. rewrite (firstn_all2 (n := bs) b) in F by lia.
        rewrite Hb, Nat.sub_diag in F. cbn [firstn] in F. rewrite app_nil_r in F. rewrite F.
        replace (bs - length data)%nat with 0%nat by lia. cbn [firstn]. now rewrite app_nil_r. }
      assert (Hc' : concat bl = skipn bs data ++ z).
      { pose proof (f_equal (skipn bs) Hc) as F. rewrite !skipn_app in F. rewrite (skipn_all2 (n := bs) b) in F by lia.
        rewrite Hb, Nat.sub_diag in F. cbn [skipn app] in F. rewrite F. replace (bs - length data)%nat with 0%nat by lia. reflexivity. }
      rewrite firstn_app, Hx, (firstn_all2 (n := length data) (xor_bytes b (E reg))) by lia. rewrite <- Hd. f_equal.
      replace (length data - bs)%nat with (length (skipn bs data)) by (rewrite skipn_length; lia).
      apply (IH _ _ z); [exact Hc'|rewrite skipn_length; lia|destruct enc; [now apply xor_wf|easy]|destruct enc; easy].
Qed.
End P.
From Verif Require Import Utils S2k SymCipher CipherProps.

(** the ciphers of the table, with a key of an accepted size *)
Definition good_block (E : bytes -> bytes) (bs : Z) : Prop := forall b, wf b -> zlen b = bs -> wf (E b) /\ zlen (E b) = bs.
Lemma get_cfb_inv alg key iv o : get_cfb_cipher alg key iv = Ok o -> exists k bs, key = Some k /\ symmetric_cipher_block_lengths alg = Some bs /\ alg <> 0 /\
  0 < bs /\ c_mode o = MODE_CFB /\ c_bs o = bs /\ c_seg o = 8 * bs /\ c_IV o = iv /\ zlen iv = bs /\ In (zlen k) (cipher_key_sizes alg).
Proof.
  unfold get_cfb_cipher. destruct (symmetric_cipher_block_lengths alg) as [bs|] eqn:Eb; [|discriminate].
  destruct (alg =? 0) eqn:E0; [discriminate|]. destruct key as [k|]; [|discriminate]. intros H.
  assert (Hb : 0 < bs).
  { unfold symmetric_cipher_block_lengths in Eb. rewrite E0 in Eb.
    destruct ((1 <=? alg) && (alg <=? 4)); [injection Eb as <-; lia|]. destruct ((7 <=? alg) && (alg <=? 13)); [injection Eb as <-; lia|discriminate]. }
  pose proof (cipher_new_inv _ _ _ _ _ _ _ _ H) as (_ & H1 & H2 & _ & _ & Hk & H3 & H4 & _).
  destruct (H3 ltac:(easy) ltac:(easy)) as (iv' & [= <-] & H5 & H6).
  exists k, bs. repeat split; try easy; try lia.
  unfold cipher_new in H. replace ((MODE_CFB =? MODE_CFB) && (bs * 8 =? 0)) with false in H by (symmetry; rewrite Z.eqb_refl; cbn [andb]; lia).
  repeat match type of H with (if ?c then _ else _) = _ => destruct c; [discriminate|] end. injection H as <-. cbn [c_seg]. lia.
Qed.
Lemma sym_new_ok alg k iv bs : symmetric_cipher_block_lengths alg = Some bs -> alg <> 0 -> In (zlen k) (cipher_key_sizes alg) -> zlen iv = bs ->
  exists o, get_cfb_cipher alg (Some k) iv = Ok o.
Proof.
  intros Hb H0 Hk Hiv. unfold get_cfb_cipher. rewrite Hb, (proj2 (Z.eqb_neq _ _) H0). unfold cipher_new.
  assert (Hbs : bs = 8 \/ bs = 16).
  { unfold symmetric_cipher_block_lengths in Hb. rewrite (proj2 (Z.eqb_neq _ _) H0) in Hb.
    destruct ((1 <=? alg) && (alg <=? 4)); [injection Hb as <-; lia|]. destruct ((7 <=? alg) && (alg <=? 13)); [injection Hb as <-; lia|discriminate]. }
  assert (He : existsb (Z.eqb (zlen k)) (cipher_key_sizes alg) = true) by (apply existsb_exists; exists (zlen k); split; [exact Hk|lia]).
  rewrite He, Hiv, Z.eqb_refl. cbn [MODE_CFB MODE_ECB MODE_CTR MODE_PGP Z.ltb Z.eqb Pos.eqb Z.compare Pos.compare Pos.compare_cont orb andb negb].
  destruct Hbs as [-> | ->]; cbn; eauto.
Qed.
Lemma cfb_calls_x (E : bytes -> bytes) D ctr o bs (enc : bool) chunks data z : 0 < bs -> good_block E bs -> wf (c_IV o) ->
  c_mode o = MODE_CFB -> c_bs o = bs -> c_seg o = 8 * bs -> zlen (c_IV o) = bs ->
  Forall (fun c => wf c /\ zlen c mod bs = 0) chunks -> concat chunks = data ++ z ->
  exists outs o', (if enc then encrypt_calls E ctr o chunks else decrypt_calls E D ctr o chunks) = Ok (outs, o') /\ map zlen outs = map zlen chunks /\
    firstn (length data) (concat outs) = cfb_x E (Z.to_nat bs) enc (length data) (c_IV o) data.
Proof.
  intros Hbs HE Hiv Hm Hb Hseg Hl Hch Hc.
  destruct (cfb_calls E D ctr bs bs ltac:(lia) HE enc chunks Hch o Hm Hb Hseg Hiv Hl) as (outs & o' & bl & H1 & H2 & H3 & H4 & H5).
  exists outs, o'. split; [exact H1|]. split; [exact H5|]. rewrite H4.
  apply (cfb_outs_x E (Z.to_nat bs) ltac:(lia)) with (z := z); [intros b; rewrite Z2Nat.id by lia; apply HE|easy|congruence|lia|easy|unfold zlen in Hl; lia].
Qed.
Lemma enc_one E ctr o c outs o' : encrypt_calls E ctr o [c] = Ok (outs, o') -> exists out, cipher_encrypt E ctr o c = Ok (out, o') /\ outs = [out].
Proof.
  cbn [encrypt_calls]. destruct (cipher_encrypt E ctr o c) as [[out o1]|]; cbn [bind]; [|discriminate]. intros [= <- <-]. eauto.
Qed.
Lemma dec_one E D ctr o c outs o' : decrypt_calls E D ctr o [c] = Ok (outs, o') -> exists out, cipher_decrypt E D ctr o c = Ok (out, o') /\ outs = [out].
Proof.
  cbn [decrypt_calls]. destruct (cipher_decrypt E D ctr o c) as [[out o1]|]; cbn [bind]; [|discriminate]. intros [= <- <-]. eauto.
Qed.
(** [l[:-n]] for 0 < n *)
Lemma slice_drop_last {A} (l : list A) n : 0 < n <= zlen l -> slice l 0 (- n) = firstn (Z.to_nat (zlen l - n)) l.
Proof.
  intros H. unfold slice, clip. replace (0 <? 0) with false by reflexivity. replace (- n <? 0) with true by lia.
  replace (Z.min 0 (zlen l)) with 0 by lia. cbn [Z.to_nat skipn]. f_equal. lia.
Qed.
(** encrypting the data padded with zeros and cutting the padding off the result *)
Lemma padded_encrypt E alg key o iv bs data pad : get_cfb_cipher alg (Some key) iv = Ok o -> symmetric_cipher_block_lengths alg = Some bs ->
  good_block (E alg key) bs -> wf iv -> wf data -> 0 < pad -> (zlen data + pad) mod bs = 0 ->
  exists r o', sym_encrypt E alg key o (data ++ repeat 0 (Z.to_nat pad)) = Ok (r, o') /\
    slice r 0 (- pad) = rfc_cfb_enc (E alg key) (Z.to_nat bs) iv data.
Proof.
  intros Hn Hb HE Hiv Hd Hp Hmod. destruct (get_cfb_inv _ _ _ _ Hn) as (k & bs' & [= <-] & Hb' & H0 & Hbs & Hm & Hcb & Hseg & HIV & Hl & _).
  rewrite Hb in Hb'. injection Hb' as <-.
  destruct (cfb_calls_x (E alg key) (fun b => b) no_ctr o bs true [data ++ repeat 0 (Z.to_nat pad)] data (repeat 0 (Z.to_nat pad))) as (outs & o' & H1 & H2 & H3);
    try easy; try congruence.
  - constructor; [|constructor]. split; [apply wf_app; split; [easy|apply wf_zeros]|]. rewrite zlen_app, zlen_repeat. now rewrite Z2Nat.id by lia.
  - cbn. now rewrite app_nil_r.
  - destruct (enc_one _ _ _ _ _ _ H1) as (out & Ho & ->). exists out, o'. split; [exact Ho|].
    cbn [map] in H2. injection H2 as H2. rewrite zlen_app, zlen_repeat in H2. pose proof (zlen_nonneg data).
    rewrite slice_drop_last by lia. cbn [concat] in H3. rewrite app_nil_r in H3. rewrite HIV in H3.
    replace (Z.to_nat (zlen out - pad)) with (length data) by (unfold zlen in *; lia). exact H3.
Qed.
Lemma padded_decrypt E alg key o iv bs data pad : get_cfb_cipher alg (Some key) iv = Ok o -> symmetric_cipher_block_lengths alg = Some bs ->
  good_block (E alg key) bs -> wf iv -> wf data -> 0 < pad -> (zlen data + pad) mod bs = 0 ->
  exists r o', sym_decrypt E alg key o (data ++ repeat 0 (Z.to_nat pad)) = Ok (r, o') /\
    slice r 0 (- pad) = rfc_cfb_dec (E alg key) (Z.to_nat bs) iv data.
Proof.
  intros Hn Hb HE Hiv Hd Hp Hmod. destruct (get_cfb_inv _ _ _ _ Hn) as (k & bs' & [= <-] & Hb' & H0 & Hbs & Hm & Hcb & Hseg & HIV & Hl & _).
  rewrite Hb in Hb'. injection Hb' as <-.
  destruct (cfb_calls_x (E alg key) (fun b => b) no_ctr o bs false [data ++ repeat 0 (Z.to_nat pad)] data (repeat 0 (Z.to_nat pad))) as (outs & o' & H1 & H2 & H3);
    try easy; try congruence.
  - constructor; [|constructor]. split; [apply wf_app; split; [easy|apply wf_zeros]|]. rewrite zlen_app, zlen_repeat. now rewrite Z2Nat.id by lia.
  - cbn. now rewrite app_nil_r.
  - destruct (dec_one _ _ _ _ _ _ _ H1) as (out & Ho & ->). exists out, o'. split; [exact Ho|].
    cbn [map] in H2. injection H2 as H2. rewrite zlen_app, zlen_repeat in H2. pose proof (zlen_nonneg data).
    rewrite slice_drop_last by lia. cbn [concat] in H3. rewrite app_nil_r in H3. rewrite HIV in H3.
    replace (Z.to_nat (zlen out - pad)) with (length data) by (unfold zlen in *; lia). exact H3.
Qed.
Lemma rfc_cfb_inv E bs iv data : 0 < bs -> good_block E bs -> wf iv -> zlen iv = bs -> wf data ->
  rfc_cfb_dec E (Z.to_nat bs) iv (rfc_cfb_enc E (Z.to_nat bs) iv data) = data.
Proof.
  intros Hbs HE Hiv Hl Hd. unfold rfc_cfb_dec, rfc_cfb_enc.
  assert (HE' : forall b, wf b -> zlen b = Z.of_nat (Z.to_nat bs) -> wf (E b) /\ zlen (E b) = Z.of_nat (Z.to_nat bs)) by (intros b; rewrite Z2Nat.id by lia; apply HE).
  assert (Hl' : length iv = Z.to_nat bs) by (unfold zlen in Hl; lia).
  destruct (cfb_x_len E (Z.to_nat bs) ltac:(lia) HE' true (length data) iv data ltac:(lia) Hiv Hl' Hd) as [L _]. cbn [cfb_x] in L. rewrite L.
  apply (cfb_dec_enc E (Z.to_nat bs) ltac:(lia) HE'); [lia|easy..].
Qed.
Lemma rfc_cfb_len E bs iv data : 0 < bs -> good_block E bs -> wf iv -> zlen iv = bs -> wf data ->
  zlen (rfc_cfb_enc E (Z.to_nat bs) iv data) = zlen data /\ wf (rfc_cfb_enc E (Z.to_nat bs) iv data).
Proof.
  intros Hbs HE Hiv Hl Hd.
  assert (HE' : forall b, wf b -> zlen b = Z.of_nat (Z.to_nat bs) -> wf (E b) /\ zlen (E b) = Z.of_nat (Z.to_nat bs)) by (intros b; rewrite Z2Nat.id by lia; apply HE).
  assert (Hl' : length iv = Z.to_nat bs) by (unfold zlen in Hl; lia).
  destruct (cfb_x_len E (Z.to_nat bs) ltac:(lia) HE' true (length data) iv data ltac:(lia) Hiv Hl' Hd) as [L W]. split; [unfold zlen, rfc_cfb_enc; cbn [cfb_x] in L; lia|exact W].
Qed.
