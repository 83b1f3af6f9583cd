From Verif Require Import Base BaseProofs Cipher SpecCipher CipherProofs.

Definition oks (s : Z) (cs : list bytes) : Prop := Forall (fun c => wf c /\ zlen c mod s = 0) cs.
Lemma loop_fuel_blocks s bl : (0 < s)%nat -> blocks_of s bl -> (length bl <= loop_fuel (concat bl))%nat.
Proof. intros Hs H. unfold loop_fuel. rewrite (blocks_len s) by easy. nia. Qed.
Lemma blocks_app s a b : blocks_of s a -> blocks_of s b -> blocks_of s (a ++ b).
Proof. unfold blocks_of. intros. now apply Forall_app. Qed.
Lemma concat_len_eq s (a b : list bytes) : Forall (fun x => length x = s) a -> Forall (fun x => length x = s) b -> length a = length b ->
  zlen (concat a) = zlen (concat b).
Proof.
  intros Ha. revert b. induction Ha as [|x a Hx Ha IH]; intros [|y b] Hb Hl; cbn in *; [reflexivity|lia|lia|].
  inversion Hb; subst. rewrite !zlen_app. rewrite (IH b) by (assumption || lia). unfold zlen; lia.
Qed.
Lemma blocks_zlen s (a b : list bytes) : blocks_of s a -> blocks_of s b -> length a = length b -> zlen (concat a) = zlen (concat b).
Proof.
  intros Ha Hb. apply (concat_len_eq s); [eapply Forall_impl; [|exact Ha]|eapply Forall_impl; [|exact Hb]]; cbn; tauto.
Qed.

(** ** one call *)
Section Call.
Variables (E D : bytes -> bytes) (ctr : nat -> bytes).
Lemma ecb_call o bl : c_mode o = MODE_ECB -> 0 < c_bs o -> blocks_of (Z.to_nat (c_bs o)) bl ->
  cipher_encrypt E ctr o (concat bl) = Ok (concat (map E bl), o) /\
  cipher_decrypt E D ctr o (concat bl) = Ok (concat (map D bl), o).
Proof.
  intros Hm Hb Hbl.
  assert (Hmod : zlen (concat bl) mod c_bs o = 0).
  { unfold zlen. rewrite (blocks_len _ _ Hbl). rewrite Nat2Z.inj_mul, Z2Nat.id, Z.mul_comm by lia. apply Z.mod_mul. lia. }
  assert (Hl : forall f, ecb_loop (loop_fuel (concat bl)) f (c_bs o) (concat bl) 0 [] = Ok (concat (map f bl))).
  { intros f. pose proof (ecb_loop_blocks f (Z.to_nat (c_bs o)) bl ltac:(lia) Hbl (loop_fuel (concat bl)) [] []
      ltac:(apply (loop_fuel_blocks (Z.to_nat (c_bs o))); [lia|easy])) as H.
    rewrite Z2Nat.id in H by lia. exact H. }
  unfold cipher_encrypt, cipher_decrypt. rewrite Hm, Hmod, !Hl. split; reflexivity.
Qed.
Lemma cbc_call o bl : c_mode o = MODE_CBC -> 0 < c_bs o -> blocks_of (Z.to_nat (c_bs o)) bl ->
  cipher_encrypt E ctr o (concat bl) = Ok (concat (cbc_spec E (c_IV o) bl), set_IV o (cbc_reg E (c_IV o) bl)) /\
  cipher_decrypt E D ctr o (concat bl) = Ok (concat (cbc_dec D (c_IV o) bl),
    set_old (set_IV o (fst (cbc_dreg (c_IV o) (c_old o) bl))) (snd (cbc_dreg (c_IV o) (c_old o) bl))).
Proof.
  intros Hm Hb Hbl.
  assert (Hmod : zlen (concat bl) mod c_bs o = 0).
  { unfold zlen. rewrite (blocks_len _ _ Hbl). rewrite Nat2Z.inj_mul, Z2Nat.id, Z.mul_comm by lia. apply Z.mod_mul. lia. }
  pose proof (loop_fuel_blocks (Z.to_nat (c_bs o)) bl ltac:(lia) Hbl) as Hf.
  pose proof (cbc_enc_loop_blocks E (Z.to_nat (c_bs o)) bl ltac:(lia) Hbl _ [] (c_IV o) [] Hf) as H1.
  pose proof (cbc_dec_loop_blocks D (Z.to_nat (c_bs o)) bl ltac:(lia) Hbl _ [] (c_IV o) (c_old o) [] Hf) as H2.
  rewrite Z2Nat.id in H1, H2 by lia. cbn [app] in H1, H2. change (zlen (@nil Z)) with 0 in H1, H2.
  unfold cipher_encrypt, cipher_decrypt. rewrite Hm, Hmod, H1, H2. split; reflexivity.
Qed.
Lemma cfb_call o s bl : c_mode o = MODE_CFB -> 0 < s <= c_bs o -> c_seg o = 8 * s ->
  (forall b, wf b -> zlen b = c_bs o -> wf (E b) /\ zlen (E b) = c_bs o) -> wf (c_IV o) -> zlen (c_IV o) = c_bs o ->
  blocks_of (Z.to_nat s) bl -> exists n m,
  cipher_encrypt E ctr o (concat bl) = Ok (concat (cfb_outs E true (Z.to_nat s) (c_IV o) bl), set_count (set_IV o (cfb_reg E true (Z.to_nat s) (c_IV o) bl)) n) /\
  cipher_decrypt E D ctr o (concat bl) = Ok (concat (cfb_outs E false (Z.to_nat s) (c_IV o) bl), set_count (set_IV o (cfb_reg E false (Z.to_nat s) (c_IV o) bl)) m).
Proof.
  intros Hm Hs Hseg HE Hiv1 Hiv2 Hbl.
  assert (Hmod : zlen (concat bl) mod (c_seg o / 8) = 0).
  { replace (c_seg o / 8) with s by lia. unfold zlen. rewrite (blocks_len _ _ Hbl). rewrite Nat2Z.inj_mul, Z2Nat.id, Z.mul_comm by lia. apply Z.mod_mul. lia. }
  pose proof (loop_fuel_blocks (Z.to_nat s) bl ltac:(lia) Hbl) as Hf.
  assert (HE' : forall b, wf b -> zlen b = Z.of_nat (Z.to_nat (c_bs o)) -> wf (E b) /\ zlen (E b) = Z.of_nat (Z.to_nat (c_bs o))).
  { intros b. rewrite Z2Nat.id by lia. apply HE. }
  assert (Hreg : regok (Z.to_nat (c_bs o)) (c_IV o)) by (split; [easy|unfold zlen in *; lia]).
  assert (Hsb : (0 < Z.to_nat s <= Z.to_nat (c_bs o))%nat) by lia.
  pose proof (fun enc => cfb_loop_blocks E (Z.to_nat (c_bs o)) (Z.to_nat s) Hsb HE' enc (c_seg o) bl ltac:(lia) Hbl _ [] (c_IV o) [] Hf Hreg) as H1.
  rewrite Z2Nat.id in H1 by lia. cbn [app] in H1. change (zlen (@nil Z)) with 0 in H1.
  unfold cipher_encrypt, cipher_decrypt. rewrite Hm, Hmod, !H1. do 2 eexists.
  split; (destruct (zlen (concat bl) mod c_bs o =? 0); reflexivity).
Qed.

(** ** any number of calls *)
Lemma ecb_calls_enc o : c_mode o = MODE_ECB -> 0 < c_bs o ->
  (forall b, wf b -> zlen b = c_bs o -> wf (E b) /\ zlen (E b) = c_bs o) ->
  forall chunks, oks (c_bs o) chunks -> exists outs bl, encrypt_calls E ctr o chunks = Ok (outs, o) /\
    blocks_of (Z.to_nat (c_bs o)) bl /\ concat bl = concat chunks /\ concat outs = concat (map E bl) /\ map zlen outs = map zlen chunks /\
    blocks_of (Z.to_nat (c_bs o)) (map E bl).
Proof.
  intros Hm Hb HE chunks Hc. induction Hc as [|c cs [Hw Hl] Hc IH]; cbn [encrypt_calls].
  - exists [], []. repeat split; constructor.
  - destruct (split_exists (c_bs o) c Hb Hw Hl) as (bl & Hbl & <-).
    destruct (ecb_call o bl Hm Hb Hbl) as [-> _]. cbn [bind].
    destruct IH as (outs & bl' & -> & H1 & H2 & H3 & H4 & H5). cbn [bind].
    assert (Hmb : blocks_of (Z.to_nat (c_bs o)) (map E bl)).
    { clear - Hbl HE Hb. induction Hbl as [|b bl [Hx Hy] Hbl IH]; cbn; constructor; [|easy].
      destruct (HE b Hy) as [H1 H2]; [unfold zlen; lia|]. split; [unfold zlen in H2; lia|easy]. }
    exists (concat (map E bl) :: outs), (bl ++ bl'). split; [reflexivity|]. split; [now apply blocks_app|].
    split; [now rewrite concat_app, H2|]. split; [cbn [concat]; now rewrite H3, map_app, concat_app|].
    split; [|rewrite map_app; now apply blocks_app].
    cbn [map]. rewrite H4. f_equal. apply (blocks_zlen (Z.to_nat (c_bs o))); [easy..|]. now rewrite map_length.
Qed.
Lemma ecb_calls_dec o : c_mode o = MODE_ECB -> 0 < c_bs o ->
  forall chunks, oks (c_bs o) chunks -> exists outs bl, decrypt_calls E D ctr o chunks = Ok (outs, o) /\
    blocks_of (Z.to_nat (c_bs o)) bl /\ concat bl = concat chunks /\ concat outs = concat (map D bl).
Proof.
  intros Hm Hb chunks Hc. induction Hc as [|c cs [Hw Hl] Hc IH]; cbn [decrypt_calls].
  - exists [], []. repeat split; constructor.
  - destruct (split_exists (c_bs o) c Hb Hw Hl) as (bl & Hbl & <-).
    destruct (ecb_call o bl Hm Hb Hbl) as [_ ->]. cbn [bind].
    destruct IH as (outs & bl' & -> & H1 & H2 & H3). cbn [bind].
    exists (concat (map D bl) :: outs), (bl ++ bl'). split; [reflexivity|]. split; [now apply blocks_app|].
    split; [now rewrite concat_app, H2|]. cbn [concat]; now rewrite H3, map_app, concat_app.
Qed.
Lemma cbc_calls_enc bs : 0 < bs -> block_cipher bs E D ->
  forall chunks, oks bs chunks -> forall o, c_mode o = MODE_CBC -> c_bs o = bs -> wf (c_IV o) -> zlen (c_IV o) = bs ->
  exists outs o' bl, encrypt_calls E ctr o chunks = Ok (outs, o') /\
    blocks_of (Z.to_nat bs) bl /\ concat bl = concat chunks /\ concat outs = concat (cbc_spec E (c_IV o) bl) /\ map zlen outs = map zlen chunks.
Proof.
  intros Hb HE chunks Hc. induction Hc as [|c cs [Hw Hl] Hc IH]; intros o Hm Ho Hi1 Hi2; cbn [encrypt_calls].
  - exists [], o, []. repeat split; constructor.
  - destruct (split_exists bs c Hb Hw Hl) as (bl & Hbl & <-). subst bs.
    destruct (cbc_call o bl Hm Hb Hbl) as [-> _]. cbn [bind].
    assert (HE' : block_cipher (Z.of_nat (Z.to_nat (c_bs o))) E D) by (rewrite Z2Nat.id by lia; exact HE).
    destruct (cbc_spec_blocks E D _ HE' bl Hbl (c_IV o) Hi1) as (B1 & B2 & B3); [unfold zlen in Hi2; lia|].
    destruct (IH (set_IV o (cbc_reg E (c_IV o) bl))) as (outs & o' & bl' & -> & H1 & H2 & H3 & H4);
      [exact Hm|reflexivity|exact B2|cbn; unfold zlen; lia|]. cbn [bind c_IV set_IV] in *.
    exists (concat (cbc_spec E (c_IV o) bl) :: outs), o', (bl ++ bl'). split; [reflexivity|]. split; [now apply blocks_app|].
    split; [now rewrite concat_app, H2|]. split; [cbn [concat]; now rewrite H3, cbc_spec_app, concat_app|].
    cbn [map]. rewrite H4. f_equal. apply (blocks_zlen (Z.to_nat (c_bs o))); [easy..|].
    clear. generalize (c_IV o). induction bl as [|b bl IH]; intros iv; cbn; [reflexivity|]. now rewrite IH.
Qed.
Lemma cbc_calls_dec bs : 0 < bs ->
  forall chunks, oks bs chunks -> forall o, c_mode o = MODE_CBC -> c_bs o = bs ->
  exists outs o' bl, decrypt_calls E D ctr o chunks = Ok (outs, o') /\
    blocks_of (Z.to_nat bs) bl /\ concat bl = concat chunks /\ concat outs = concat (cbc_dec D (c_IV o) bl).
Proof.
  intros Hb chunks Hc. induction Hc as [|c cs [Hw Hl] Hc IH]; intros o Hm Ho; cbn [decrypt_calls].
  - exists [], o, []. repeat split; constructor.
  - destruct (split_exists bs c Hb Hw Hl) as (bl & Hbl & <-). subst bs.
    destruct (cbc_call o bl Hm Hb Hbl) as [_ ->]. cbn [bind].
    destruct (IH (set_old (set_IV o (fst (cbc_dreg (c_IV o) (c_old o) bl))) (snd (cbc_dreg (c_IV o) (c_old o) bl)))) as (outs & o' & bl' & -> & H1 & H2 & H3);
      [exact Hm|reflexivity|]. cbn [bind c_IV set_IV set_old] in *.
    eexists (_ :: outs), o', (bl ++ bl'). split; [reflexivity|]. split; [now apply blocks_app|].
    split; [now rewrite concat_app, H2|]. cbn [concat]. now rewrite H3, (cbc_dec_app D bl bl' (c_IV o) (c_old o)), concat_app.
Qed.
Lemma cfb_calls bs s : 0 < s <= bs -> (forall b, wf b -> zlen b = bs -> wf (E b) /\ zlen (E b) = bs) ->
  forall (enc : bool) chunks, oks s chunks -> forall o, c_mode o = MODE_CFB -> c_bs o = bs -> c_seg o = 8 * s -> wf (c_IV o) -> zlen (c_IV o) = bs ->
  exists outs o' bl, (if enc then encrypt_calls E ctr o chunks else decrypt_calls E D ctr o chunks) = Ok (outs, o') /\
    blocks_of (Z.to_nat s) bl /\ concat bl = concat chunks /\ concat outs = concat (cfb_outs E enc (Z.to_nat s) (c_IV o) bl) /\ map zlen outs = map zlen chunks.
Proof.
  intros Hs HE enc chunks Hc. induction Hc as [|c cs [Hw Hl] Hc IH]; intros o Hm Ho Hseg Hi1 Hi2; cbn [encrypt_calls decrypt_calls].
  - exists [], o, []. repeat split; try constructor. now destruct enc.
  - destruct (split_exists s c ltac:(lia) Hw Hl) as (bl & Hbl & <-). subst bs.
    destruct (cfb_call o s bl Hm Hs Hseg HE Hi1 Hi2 Hbl) as (n & m & C1 & C2). rewrite C1, C2. cbn [bind].
    assert (HE' : forall b, wf b -> zlen b = Z.of_nat (Z.to_nat (c_bs o)) -> wf (E b) /\ zlen (E b) = Z.of_nat (Z.to_nat (c_bs o))).
    { intros b. rewrite Z2Nat.id by lia. apply HE. }
    assert (Hreg : regok (Z.to_nat (c_bs o)) (c_IV o)) by (split; [easy|unfold zlen in *; lia]).
    assert (Hsb : (0 < Z.to_nat s <= Z.to_nat (c_bs o))%nat) by lia.
    destruct (cfb_outs_blocks E _ _ Hsb HE' enc bl Hbl (c_IV o) Hreg) as [B1 [B2 B3]].
    destruct (IH (set_count (set_IV o (cfb_reg E enc (Z.to_nat s) (c_IV o) bl)) (if enc then n else m))) as (outs & o' & bl' & H0 & H1 & H2 & H3 & H4);
      [exact Hm|reflexivity|exact Hseg|exact B2|cbn; unfold zlen; lia|].
    exists (concat (cfb_outs E enc (Z.to_nat s) (c_IV o) bl) :: outs), o', (bl ++ bl').
    split; [destruct enc; rewrite H0; reflexivity|]. split; [now apply blocks_app|].
    split; [now rewrite concat_app, H2|]. split; [cbn [concat]; now rewrite H3, cfb_outs_app, concat_app|].
    cbn [map]. rewrite H4. f_equal. apply (blocks_zlen (Z.to_nat s)); [easy..|].
    clear. generalize (c_IV o). induction bl as [|b bl IH]; intros iv; cbn; [reflexivity|]. now rewrite IH.
Qed.
End Call.
