From Verif Require Import Base BaseProofs Cipher SpecCipher.

(** ** xor *)
Lemma xor_len a b : length (xor_bytes a b) = Nat.min (length a) (length b).
Proof. revert b. induction a as [|x a IH]; intros [|y b]; cbn; auto. Qed.
Lemma xor_inv a b : (length a <= length b)%nat -> xor_bytes (xor_bytes a b) b = a.
Proof.
  revert b. induction a as [|x a IH]; intros [|y b] Hl; cbn in *; auto; try lia.
  rewrite Z.lxor_assoc, Z.lxor_nilpotent, Z.lxor_0_r, IH by lia. reflexivity.
Qed.
Lemma xor_comm a b : xor_bytes a b = xor_bytes b a.
Proof. revert b. induction a as [|x a IH]; intros [|y b]; cbn; auto. now rewrite IH, Z.lxor_comm. Qed.
Lemma xor_app a a' b b' : length a = length b -> xor_bytes (a ++ a') (b ++ b') = xor_bytes a b ++ xor_bytes a' b'.
Proof. revert b. induction a as [|x a IH]; intros [|y b] Hl; cbn in *; auto; try lia. now rewrite IH by lia. Qed.
Lemma xor_firstn a b n : (length a <= n)%nat -> xor_bytes a (firstn n b) = xor_bytes a b.
Proof. revert b n. induction a as [|x a IH]; intros [|y b] [|n] Hl; cbn in *; auto; try lia. now rewrite IH by lia. Qed.
Lemma lxor_byte x y : byte x -> byte y -> byte (Z.lxor x y).
Proof.
  unfold byte. intros Hx Hy.
  assert (0 <= Z.lxor x y) by (apply Z.lxor_nonneg; lia). split; [easy|].
  destruct (Z.eq_dec (Z.lxor x y) 0) as [->|Hn]; [lia|].
  change 256 with (2 ^ 8). apply Z.log2_lt_pow2; [lia|].
  pose proof (Z.log2_lxor x y ltac:(lia) ltac:(lia)).
  assert (Hlog : forall z, 0 <= z < 256 -> Z.log2 z < 8).
  { intros z Hz. destruct (Z.eq_dec z 0) as [->|]; [cbn; lia|]. apply Z.log2_lt_pow2; [lia|]. change (2 ^ 8) with 256. lia. }
  pose proof (Hlog x Hx); pose proof (Hlog y Hy). lia.
Qed.
Lemma xor_wf a b : wf a -> wf b -> wf (xor_bytes a b).
Proof.
  revert b. induction a as [|x a IH]; intros [|y b] Ha Hb; cbn; try apply wf_nil.
  rewrite !wf_cons in *. destruct Ha, Hb. split; [now apply lxor_byte|auto].
Qed.

(** ** blocks *)
Definition blocks_of (s : nat) (bl : list bytes) : Prop := Forall (fun b => length b = s /\ wf b) bl.
Lemma blocks_len s bl : blocks_of s bl -> length (concat bl) = (s * length bl)%nat.
Proof. induction 1 as [|b bl [Hb _] _ IH]; cbn [concat length]; [lia|]. rewrite app_length, Hb, IH. lia. Qed.
Lemma blocks_wf s bl : blocks_of s bl -> wf (concat bl).
Proof. induction 1 as [|b bl [_ Hb] _ IH]; cbn [concat]; [apply wf_nil|]. now apply wf_app. Qed.
Lemma blocks_unique s a b : (0 < s)%nat -> blocks_of s a -> blocks_of s b -> concat a = concat b -> a = b.
Proof.
  intros Hs Ha. revert b. induction Ha as [|x a [Hx Hwx] Ha IH]; intros b Hb He.
  - destruct Hb as [|y b [Hy _] _]; [reflexivity|]. cbn in He. destruct y; cbn in *; [lia|discriminate].
  - destruct Hb as [|y b [Hy Hwy] Hb]; [cbn in He; destruct x; cbn in *; [lia|discriminate]|].
    cbn in He. assert (x = y).
    { rewrite <- (firstn_all2 (n := s) x), <- (firstn_all2 (n := s) y) by lia.
      transitivity (firstn s (x ++ concat a)); [rewrite firstn_app|rewrite He, firstn_app];
        replace (s - _)%nat with 0%nat by lia; cbn [firstn]; now rewrite app_nil_r. }
    subst y. apply app_inv_head in He. f_equal. now apply IH.
Qed.
Fixpoint split_blocks (n s : nat) (l : bytes) : list bytes :=
  match n with O => [] | S n' => firstn s l :: split_blocks n' s (skipn s l) end.
Lemma split_blocks_ok n s l : wf l -> length l = (s * n)%nat -> blocks_of s (split_blocks n s l) /\ concat (split_blocks n s l) = l.
Proof.
  revert l. induction n as [|n IH]; intros l Hw Hl; cbn [split_blocks].
  - split; [constructor|]. cbn. destruct l; [easy|cbn in Hl; lia].
  - assert (Hw2 : wf (firstn s l ++ skipn s l)) by now rewrite firstn_skipn.
    apply wf_app in Hw2. destruct Hw2 as [Hw1 Hw2].
    destruct (IH (skipn s l)) as [H1 H2]; [easy|rewrite skipn_length; lia|].
    split; [constructor; [split; [rewrite firstn_length; lia|easy]|easy]|].
    cbn [concat]. now rewrite H2, firstn_skipn.
Qed.
Lemma split_exists s l : 0 < s -> wf l -> zlen l mod s = 0 -> exists bl, blocks_of (Z.to_nat s) bl /\ concat bl = l.
Proof.
  intros Hs Hw Hm. exists (split_blocks (Z.to_nat (zlen l / s)) (Z.to_nat s) l).
  apply split_blocks_ok; [easy|]. pose proof (zlen_nonneg l).
  assert (0 <= zlen l / s) by (apply Z.div_pos; lia).
  assert (zlen l = s * (zlen l / s)) by (rewrite (Z.div_mod (zlen l) s) at 1; lia). unfold zlen in *. nia.
Qed.
Lemma slice_block (pre b rest : bytes) i s : i = zlen pre -> zlen b = s -> slice (pre ++ b ++ rest) i (i + s) = b.
Proof. intros -> <-. apply slice_app. Qed.

(** ** the block-mode loops as folds over blocks *)
Lemma ecb_loop_blocks f bs bl : (0 < bs)%nat -> blocks_of bs bl -> forall fuel pre acc, (length bl <= fuel)%nat ->
  ecb_loop fuel f (Z.of_nat bs) (pre ++ concat bl) (zlen pre) acc = Ok (acc ++ concat (map f bl)).
Proof.
  intros Hs. induction 1 as [|b bl [Hb Hw] Hbl IH]; intros fuel pre acc Hf; cbn [concat map].
  - rewrite !app_nil_r. destruct fuel; cbn [ecb_loop]; rewrite (proj2 (Z.ltb_ge _ _)) by lia; reflexivity.
  - destruct fuel as [|fuel]; cbn [length] in Hf; [lia|]. cbn [ecb_loop].
    assert (Hz : zlen b = Z.of_nat bs) by (unfold zlen; lia).
    rewrite (proj2 (Z.ltb_lt _ _)) by (rewrite !zlen_app; pose proof (zlen_nonneg (concat bl)); lia).
    rewrite slice_block by easy. rewrite app_assoc.
    replace (zlen pre + Z.of_nat bs) with (zlen (pre ++ b)) by (rewrite zlen_app; lia).
    rewrite IH by lia. f_equal. now rewrite <- app_assoc.
Qed.

Fixpoint cbc_reg (E : bytes -> bytes) (iv : bytes) (ps : list bytes) : bytes :=
  match ps with [] => iv | p :: t => cbc_reg E (E (xor_bytes p iv)) t end.
Lemma cbc_enc_loop_blocks E bs bl : (0 < bs)%nat -> blocks_of bs bl -> forall fuel pre iv acc, (length bl <= fuel)%nat ->
  cbc_enc_loop E fuel (Z.of_nat bs) (pre ++ concat bl) (zlen pre) iv acc =
  Ok (acc ++ concat (cbc_spec E iv bl), cbc_reg E iv bl).
Proof.
  intros Hs. induction 1 as [|b bl [Hb Hw] Hbl IH]; intros fuel pre iv acc Hf; cbn [concat cbc_spec cbc_reg].
  - rewrite !app_nil_r. destruct fuel; cbn [cbc_enc_loop]; rewrite (proj2 (Z.ltb_ge _ _)) by lia; reflexivity.
  - destruct fuel as [|fuel]; cbn [length] in Hf; [lia|]. cbn [cbc_enc_loop].
    assert (Hz : zlen b = Z.of_nat bs) by (unfold zlen; lia).
    rewrite (proj2 (Z.ltb_lt _ _)) by (rewrite !zlen_app; pose proof (zlen_nonneg (concat bl)); lia).
    rewrite slice_block by easy. rewrite app_assoc.
    replace (zlen pre + Z.of_nat bs) with (zlen (pre ++ b)) by (rewrite zlen_app; lia).
    cbv zeta. rewrite IH by lia. f_equal. f_equal. cbn [concat]; now rewrite <- app_assoc.
Qed.
(** what CBC decryption computes from ciphertext blocks *)
Fixpoint cbc_dec (D : bytes -> bytes) (iv : bytes) (cs : list bytes) : list bytes :=
  match cs with [] => [] | c :: t => xor_bytes (D c) iv :: cbc_dec D c t end.
Fixpoint cbc_dreg (iv old : bytes) (cs : list bytes) : bytes * bytes :=
  match cs with [] => (iv, old) | c :: t => cbc_dreg c iv t end.
Lemma cbc_dec_loop_blocks D bs bl : (0 < bs)%nat -> blocks_of bs bl -> forall fuel pre iv old acc, (length bl <= fuel)%nat ->
  cbc_dec_loop D fuel (Z.of_nat bs) (pre ++ concat bl) (zlen pre) iv old acc =
  Ok (acc ++ concat (cbc_dec D iv bl), fst (cbc_dreg iv old bl), snd (cbc_dreg iv old bl)).
Proof.
  intros Hs. induction 1 as [|b bl [Hb Hw] Hbl IH]; intros fuel pre iv old acc Hf; cbn [concat cbc_dec cbc_dreg].
  - rewrite !app_nil_r. destruct fuel; cbn [cbc_dec_loop]; rewrite (proj2 (Z.ltb_ge _ _)) by lia; reflexivity.
  - destruct fuel as [|fuel]; cbn [length] in Hf; [lia|]. cbn [cbc_dec_loop].
    assert (Hz : zlen b = Z.of_nat bs) by (unfold zlen; lia).
    rewrite (proj2 (Z.ltb_lt _ _)) by (rewrite !zlen_app; pose proof (zlen_nonneg (concat bl)); lia).
    rewrite slice_block by easy. rewrite app_assoc.
    replace (zlen pre + Z.of_nat bs) with (zlen (pre ++ b)) by (rewrite zlen_app; lia).
    cbv zeta. rewrite IH by lia. f_equal. f_equal. f_equal. cbn [concat]; now rewrite <- app_assoc.
Qed.

(** CFB, in either direction *)
Fixpoint cfb_outs (E : bytes -> bytes) (enc : bool) (s : nat) (reg : bytes) (ps : list bytes) : list bytes :=
  match ps with
  | [] => []
  | p :: t => let out := xor_bytes p (firstn s (E reg)) in
              out :: cfb_outs E enc s (skipn s reg ++ (if enc then out else p)) t
  end.
Fixpoint cfb_reg (E : bytes -> bytes) (enc : bool) (s : nat) (reg : bytes) (ps : list bytes) : bytes :=
  match ps with
  | [] => reg
  | p :: t => cfb_reg E enc s (skipn s reg ++ (if enc then xor_bytes p (firstn s (E reg)) else p)) t
  end.
Lemma cfb_outs_enc E s reg ps : cfb_outs E true s reg ps = cfb_spec E s reg ps.
Proof. revert reg. induction ps as [|p t IH]; intros reg; cbn [cfb_outs cfb_spec]; [reflexivity|]. cbv zeta. now rewrite IH. Qed.

Section Cfb.
Variables (E : bytes -> bytes) (bs s : nat).
Hypothesis Hs : (0 < s <= bs)%nat.
Hypothesis HE : forall b, wf b -> zlen b = Z.of_nat bs -> wf (E b) /\ zlen (E b) = Z.of_nat bs.
Definition regok (reg : bytes) : Prop := wf reg /\ length reg = bs.
Lemma cfb_out_ok reg p : regok reg -> length p = s -> wf p ->
  length (xor_bytes p (firstn s (E reg))) = s /\ wf (xor_bytes p (firstn s (E reg))).
Proof.
  intros [Hw Hl] Hp Hwp. destruct (HE reg Hw) as [H1 H2]; [unfold zlen; lia|]. unfold zlen in H2.
  split; [rewrite xor_len, firstn_length; lia|]. apply xor_wf; [easy|].
  rewrite <- (firstn_skipn s) in H1. now apply wf_app in H1.
Qed.
Lemma cfb_next_ok reg c : regok reg -> length c = s -> wf c -> regok (skipn s reg ++ c).
Proof.
  intros [Hw Hl] Hc Hwc. split; [apply wf_app; split; [|easy]; rewrite <- (firstn_skipn s) in Hw; now apply wf_app in Hw|].
  rewrite app_length, skipn_length. lia.
Qed.
Lemma cfb_loop_blocks enc seg bl : seg = 8 * Z.of_nat s -> blocks_of s bl -> forall fuel pre reg acc, (length bl <= fuel)%nat -> regok reg ->
  cfb_loop E fuel enc (Z.of_nat bs) seg (pre ++ concat bl) (zlen pre) reg acc =
  Ok (acc ++ concat (cfb_outs E enc s reg bl), cfb_reg E enc s reg bl).
Proof.
  intros Hseg. induction 1 as [|b bl [Hb Hw] Hbl IH]; intros fuel pre reg acc Hf Hreg; cbn [concat cfb_outs cfb_reg].
  - rewrite !app_nil_r. destruct fuel; cbn [cfb_loop]; rewrite (proj2 (Z.ltb_ge _ _)) by lia; reflexivity.
  - destruct fuel as [|fuel]; cbn [length] in Hf; [lia|]. cbn [cfb_loop].
    assert (Hz : zlen b = Z.of_nat s) by (unfold zlen; lia).
    assert (Hsz : seg / 8 = Z.of_nat s) by lia. rewrite Hsz.
    rewrite (proj2 (Z.ltb_lt _ _)) by (rewrite !zlen_app; pose proof (zlen_nonneg (concat bl)); lia).
    rewrite slice_block by easy.
    assert (Hsl : slice (E reg) 0 (Z.of_nat s) = firstn s (E reg)).
    { destruct Hreg as [Hr1 Hr2]. destruct (HE reg Hr1) as [_ H2]; [unfold zlen; lia|].
      unfold slice. rewrite !clip_in by lia. rewrite Z.sub_0_r, Nat2Z.id. reflexivity. }
    rewrite Hsl. cbv zeta. rewrite (xor_comm (firstn s (E reg))).
    set (c := if enc then xor_bytes b (firstn s (E reg)) else b).
    assert (Hc : length c = s /\ wf c) by (unfold c; destruct enc; [apply cfb_out_ok|]; auto).
    pose proof (cfb_next_ok reg c Hreg (proj1 Hc) (proj2 Hc)) as Hn.
    rewrite app_assoc. replace (zlen pre + Z.of_nat s) with (zlen (pre ++ b)) by (rewrite zlen_app; lia).
    assert (Hres : forall X, X = skipn s reg ++ c ->
      cfb_loop E fuel enc (Z.of_nat bs) seg ((pre ++ b) ++ concat bl) (zlen (pre ++ b)) X (acc ++ xor_bytes b (firstn s (E reg))) =
      Ok (acc ++ concat (xor_bytes b (firstn s (E reg)) :: cfb_outs E enc s (skipn s reg ++ c) bl), cfb_reg E enc s (skipn s reg ++ c) bl)).
    { intros X ->. rewrite IH by (easy || lia). f_equal. f_equal. cbn [concat]. now rewrite <- app_assoc. }
    destruct (seg =? Z.of_nat bs * 8) eqn:Eq.
    + apply Hres. destruct Hreg as [_ Hr]. rewrite skipn_all2 by lia. reflexivity.
    + rewrite (proj2 (Z.eqb_eq (seg mod 8) 0)) by lia.
      assert (Hsf : slice_from reg (Z.of_nat s) = skipn s reg).
      { unfold slice_from. destruct Hreg as [_ Hr]. rewrite clip_in by (unfold zlen; lia). now rewrite Nat2Z.id. }
      rewrite Hsf. destruct Hn as [_ Hn]. rewrite (proj2 (Z.eqb_eq (zlen _) _)) by (unfold zlen; lia).
      now apply Hres.
Qed.
Lemma cfb_outs_blocks enc bl : blocks_of s bl -> forall reg, regok reg ->
  blocks_of s (cfb_outs E enc s reg bl) /\ regok (cfb_reg E enc s reg bl).
Proof.
  induction 1 as [|b bl [Hb Hw] Hbl IH]; intros reg Hreg; cbn [cfb_outs cfb_reg]; [split; [constructor|easy]|].
  set (c := if enc then xor_bytes b (firstn s (E reg)) else b).
  pose proof (cfb_out_ok reg b Hreg Hb Hw) as Ho.
  assert (Hc : length c = s /\ wf c) by (unfold c; destruct enc; auto).
  pose proof (cfb_next_ok reg c Hreg (proj1 Hc) (proj2 Hc)) as Hn.
  destruct (IH _ Hn) as [H1 H2]. split; [|easy]. constructor; easy.
Qed.
Lemma cfb_inv bl : blocks_of s bl -> forall reg, regok reg -> cfb_outs E false s reg (cfb_outs E true s reg bl) = bl.
Proof.
  induction 1 as [|b bl [Hb Hw] Hbl IH]; intros reg Hreg; cbn [cfb_outs]; [reflexivity|]. cbv zeta.
  pose proof (cfb_out_ok reg b Hreg Hb Hw) as [Ho1 Ho2].
  rewrite IH by (now apply cfb_next_ok). f_equal. apply xor_inv.
  destruct Hreg as [Hr1 Hr2]. destruct (HE reg Hr1) as [_ H2]; [unfold zlen; lia|]. unfold zlen in H2.
  rewrite firstn_length. lia.
Qed.
Lemma cfb_outs_app enc a b reg : cfb_outs E enc s reg (a ++ b) = cfb_outs E enc s reg a ++ cfb_outs E enc s (cfb_reg E enc s reg a) b.
Proof. revert reg. induction a as [|x a IH]; intros reg; cbn [cfb_outs cfb_reg app]; [reflexivity|]. cbv zeta. now rewrite IH. Qed.
Lemma cfb_reg_app enc a b reg : cfb_reg E enc s reg (a ++ b) = cfb_reg E enc s (cfb_reg E enc s reg a) b.
Proof. revert reg. induction a as [|x a IH]; intros reg; cbn [cfb_reg app]; [reflexivity|]. now rewrite IH. Qed.
End Cfb.

Section Cbc.
Variables (E D : bytes -> bytes) (bs : nat).
Hypothesis HED : block_cipher (Z.of_nat bs) E D.
Lemma cbc_spec_blocks bl : blocks_of bs bl -> forall iv, wf iv -> length iv = bs ->
  blocks_of bs (cbc_spec E iv bl) /\ wf (cbc_reg E iv bl) /\ length (cbc_reg E iv bl) = bs.
Proof.
  induction 1 as [|b bl [Hb Hw] Hbl IH]; intros iv Hi Hl; cbn [cbc_spec cbc_reg]; [split; [constructor|easy]|].
  destruct (HED (xor_bytes b iv)) as [[H1 H2] _]; [now apply xor_wf|unfold zlen; rewrite xor_len; lia|].
  unfold zlen in H2. destruct (IH (E (xor_bytes b iv)) H1 ltac:(lia)) as [H3 H4]. split; [|easy].
  constructor; [split; [lia|easy]|easy].
Qed.
Lemma cbc_inv bl : blocks_of bs bl -> forall iv, wf iv -> length iv = bs -> cbc_dec D iv (cbc_spec E iv bl) = bl.
Proof.
  induction 1 as [|b bl [Hb Hw] Hbl IH]; intros iv Hi Hl; cbn [cbc_spec cbc_dec]; [reflexivity|]. cbv zeta. cbn [cbc_dec].
  destruct (HED (xor_bytes b iv)) as [[H1 H2] H3]; [now apply xor_wf|unfold zlen; rewrite xor_len; lia|].
  unfold zlen in H2. rewrite H3, xor_inv by lia. f_equal. apply IH; [easy|lia].
Qed.
Lemma cbc_spec_app a b iv : cbc_spec E iv (a ++ b) = cbc_spec E iv a ++ cbc_spec E (cbc_reg E iv a) b.
Proof. revert iv. induction a as [|x a IH]; intros iv; cbn [cbc_spec cbc_reg app]; [reflexivity|]. cbv zeta. cbn [app]. now rewrite IH. Qed.
Lemma cbc_dec_app a b iv old : cbc_dec D iv (a ++ b) = cbc_dec D iv a ++ cbc_dec D (fst (cbc_dreg iv old a)) b.
Proof. revert iv old. induction a as [|x a IH]; intros iv old; cbn [cbc_dec cbc_dreg app]; [reflexivity|]. now rewrite (IH x iv). Qed.
Lemma cbc_dec_blocks bl : blocks_of bs bl -> forall iv, length iv = bs -> (forall b, length b = bs -> wf b -> length (D b) = bs) ->
  Forall (fun b => length b = bs) (cbc_dec D iv bl).
Proof.
  induction 1 as [|b bl [Hb Hw] Hbl IH]; intros iv Hi HD; cbn [cbc_dec]; constructor.
  - rewrite xor_len, HD by easy. lia.
  - now apply IH.
Qed.
End Cbc.
