(** C116: resynchronising a cipher object (pgp/cipher/base.py:325-336). *)
From Verif Require Import Base BaseProofs Spec Cipher SpecCipher CipherProofs CipherCalls CipherStream CipherProps P_Cipher KeyProofs SpecSync.

Section Sync.
Variables (E D : bytes -> bytes) (ctr : nat -> bytes).
Notation enc := (cipher_encrypt E ctr).
Notation dec := (cipher_decrypt E D ctr).

Theorem c116_other_modes o : c_mode o <> MODE_CFB -> cipher_sync o = Ok o.
Proof. intros M. unfold cipher_sync. destruct (c_mode o =? MODE_CFB) eqn:Q; [lia|reflexivity]. Qed.

(** ** what a call keeps *)
Definition frame (o o' : cobj) : Prop := c_mode o' = c_mode o /\ c_bs o' = c_bs o /\ c_seg o' = c_seg o.
Lemma enc_frame o b r o' : enc o b = Ok (r, o') -> frame o o' /\ (c_mode o = MODE_CFB -> c_old o' = c_old o /\ c_count o' = Z.abs (c_count o - zlen b mod c_bs o)).
Proof.
  unfold cipher_encrypt. intros H. repeat match type of H with (if ?x then _ else _) = _ => destruct x eqn:?; try discriminate H end.
  - apply bind_ok in H as (x & _ & H). apply ok_inj in H. injection H as <- <-. split; [repeat split|]. unfold MODE_CFB, MODE_ECB in *. lia.
  - apply bind_ok in H as ([x y] & _ & H). apply ok_inj in H. injection H as <- <-. split; [repeat split|]. unfold MODE_CFB, MODE_CBC in *. lia.
  - apply bind_ok in H as ([x y] & _ & H). apply ok_inj in H. injection H as <- <-. split; [repeat split|]. intros _. split; reflexivity.
  - apply bind_ok in H as ([[x y] z] & _ & H). apply ok_inj in H. injection H as <- <-. split; [repeat split|]. unfold MODE_CFB, MODE_OFB in *. lia.
  - apply bind_ok in H as ([[[x y] z] w] & _ & H). apply ok_inj in H. injection H as <- <-. split; [repeat split|]. unfold MODE_CFB, MODE_CTR in *. lia.
Qed.
Lemma dec_frame o b r o' : dec o b = Ok (r, o') -> frame o o' /\ (c_mode o = MODE_CFB -> c_old o' = c_old o /\ c_count o' = Z.abs (c_count o - zlen b mod c_bs o)).
Proof.
  unfold cipher_decrypt. intros H. destruct ((c_mode o =? MODE_CTR) || (c_mode o =? MODE_OFB)) eqn:Q.
  { destruct (enc_frame o b r o' H) as [A B]. split; [exact A|exact B]. }
  repeat match type of H with (if ?x then _ else _) = _ => destruct x eqn:?; try discriminate H end.
  - apply bind_ok in H as (x & _ & H). apply ok_inj in H. injection H as <- <-. split; [repeat split|]. unfold MODE_CFB, MODE_ECB in *. lia.
  - apply bind_ok in H as ([[x y] z] & _ & H). apply ok_inj in H. injection H as <- <-. split; [repeat split|]. unfold MODE_CFB, MODE_CBC in *. lia.
  - apply bind_ok in H as ([x y] & _ & H). apply ok_inj in H. injection H as <- <-. split; [repeat split|]. intros _. split; reflexivity.
Qed.

(** ** modes other than CFB: the resynchronisations are nothing *)
Lemma history_enc : forall l o o', c_mode o <> MODE_CFB -> forall outs, encrypt_calls E ctr o (calls l) = Ok (outs, o') -> exists e, history enc o l = Ok (e, o') /\ calls e = outs.
Proof.
  induction l as [|[b|] l IH]; intros o o' M outs H; cbn [calls flat_map app] in H.
  - cbn [encrypt_calls] in H. apply ok_inj in H. injection H as <- <-. exists []; split; reflexivity.
  - cbn [encrypt_calls] in H. apply bind_ok in H as ([r o1] & C & H). apply bind_ok in H as ([rs o2] & H & X). apply ok_inj in X. injection X as <- <-. destruct (enc_frame _ _ _ _ C) as [(F & _ & _) _].
    destruct (IH o1 o2 ltac:(congruence) rs H) as (e & He & Ce). exists (Call r :: e). cbn [history]. rewrite C. cbn [bind]. rewrite He. split; [reflexivity|]. cbn [calls flat_map app]. now f_equal.
  - destruct (IH o o' M outs H) as (e & He & Ce). exists (Sync :: e). cbn [history]. rewrite (c116_other_modes o M). cbn [bind]. rewrite He. split; [reflexivity|exact Ce].
Qed.
Lemma history_dec : forall l o o', c_mode o <> MODE_CFB -> forall outs, decrypt_calls E D ctr o (calls l) = Ok (outs, o') -> exists e, history dec o l = Ok (e, o') /\ calls e = outs.
Proof.
  induction l as [|[b|] l IH]; intros o o' M outs H; cbn [calls flat_map app] in H.
  - cbn [decrypt_calls] in H. apply ok_inj in H. injection H as <- <-. exists []; split; reflexivity.
  - cbn [decrypt_calls] in H. apply bind_ok in H as ([r o1] & C & H). apply bind_ok in H as ([rs o2] & H & X). apply ok_inj in X. injection X as <- <-. destruct (dec_frame _ _ _ _ C) as [(F & _ & _) _].
    destruct (IH o1 o2 ltac:(congruence) rs H) as (e & He & Ce). exists (Call r :: e). cbn [history]. rewrite C. cbn [bind]. rewrite He. split; [reflexivity|]. cbn [calls flat_map app]. now f_equal.
  - destruct (IH o o' M outs H) as (e & He & Ce). exists (Sync :: e). cbn [history]. rewrite (c116_other_modes o M). cbn [bind]. rewrite He. split; [reflexivity|exact Ce].
Qed.

(** ** CFB *)
Definition cfb_ok (bs s : Z) (o : cobj) : Prop :=
  c_mode o = MODE_CFB /\ c_bs o = bs /\ c_seg o = 8 * s /\ wf (c_IV o) /\ zlen (c_IV o) = bs /\ 0 <= c_count o <= bs /\ c_old o = repeat 0 (Z.to_nat bs).
Lemma last_zeros bs n : 0 <= n <= bs -> skipn (Z.to_nat n) (repeat 0 (Z.to_nat bs)) = repeat 0 (Z.to_nat (bs - n)).
Proof. intros H. replace (Z.to_nat bs) with (Z.to_nat n + Z.to_nat (bs - n))%nat by lia. rewrite repeat_app, skipn_app, repeat_length, Nat.sub_diag. rewrite skipn_all2 by (rewrite repeat_length; lia). reflexivity. Qed.
Lemma sync_cfb bs s o : 0 < bs -> cfb_ok bs s o ->
  cipher_sync o = Ok (if c_count o =? bs then o else set_IV o (repeat 0 (Z.to_nat (bs - c_count o)) ++ firstn (Z.to_nat (c_count o)) (c_IV o))).
Proof.
  intros B (M & Hb & _ & W & L & C & Old). unfold cipher_sync. rewrite M, Z.eqb_refl, Hb. destruct (c_count o =? bs) eqn:Q; [replace (bs - c_count o =? 0) with true by lia; reflexivity|]. replace (bs - c_count o =? 0) with false by lia.
  set (un := bs - c_count o) in *. replace (bs - un) with (c_count o) by lia. set (cn := c_count o) in *. clearbody cn.
  assert (S1 : slice (c_IV o) 0 un = firstn (Z.to_nat un) (c_IV o)). { unfold slice. rewrite !clip_in by lia. rewrite Z.sub_0_r. reflexivity. }
  assert (S2 : slice (c_IV o) 0 cn = firstn (Z.to_nat cn) (c_IV o)). { unfold slice. rewrite !clip_in by lia. rewrite Z.sub_0_r. reflexivity. }
  assert (LI : length (c_IV o) = Z.to_nat bs) by (unfold zlen in L; lia).
  assert (S3 : slice_from (c_old o) cn = repeat 0 (Z.to_nat un)). { unfold slice_from. rewrite Old. unfold zlen. rewrite repeat_length, Z2Nat.id by lia. rewrite clip_in by lia. rewrite last_zeros by lia. reflexivity. }
  assert (S4 : slice_from (firstn (Z.to_nat un) (c_IV o) ++ firstn (Z.to_nat cn) (c_IV o)) un = firstn (Z.to_nat cn) (c_IV o)).
  { unfold slice_from. rewrite clip_in by (unfold zlen; rewrite app_length, !firstn_length; lia). rewrite skipn_app, firstn_length. rewrite skipn_all2 by (rewrite firstn_length; lia). replace (Z.to_nat un - Nat.min (Z.to_nat un) (length (c_IV o)))%nat with 0%nat by lia. reflexivity. }
  rewrite S1, S2, S3, S4. replace (zlen (repeat 0 (Z.to_nat un) ++ firstn (Z.to_nat cn) (c_IV o)) =? bs) with true; [reflexivity|]. symmetry. unfold zlen. rewrite app_length, repeat_length, firstn_length. lia.
Qed.
Lemma sync_ok bs s o : 0 < bs -> cfb_ok bs s o -> exists o', cipher_sync o = Ok o' /\ cfb_ok bs s o'.
Proof.
  intros B K. eexists. split; [exact (sync_cfb bs s o B K)|]. destruct (c_count o =? bs) eqn:Q; [exact K|]. destruct K as (M & Hb & Sg & W & L & C & Old). unfold cfb_ok, set_IV. cbn [c_mode c_bs c_seg c_IV c_count c_old].
  repeat (split; [assumption|]). split; [|split; [|split; assumption]].
  - apply Forall_app. split; [apply Forall_forall; intros x I; apply repeat_spec in I; unfold byte; lia|]. rewrite <- (firstn_skipn (Z.to_nat (c_count o)) (c_IV o)) in W. apply wf_app in W as [W _]. exact W.
  - unfold zlen in *. rewrite app_length, repeat_length, firstn_length. lia.
Qed.
(** a call and its inverse, from the same state, end in the same state *)
Lemma call_pair bs s o b : 0 < s <= bs -> (forall b, wf b -> zlen b = bs -> wf (E b) /\ zlen (E b) = bs) -> cfb_ok bs s o -> wf b -> zlen b mod s = 0 ->
  exists r o', enc o b = Ok (r, o') /\ dec o r = Ok (b, o') /\ cfb_ok bs s o' /\ zlen r = zlen b /\ c_IV o' = last_of bs (c_IV o ++ r) /\ (zlen b = s -> r = xor_bytes b (firstn (Z.to_nat s) (E (c_IV o)))).
Proof.
  intros Hs HE K W Mod. pose proof K as (M & Hb & Sg & Wi & L & C & Old). destruct (split_exists s b ltac:(lia) W Mod) as (bl & Bl & <-).
  assert (HEo : forall b, wf b -> zlen b = c_bs o -> wf (E b) /\ zlen (E b) = c_bs o) by (rewrite Hb; exact HE).
  assert (HE' : forall b, wf b -> zlen b = Z.of_nat (Z.to_nat bs) -> wf (E b) /\ zlen (E b) = Z.of_nat (Z.to_nat bs)) by (intros x; rewrite Z2Nat.id by lia; apply HE).
  assert (Hreg : regok (Z.to_nat bs) (c_IV o)) by (split; [easy|unfold zlen in *; lia]).
  assert (Hsb : (0 < Z.to_nat s <= Z.to_nat bs)%nat) by lia.
  destruct (cfb_call E D ctr o s bl M ltac:(lia) Sg HEo Wi ltac:(lia) Bl) as (n & m & C1 & _).
  destruct (cfb_outs_blocks E _ _ Hsb HE' true bl Bl (c_IV o) Hreg) as [B1 [B2 B3]].
  destruct (cfb_call E D ctr o s (cfb_outs E true (Z.to_nat s) (c_IV o) bl) M ltac:(lia) Sg HEo Wi ltac:(lia) B1) as (n' & m' & _ & C2).
  rewrite (cfb_inv E _ _ Hsb HE' bl Bl _ Hreg) in C2.
  assert (Ll : zlen (concat (cfb_outs E true (Z.to_nat s) (c_IV o) bl)) = zlen (concat bl)).
  { apply (blocks_zlen (Z.to_nat s)); [easy..|]. clear. generalize (c_IV o). induction bl as [|b bl IH]; intros iv; cbn; [reflexivity|]. now rewrite IH. }
  destruct (enc_frame _ _ _ _ C1) as [_ F1]. destruct (F1 M) as [_ N1]. destruct (dec_frame _ _ _ _ C2) as [_ F2]. destruct (F2 M) as [_ N2]. cbn [set_count c_count] in N1, N2. rewrite Ll in N2.
  assert (Rg : cfb_reg E false (Z.to_nat s) (c_IV o) (cfb_outs E true (Z.to_nat s) (c_IV o) bl) = cfb_reg E true (Z.to_nat s) (c_IV o) bl).
  { clear. generalize (c_IV o). induction bl as [|b bl IH]; intros iv; cbn [cfb_outs cfb_reg]; [reflexivity|]. apply IH. }
  rewrite Rg in C2.
  assert (Hist : forall bl iv, blocks_of (Z.to_nat s) bl -> regok (Z.to_nat bs) iv -> cfb_reg E true (Z.to_nat s) iv bl = last_of bs (iv ++ concat (cfb_outs E true (Z.to_nat s) iv bl))).
  { clear -Hs HE' Hsb. assert (Ln : forall iv : bytes, regok (Z.to_nat bs) iv -> zlen iv = bs) by (intros iv [_ X]; unfold zlen; lia). induction bl as [|b bl IH]; intros iv Bl R; cbn [cfb_outs cfb_reg concat].
    - rewrite app_nil_r. unfold last_of. rewrite (Ln iv R), Z.sub_diag. reflexivity.
    - cbv zeta. pose proof (Forall_inv Bl) as [Hb Wb]. destruct (cfb_out_ok E _ _ Hsb HE' iv b R Hb Wb) as [O1 O2]. set (c := xor_bytes b (firstn (Z.to_nat s) (E iv))) in *.
      assert (R2 : regok (Z.to_nat bs) (skipn (Z.to_nat s) iv ++ c)) by (apply (cfb_next_ok E _ _ Hsb HE' iv c R); assumption). rewrite (IH _ (Forall_inv_tail Bl) R2). unfold last_of. rewrite !zlen_app. pose proof (Ln _ R2) as L2. pose proof (Ln _ R) as L1. rewrite zlen_app in L2.
      set (w := concat (cfb_outs E true (Z.to_nat s) (skipn (Z.to_nat s) iv ++ c) bl)). pose proof (zlen_nonneg w). assert (Zc : zlen c = s) by (unfold zlen; lia).
      replace (iv ++ c ++ w) with ((firstn (Z.to_nat s) iv) ++ ((skipn (Z.to_nat s) iv ++ c) ++ w)) by (rewrite <- app_assoc; rewrite app_assoc; now rewrite firstn_skipn).
      rewrite (skipn_app _ (firstn (Z.to_nat s) iv)). assert (F : length (firstn (Z.to_nat s) iv) = Z.to_nat s) by (rewrite firstn_length; unfold zlen in L1; lia). rewrite F. rewrite (skipn_all2 (firstn (Z.to_nat s) iv)) by lia. cbn [app]. f_equal. lia. }
  assert (Mb : 0 <= zlen (concat bl) mod c_bs o < c_bs o) by (apply Z.mod_pos_bound; lia).
  assert (Nn : n = m') by congruence. rewrite <- Nn in C2. do 2 eexists. split; [exact C1|]. split; [exact C2|]. split; [|split; [exact Ll|split; [exact (Hist bl (c_IV o) Bl Hreg)|]]].
  - unfold cfb_ok, set_count, set_IV. cbn [c_mode c_bs c_seg c_IV c_count c_old]. repeat (split; [assumption|]). split; [unfold zlen; lia|]. split; [rewrite N1; lia|exact Old].
  - intros Z1. destruct bl as [|b [|b2 bl]]; [exfalso; unfold zlen in Z1; cbn in Z1; lia| |].
    + cbn [cfb_outs concat]. now rewrite !app_nil_r.
    + exfalso. pose proof (Forall_inv Bl) as [X _]. pose proof (Forall_inv (Forall_inv_tail Bl)) as [Y _]. cbn [concat] in Z1. rewrite !zlen_app in Z1. unfold zlen in Z1. pose proof (zlen_nonneg (concat bl)). unfold zlen in *. lia.
Qed.
Lemma history_cfb bs s : 0 < s <= bs -> (forall b, wf b -> zlen b = bs -> wf (E b) /\ zlen (E b) = bs) -> forall l o, cfb_ok bs s o -> Forall (fun b => wf b /\ zlen b mod s = 0) (calls l) ->
  exists e o', history enc o l = Ok (e, o') /\ history dec o e = Ok (l, o') /\ cfb_ok bs s o'.
Proof.
  intros Hs HE. induction l as [|[b|] l IH]; intros o K F; cbn [calls flat_map app] in F.
  - exists [], o. repeat (split; [reflexivity|]). exact K.
  - destruct (Forall_inv F) as [W Md]. destruct (call_pair bs s o b Hs HE K W Md) as (r & o1 & C1 & C2 & K1 & _). destruct (IH o1 K1 (Forall_inv_tail F)) as (e & o2 & H1 & H2 & K2). exists (Call r :: e), o2. cbn [history]. rewrite C1, C2. cbn [bind]. rewrite H1, H2. cbn [bind]. auto.
  - destruct (sync_ok bs s o ltac:(lia) K) as (o1 & S1 & K1). destruct (IH o1 K1 F) as (e & o2 & H1 & H2 & K2). exists (Sync :: e), o2. cbn [history]. rewrite S1. cbn [bind]. rewrite H1, H2. cbn [bind]. auto.
Qed.
(** a new object *)
Lemma new_cfb bs ks key IV hc seg o : cipher_new bs ks key MODE_CFB IV hc seg = Ok o -> (forall iv, IV = Some iv -> wf iv) -> exists s, 0 < s <= bs /\ cfb_ok bs s o /\ c_count o = bs /\ IV = Some (c_IV o).
Proof.
  intros H W. destruct (cipher_new_inv _ _ _ _ _ _ _ _ H) as (_ & M & B & C & _ & _ & V & S & _). destruct (V ltac:(discriminate) ltac:(discriminate)) as (iv & E0 & Ci & L). destruct (S eq_refl) as (s & Hs & Sg). exists s. split; [exact Hs|].
  assert (Old : c_old o = repeat 0 (Z.to_nat bs)). { unfold cipher_new in H. repeat match type of H with (if ?x then _ else _) = _ => destruct x; [discriminate H|] end. apply ok_inj in H. rewrite <- H. reflexivity. }
  split; [|split; [exact C|congruence]]. unfold cfb_ok. split; [exact M|]. split; [exact B|]. split; [exact Sg|]. rewrite Ci. split; [exact (W iv E0)|]. split; [exact L|]. split; [lia|exact Old].
Qed.

(** Two ends that make the same calls stay in step over any resynchronisations: what one encrypts the other decrypts. *)
Theorem c116_in_step bs ks key mode IV hc seg o l : 0 < bs -> block_cipher bs E D -> (forall k, wf (ctr k) /\ zlen (ctr k) = bs) -> (forall iv, IV = Some iv -> wf iv) ->
  cipher_new bs ks key mode IV hc seg = Ok o -> Forall (fun b => wf b /\ valid_len o (zlen b)) (calls l) ->
  exists e o', history enc o l = Ok (e, o') /\ map zlen (calls e) = map zlen (calls l) /\ exists l' o'', history dec o e = Ok (l', o'') /\ concat (calls l') = concat (calls l).
Proof.
  intros B HE Hc W N F. destruct (Z.eq_dec mode MODE_CFB) as [->|M].
  - destruct (new_cfb _ _ _ _ _ _ _ N W) as (s & Hs & K & _ & _). pose proof K as (M & _ & Sg & _). assert (F' : Forall (fun b => wf b /\ zlen b mod s = 0) (calls l)).
    { rewrite Forall_forall in *. intros b I. destruct (F b I) as [X Y]. split; [exact X|]. exact (valid_cfb o s _ M Sg Y). }
    assert (HE1 : forall b, wf b -> zlen b = bs -> wf (E b) /\ zlen (E b) = bs) by (intros b X Y; now apply HE).
    destruct (history_cfb bs s Hs HE1 l o K F') as (e & o' & H1 & H2 & _). exists e, o'. split; [exact H1|]. split; [|eauto].
    clear -D H1 Hs HE1 K F'. revert e o o' H1 K F'. induction l as [|[b|] l IH]; intros e o o' H1 K F'; cbn [history] in H1.
    + apply ok_inj in H1. injection H1 as <- <-. reflexivity.
    + apply bind_ok in H1 as ([r o1] & C & H1). apply bind_ok in H1 as ([rs o2] & H1 & X). apply ok_inj in X. injection X as <- <-. cbn [calls flat_map app] in F' |- *. destruct (Forall_inv F') as [Wb Mb].
      destruct (call_pair bs s o b Hs HE1 K Wb Mb) as (r' & o1' & C1 & _ & K1 & L & _). rewrite C in C1. apply ok_inj in C1. injection C1 as <- <-. cbn [map]. f_equal; [exact L|exact (IH rs o1 o2 H1 K1 (Forall_inv_tail F'))].
    + apply bind_ok in H1 as (o1 & C & H1). apply bind_ok in H1 as ([rs o2] & H1 & X). apply ok_inj in X. injection X as <- <-. destruct (sync_ok bs s o ltac:(lia) K) as (o1' & S1 & K1). rewrite C in S1. apply ok_inj in S1. subst o1'. exact (IH rs o1 o2 H1 K1 F').
  - destruct (cipher_new_inv _ _ _ _ _ _ _ _ N) as (_ & Mo & _). assert (M' : c_mode o <> MODE_CFB) by congruence.
    destruct (c45_decrypt_inverts E D ctr bs ks key mode IV hc seg o (calls l) B HE Hc W N F) as (outs & o' & H1 & H2 & H3). destruct (history_enc l o o' M' outs H1) as (e & He & Ce). exists e, o'. split; [exact He|]. rewrite Ce. split; [exact H2|].
    destruct (H3 outs eq_refl) as (r & o'' & H4 & H5).
    + clear -H2 F. revert outs H2. induction (calls l) as [|b bl IH]; intros [|x outs] H2; try discriminate H2; constructor; cbn [map] in H2; injection H2 as Q H2.
      * destruct (Forall_inv F) as [_ V]. now rewrite Q.
      * exact (IH (Forall_inv_tail F) outs H2).
    + rewrite <- Ce in H4. destruct (history_dec e o o'' M' r H4) as (l' & Hl & Cl). exists l', o''. split; [exact Hl|]. rewrite Cl. exact H5.
Qed.

(** What a resynchronisation does in CFB mode, after any calls: nothing if the count is a block; otherwise zeros come before the first octets of the last block
    of ciphertext. *)
Theorem c116_register bs ks key iv hc seg o chunks outs o1 : 0 < bs -> (forall b, wf b -> zlen b = bs -> wf (E b) /\ zlen (E b) = bs) -> wf iv ->
  cipher_new bs ks key MODE_CFB (Some iv) hc seg = Ok o -> Forall (fun b => wf b /\ valid_len o (zlen b)) chunks -> encrypt_calls E ctr o chunks = Ok (outs, o1) ->
  let reg := last_of bs (iv ++ concat outs) in let n := counted bs (map zlen chunks) in
  0 <= n <= bs /\ exists o2, cipher_sync o1 = Ok o2 /\
    forall p, wf p -> 8 * zlen p = c_seg o -> exists o3, enc o2 p = Ok (xor_bytes p (firstn (Z.to_nat (zlen p)) (E (if n =? bs then reg else repeat 0 (Z.to_nat (bs - n)) ++ firstn (Z.to_nat n) reg))), o3).
Proof.
  intros B HE W N F H. destruct (new_cfb _ _ _ _ _ _ _ N ltac:(intros x Q; injection Q as <-; exact W)) as (s & Hs & K & C0 & Iv). injection Iv as Iv. subst iv.
  assert (G : forall chunks o outs o1, cfb_ok bs s o -> Forall (fun b => wf b /\ zlen b mod s = 0) chunks -> encrypt_calls E ctr o chunks = Ok (outs, o1) ->
    cfb_ok bs s o1 /\ c_IV o1 = last_of bs (c_IV o ++ concat outs) /\ c_count o1 = fold_left (fun c n => Z.abs (c - n mod bs)) (map zlen chunks) (c_count o)).
  { clear -D Hs HE. induction chunks as [|c cs IH]; intros o outs o1 K F H; cbn [encrypt_calls] in H.
    - apply ok_inj in H. injection H as <- <-. split; [exact K|]. split; [|reflexivity]. cbn [concat]. rewrite app_nil_r. unfold last_of. destruct K as (_ & _ & _ & _ & L & _). rewrite L, Z.sub_diag. reflexivity.
    - apply bind_ok in H as ([r o2] & C & H). apply bind_ok in H as ([rs o3] & H & X). apply ok_inj in X. injection X as <- <-. destruct (Forall_inv F) as [Wc Mc].
      destruct (call_pair bs s o c Hs HE K Wc Mc) as (r' & o2' & C1 & _ & K1 & L & Reg & _). rewrite C in C1. apply ok_inj in C1. injection C1 as <- <-. destruct (IH o2 rs o3 K1 (Forall_inv_tail F) H) as (K2 & R2 & N2). split; [exact K2|]. split.
      + rewrite R2, Reg. cbn [concat]. unfold last_of. pose proof K as (_ & _ & _ & _ & Lo & _). set (w := concat rs). rewrite !zlen_app. rewrite app_assoc. pose proof (zlen_nonneg r). pose proof (zlen_nonneg w).
        rewrite <- (firstn_skipn (Z.to_nat (zlen (c_IV o) + zlen r - bs)) (c_IV o ++ r)) at 3. rewrite <- app_assoc. rewrite (skipn_app _ (firstn _ _)).
        assert (F1 : length (firstn (Z.to_nat (zlen (c_IV o) + zlen r - bs)) (c_IV o ++ r)) = Z.to_nat (zlen (c_IV o) + zlen r - bs)) by (rewrite firstn_length, app_length; unfold zlen in *; lia).
        rewrite F1. rewrite (skipn_all2 (firstn _ _)) by lia. cbn [app]. f_equal. unfold zlen in *. rewrite skipn_length, app_length. lia.
      + rewrite N2. cbn [map fold_left]. f_equal. destruct (enc_frame _ _ _ _ C) as [_ Q]. destruct K as (M & Hb & _). destruct (Q M) as [_ Q2]. now rewrite Q2, Hb. }
  assert (F' : Forall (fun b => wf b /\ zlen b mod s = 0) chunks). { rewrite Forall_forall in *. intros b I. destruct (F b I) as [X Y]. split; [exact X|]. destruct K as (M & _ & Sg & _). exact (valid_cfb o s _ M Sg Y). }
  destruct (G chunks o outs o1 K F' H) as (K1 & R1 & N1). rewrite C0 in N1. fold (counted bs (map zlen chunks)) in N1. cbv zeta. rewrite <- R1, <- N1. pose proof K1 as (_ & _ & _ & _ & _ & Rg & _). split; [exact Rg|].
  pose proof (sync_cfb bs s o1 ltac:(lia) K1) as S1. destruct (sync_ok bs s o1 ltac:(lia) K1) as (o2 & S2 & K2). exists o2. split; [exact S2|]. intros p Wp Zp. rewrite S1 in S2. apply ok_inj in S2.
  assert (Sp : zlen p = s) by (destruct K as (_ & _ & Sg & _); lia). assert (Mp : zlen p mod s = 0) by (rewrite Sp; apply Z.mod_same; lia).
  destruct (call_pair bs s o2 p Hs HE K2 Wp Mp) as (r & o3 & C3 & _ & _ & _ & _ & Z3). rewrite C3, (Z3 Sp), Sp. exists o3. repeat f_equal. rewrite <- S2. destruct (c_count o1 =? bs); reflexivity.
Qed.
(** So after whole blocks it does nothing; *)
Theorem c116_whole_blocks bs lens : 0 < bs -> Forall (fun n => n mod bs = 0) lens -> counted bs lens = bs.
Proof. intros B F. unfold counted. induction F as [|n l H F IH]; [reflexivity|]. cbn [fold_left]. rewrite H, Z.sub_0_r, Z.abs_eq by lia. exact IH. Qed.
(** after a single call of n octets that leaves r of a block, it throws away the last r octets of the register and puts r zeros before the rest. *)
Theorem c116_odd_call bs n : 0 < bs -> counted bs [n] = bs - n mod bs.
Proof. intros B. unfold counted. cbn [fold_left]. pose proof (Z.mod_pos_bound n bs B). lia. Qed.
End Sync.
Print Assumptions c116_other_modes.
Print Assumptions c116_in_step.
Print Assumptions c116_register.
Print Assumptions c116_whole_blocks.
Print Assumptions c116_odd_call.
(** RFC 4880 13.9: resynchronising makes the register the last block of ciphertext. It does not: after two calls of half a block, on a block boundary, the
    register is all zeros, and what is encrypted next depends neither on the IV nor on what was encrypted before. *)
Theorem c116_resync_refuted E (D : bytes -> bytes) ctr bs ks key iv hc seg o a b outs o1 : 0 < bs -> (forall b, wf b -> zlen b = bs -> wf (E b) /\ zlen (E b) = bs) -> wf iv ->
  cipher_new bs ks key MODE_CFB (Some iv) hc seg = Ok o -> wf a -> wf b -> valid_len o (zlen a) -> valid_len o (zlen b) -> 2 * zlen a = bs -> zlen b = zlen a ->
  encrypt_calls E ctr o [a; b] = Ok (outs, o1) ->
  exists o2, cipher_sync o1 = Ok o2 /\ forall p, wf p -> 8 * zlen p = c_seg o -> exists o3, cipher_encrypt E ctr o2 p = Ok (xor_bytes p (firstn (Z.to_nat (zlen p)) (E (repeat 0 (Z.to_nat bs)))), o3).
Proof.
  intros B HE W N Wa Wb Va Vb La Lb H. destruct (c116_register E D ctr bs ks key iv hc seg o [a; b] outs o1 B HE W N ltac:(constructor; [auto|constructor; [auto|constructor]]) H) as (_ & o2 & S & R). exists o2. split; [exact S|]. intros p Wp Zp. destruct (R p Wp Zp) as (o3 & C). exists o3. rewrite C.
  assert (Q : counted bs (map zlen [a; b]) = 0). { unfold counted. cbn [map fold_left]. rewrite Lb. rewrite !(Z.mod_small (zlen a)) by lia. lia. } rewrite Q. replace (0 =? bs) with false by lia. rewrite Z.sub_0_r. cbn [Z.to_nat firstn]. now rewrite app_nil_r.
Qed.
Print Assumptions c116_resync_refuted.
Example c116_example : exists o o1 o2 outs, cipher_new 4 [16] (repeat 7 16) MODE_CFB (Some [9; 8; 7; 6]) false 16 = Ok o /\ encrypt_calls toyE toy_ctr o [[1; 2]; [3; 4]] = Ok (outs, o1) /\
  cipher_sync o1 = Ok o2 /\ c_IV o1 = last_of 4 ([9; 8; 7; 6] ++ concat outs) /\ c_IV o2 = [0; 0; 0; 0] /\ c_IV o1 <> c_IV o2 /\
  exists e y, history (cipher_encrypt toyE toy_ctr) o [Call [1; 2]; Sync; Call [3; 4; 5; 6]] = Ok (e, y) /\ fst (match history (cipher_decrypt toyE toyD toy_ctr) o e with Ok r => r | Err _ => ([], o) end) = [Call [1; 2]; Sync; Call [3; 4; 5; 6]].
Proof. do 4 eexists. repeat (split; [vm_compute; reflexivity|]). split; [vm_compute; discriminate|]. do 2 eexists. split; vm_compute; reflexivity. Qed.
