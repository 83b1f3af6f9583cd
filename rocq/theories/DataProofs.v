From Verif Require Import Base BaseProofs Spec Utils UtilsProofs Text Utf8 SpecUtf8 Utf8Proofs DataPackets SpecData.
Lemma slice_from_1 (b : Z) (t : bytes) : slice_from (b :: t) 1 = t.
Proof. apply (slice_from_app [b] t). Qed.
Lemma get0_inv (d : bytes) v : get d 0 = Ok v -> exists t, d = v :: t.
Proof. destruct d as [|b t]; [discriminate|]. rewrite get_cons_0. intros [= ->]. eauto. Qed.
Lemma land_128 c : byte c -> (Z.land c 128 =? 0) = (c <? 128).
Proof.
  intros H. unfold byte in H. assert (Z.land c 128 = 128 * ((c / 128) mod 2)) as ->; [|lia].
  apply Z.bits_inj'. intros n Hn. rewrite Z.land_spec. change 128 with (2 ^ 7). rewrite Z.pow2_bits_eqb by lia. rewrite (Z.mul_comm (2 ^ 7)), Z.mul_pow2_bits by lia.
  change 2 with (2 ^ 1) at 2. destruct (Z.eqb_spec 7 n) as [<-|Hne].
  - rewrite Z.mod_pow2_bits_low by lia. rewrite Z.div_pow2_bits by lia. now rewrite andb_true_r.
  - rewrite andb_false_r. destruct (Z.lt_ge_cases n 7); [now rewrite Z.testbit_neg_r by lia|]. rewrite Z.mod_pow2_bits_high by lia. reflexivity.
Qed.
Lemma long_to_int_err_iff (data : bytes) o : 0 <= o -> (exists t, long_to_int data o = Ok t) <-> o + 4 <= zlen data.
Proof.
  intros Ho. unfold long_to_int. split.
  - intros (t & H). apply bytes_to_int_bound in H; lia.
  - intros H. assert (Hs : data = firstn (Z.to_nat o) data ++ firstn 4 (skipn (Z.to_nat o) data) ++ skipn 4 (skipn (Z.to_nat o) data)) by now rewrite !firstn_skipn.
    assert (L1 : zlen (firstn (Z.to_nat o) data) = o) by (unfold zlen in *; rewrite firstn_length; lia).
    assert (L2 : zlen (firstn 4 (skipn (Z.to_nat o) data)) = 4) by (unfold zlen in *; rewrite firstn_length, skipn_length; lia).
    exists (be_val (firstn 4 (skipn (Z.to_nat o) data))). pose proof (bytes_to_int_spec (firstn (Z.to_nat o) data) (firstn 4 (skipn (Z.to_nat o) data)) (skipn 4 (skipn (Z.to_nat o) data)) 4 ltac:(lia)) as P. rewrite <- Hs, L1 in P. exact P.
Qed.
Ltac tys := repeat match goal with |- context [?a =? ?b] => first [replace (a =? b) with true by lia | replace (a =? b) with false by lia] end.
Lemma data_from_ok ty d : wf d -> (exists p, data_from ty d = Ok p) <-> readable_body ty d.
Proof.
  intros W. unfold readable_body, data_from.
  destruct (ty =? 8) eqn:?. { unfold compressed_from. destruct d as [|b t]; [split; [intros (p & ?); discriminate|intros (H & _); exfalso; apply H; [lia|easy]]|].
    rewrite get_cons_0. cbn [bind]. split; [intros _; repeat split; intros; try lia; easy|eauto]. }
  destruct (ty =? 9) eqn:?. { unfold symenc_from. split; [intros _; repeat split; intros; lia|eauto]. }
  destruct (ty =? 10) eqn:?. { unfold marker_from. split; [intros (p & ?); discriminate|intros (_ & H & _); lia]. }
  destruct (ty =? 11) eqn:?.
  { assert (ty = 11) as -> by lia. split.
    - intros (p & H). repeat split; intros; try lia. unfold literal_from in H. apply bind_ok in H as (f & Hf & H). apply bind_ok in H as (n & Hn & H). apply bind_ok in H as (t & Ht & H). apply bind_ok in H as (x & Hx & H).
      destruct (get0_inv _ _ Hf) as (r & ->). rewrite get_cons_S in Hn by lia. change (1 - 1) with 0 in Hn. destruct (get0_inv _ _ Hn) as (rest & ->).
      apply wf_cons in W as [Bf W]. apply wf_cons in W as [Bn W]. unfold byte in Bn.
      assert (2 + n + 4 <= zlen (f :: n :: rest)) as L by (apply long_to_int_err_iff; [lia|eauto]). rewrite !zlen_cons in L.
      exists f, n, rest. split; [easy|]. split; [lia|]. intros ->. cbn [Z.eqb] in Hx. change (117 =? 116) with false in Hx. change (117 =? 117) with true in Hx. cbv iota in Hx.
      apply bind_ok in Hx as (s & Hs & _).
      exists (firstn (Z.to_nat n) rest), (firstn 4 (skipn (Z.to_nat n) rest)), (skipn 4 (skipn (Z.to_nat n) rest)).
      split; [now rewrite !firstn_skipn|]. split; [unfold zlen in *; rewrite firstn_length; lia|]. split; [unfold zlen in *; rewrite firstn_length, skipn_length; lia|].
      assert (slice_from (117 :: n :: rest) (2 + n + 4) = skipn 4 (skipn (Z.to_nat n) rest)) as E.
      { unfold slice_from. rewrite clip_in by (rewrite !zlen_cons; lia). replace (Z.to_nat (2 + n + 4)) with (S (S (Z.to_nat n + 4))) by lia. change (skipn (S (S (Z.to_nat n + 4))) (117 :: n :: rest)) with (skipn (Z.to_nat n + 4) rest). rewrite skipn_skipn. f_equal. lia. }
      rewrite E in Hs. apply decode_ok_inv in Hs as [F ->]; [|now do 2 apply skipn_wf]. exists s. easy.
    - intros (_ & _ & H & _). destruct (H eq_refl) as (f & n & rest & -> & L & Hu). unfold literal_from. rewrite get_cons_0. cbn [bind]. rewrite get_cons_S by lia. change (1 - 1) with 0. rewrite get_cons_0. cbn [bind].
      apply wf_cons in W as [Bf W]. apply wf_cons in W as [Bn W]. unfold byte in Bn.
      assert (exists t, long_to_int (f :: n :: rest) (2 + n) = Ok t) as (t & ->) by (apply long_to_int_err_iff; [lia|rewrite !zlen_cons; lia]). cbn [bind].
      destruct (f =? 116) eqn:?; [cbn [bind]; eauto|]. destruct (f =? 117) eqn:?; [|cbn [bind]; eauto].
      destruct (Hu ltac:(lia)) as (name & tm & c & -> & Ln & Lt & (s & Fs & ->)).
      replace (slice_from (f :: n :: name ++ tm ++ utf8 s) (2 + n + 4)) with (utf8 s).
      2:{ symmetry. replace (f :: n :: name ++ tm ++ utf8 s) with (([f; n] ++ name ++ tm) ++ utf8 s) by (cbn [app]; now rewrite <- app_assoc). replace (2 + n + 4) with (zlen ([f; n] ++ name ++ tm)) by (rewrite !zlen_app; change (zlen [f; n]) with 2; lia). apply slice_from_app. }
      rewrite decode_utf8 by easy. cbn [bind]. eauto. }
  destruct (ty =? 12) eqn:?.
  { unfold trust_from. destruct d as [|v t]; [split; [intros (p & ?); discriminate|intros (_ & _ & _ & H & _); destruct H as (? & ? & ? & _); [lia|discriminate]]|].
    apply wf_cons in W as [Bv W]. rewrite get_cons_0. cbn [bind]. destruct ((v =? 0) && (zlen (v :: t) =? 2)) eqn:E.
    - rewrite zlen_cons in E. destruct (zlen_1 t ltac:(lia)) as (c & ->). rewrite get_cons_S by lia. change (1 - 1) with 0. rewrite get_cons_0. cbn [bind]. apply wf_cons in W as [Bc _]. rewrite land_128 by easy. split.
      + intros (p & H). repeat split; intros; try lia. exists v, [c]. split; [easy|]. intros _ c' [= <-]. destruct (c <? 128) eqn:?; [lia|discriminate].
      + intros (_ & _ & _ & H & _). destruct H as (v' & r & [= <- <-] & H); [lia|]. specialize (H ltac:(lia) c eq_refl). replace (c <? 128) with true by lia. cbn [negb]. eauto.
    - split; [|eauto]. intros _. repeat split; intros; try lia. exists v, t. split; [easy|]. intros -> c ->. rewrite zlen_cons in E. discriminate E. }
  destruct (ty =? 13) eqn:?. { unfold userid_from. split; [intros _; repeat split; intros; lia|eauto]. }
  destruct (ty =? 16) eqn:?. { unfold comment_from. split.
    - intros (p & H). apply bind_ok in H as (s & Hs & _). apply decode_ok_inv in Hs as [F ->]; [|easy]. repeat split; intros; try lia. exists s. easy.
    - intros (_ & _ & _ & _ & H & _). destruct H as (s & F & ->); [lia|]. rewrite decode_utf8 by easy. cbn [bind]. eauto. }
  destruct (ty =? 18) eqn:?. { unfold seipd_from. destruct d as [|b t]; [split; [intros (p & ?); discriminate|intros (_ & _ & _ & _ & _ & H & _); exfalso; apply H; [lia|easy]]|].
    rewrite get_cons_0. cbn [bind]. split; [intros _; repeat split; intros; try lia; easy|eauto]. }
  destruct (ty =? 19) eqn:?. { unfold mdc_from. destruct (zlen d =? 20) eqn:?; [split; [intros _; repeat split; intros; lia|eauto]|split; [intros (p & ?); discriminate|intros (_ & _ & _ & _ & _ & _ & H & _); lia]]. }
  destruct (ty =? 61) eqn:?. { unfold comment_from. split.
    - intros (p & H). apply bind_ok in H as (s & Hs & _). apply decode_ok_inv in Hs as [F ->]; [|easy]. repeat split; intros; try lia. exists s. easy.
    - intros (_ & _ & _ & _ & H & _). destruct H as (s & F & ->); [lia|]. rewrite decode_utf8 by easy. cbn [bind]. eauto. }
  destruct (ty =? 63) eqn:?.
  { unfold control_from. destruct (Z.le_gt_cases 9 (zlen d)) as [L|L].
    - destruct (get_lt_ok d 8 ltac:(lia)) as (c & ->). cbn [bind]. split; [intros _; repeat split; intros; lia|eauto].
    - rewrite get_ge_err by lia. split; [intros (p & ?); discriminate|intros (_ & _ & _ & _ & _ & _ & _ & H); lia]. }
  split; [intros _; repeat split; intros; lia|eauto].
Qed.
Lemma data_stable ty d p : wf d -> data_from ty d = Ok p -> data_type p = ty /\ (data_content p = Ok d <-> stable_body ty d).
Proof.
  intros W H. unfold stable_body. unfold data_from in H.
  destruct (ty =? 8) eqn:?. { apply bind_ok in H as (a & Ha & H). injection H as <-. destruct (get0_inv _ _ Ha) as (t & ->). apply wf_cons in W as [Ba Wt]. split; [cbn; lia|].
    cbn [data_content]. rewrite mk_bytes_wf by (apply wf_cons; split; [easy|constructor]). cbn [bind]. rewrite slice_from_1. split; [intros _; repeat split; intros; lia|reflexivity]. }
  destruct (ty =? 9) eqn:?. { injection H as <-. split; [cbn; lia|]. cbn. split; [intros _; repeat split; intros; lia|reflexivity]. }
  destruct (ty =? 10) eqn:?; [discriminate|].
  destruct (ty =? 11) eqn:?. { unfold literal_from in H. apply bind_ok in H as (f & Hf & H). apply bind_ok in H as (n & Hn & H). apply bind_ok in H as (t & Ht & H). apply bind_ok in H as (x & Hx & H). injection H as <-.
    split; [cbn; lia|]. cbn [data_content]. unfold literal_content. split; [|lia]. destruct (negb _); [discriminate|]. destruct (mk_bytes _); discriminate. }
  destruct (ty =? 12) eqn:?. { unfold trust_from in H. apply bind_ok in H as (v & Hv & H). destruct (get0_inv _ _ Hv) as (t & ->). apply wf_cons in W as [Bv W].
    destruct (_ && _) eqn:E in H.
    - rewrite zlen_cons in E. destruct (zlen_1 t ltac:(lia)) as (c & ->). rewrite get_cons_S in H by lia. change (1 - 1) with 0 in H. rewrite get_cons_0 in H. cbn [bind] in H. destruct (negb _) in H; [discriminate|]. injection H as <-.
      split; [cbn; lia|]. cbn [data_content]. rewrite mk_bytes_wf by (apply wf_cons; split; easy). split; [|easy]. intros _. repeat split; intros; try lia. right. exists c. f_equal. lia.
    - injection H as <-. split; [cbn; lia|]. cbn [data_content]. rewrite mk_bytes_wf by (apply wf_cons; split; [easy|constructor]). rewrite zlen_cons in E. split.
      + intros [= <-]. repeat split; intros; try lia. left. eauto.
      + intros (_ & H & _). destruct H as [(v' & [= <- ->])|(c & [= -> ->])]; [lia|easy|discriminate E]. }
  destruct (ty =? 13) eqn:?. { injection H as <-. split; [cbn; lia|]. cbn [data_content]. split.
    - intros E. injection E as E. repeat split; intros; try lia. now apply reencode_iff.
    - intros (_ & _ & H). f_equal. apply reencode_iff; [easy|]. apply H. lia. }
  assert (Hrest : (ty =? 16) = true \/ (ty =? 61) = true -> comment_from ty d = Ok p -> data_type p = ty /\ (data_content p = Ok d <-> stable_body ty d)).
  { intros Ht H'. apply bind_ok in H' as (s & Hs & H'). injection H' as <-. apply decode_ok_inv in Hs as [F ->]; [|easy]. split; [reflexivity|]. cbn [data_content]. rewrite encode_strict_scalar by easy.
    split; [intros _; repeat split; intros; lia|reflexivity]. }
  destruct (ty =? 16) eqn:E16. { assert (ty = 16) as -> by lia. now apply Hrest; [left|]. }
  destruct (ty =? 18) eqn:?. { apply bind_ok in H as (a & Ha & H). injection H as <-. destruct (get0_inv _ _ Ha) as (t & ->). apply wf_cons in W as [Ba Wt]. split; [cbn; lia|].
    cbn [data_content]. rewrite mk_bytes_wf by (apply wf_cons; split; [easy|constructor]). cbn [bind]. rewrite slice_from_1. split; [intros _; repeat split; intros; lia|reflexivity]. }
  destruct (ty =? 19) eqn:?. { unfold mdc_from in H. destruct (zlen d =? 20); [|discriminate]. injection H as <-. split; [cbn; lia|]. cbn. split; [intros _; repeat split; intros; lia|reflexivity]. }
  destruct (ty =? 61) eqn:E61. { assert (ty = 61) as -> by lia. now apply Hrest; [right|]. }
  destruct (ty =? 63) eqn:?. { unfold control_from in H. apply bind_ok in H as (c & Hc & H). injection H as <-. split; [cbn; lia|]. cbn [data_content]. rewrite mk_bytes_wf by (apply wf_cons; split; [eapply get_byte; eauto|constructor]). cbn [bind].
    split; [intros _; repeat split; intros; lia|]. intros _. f_equal. pose proof (get_ok_lt d 8 c ltac:(lia) Hc). rewrite <- (slice_one d 8 c) by (lia || easy).
    assert (slice_from d (8 + 1) = slice d (8 + 1) (zlen d)) as E. { unfold slice_from, slice. rewrite !clip_in by lia. rewrite firstn_all2; [reflexivity|]. rewrite skipn_length. unfold zlen. lia. }
    change (slice_from d 9) with (slice_from d (8 + 1)). rewrite E. rewrite <- (slice_cat d 8 (8 + 1) (zlen d)) by lia. rewrite <- (slice_cat d 0 8 (zlen d)) by lia. apply slice_full. }
  injection H as <-. split; [reflexivity|]. cbn. split; [intros _; repeat split; intros; lia|reflexivity].
Qed.
(** literal packets built with a date *)
Lemma int_4_spec t : 0 <= t < 2 ^ 32 -> be_val (int_to_4byte t) = t /\ zlen (int_to_4byte t) = 4 /\ wf (int_to_4byte t).
Proof.
  intros H. rewrite int_to_4byte_be. split; [|split; [apply be_bytes_len|apply be_bytes_wf]]. rewrite be_bytes_val. apply Z.mod_small. exact H.
Qed.
Lemma literal_parse f name t c enc : byte f -> wf name -> zlen name <= 255 -> wf c -> rfc_literal f name t c enc ->
  literal_from enc = do d <- (if f =? 116 then Ok (LText c) else if f =? 117 then do s <- utf8_decode c;; Ok (LText s) else Ok (LBytes c));; Ok (PLiteral f (utf8_decode_replace name) (TInt t) d).
Proof.
  intros Bf Wn Ln Wc (tm & -> & Lt & Et & Wt). unfold literal_from. cbn [app]. rewrite get_cons_0. cbn [bind]. rewrite get_cons_S by lia. change (1 - 1) with 0. rewrite get_cons_0. cbn [bind].
  change (f :: zlen name :: name ++ tm ++ c) with ([f; zlen name] ++ name ++ tm ++ c). pose proof (zlen_nonneg name).
  rewrite (slice_app' [f; zlen name] name (tm ++ c)) by (change (zlen [f; zlen name]) with 2; lia).
  replace ([f; zlen name] ++ name ++ tm ++ c) with (([f; zlen name] ++ name) ++ tm ++ c) by now rewrite <- app_assoc.
  replace (2 + zlen name) with (zlen ([f; zlen name] ++ name)) by (rewrite zlen_app; change (zlen [f; zlen name]) with 2; lia).
  unfold long_to_int. rewrite (bytes_to_int_spec _ tm c 4) by lia. cbn [bind]. rewrite Et.
  replace (([f; zlen name] ++ name) ++ tm ++ c) with ((([f; zlen name] ++ name) ++ tm) ++ c) by now rewrite <- app_assoc.
  replace (zlen ([f; zlen name] ++ name) + 4) with (zlen (([f; zlen name] ++ name) ++ tm)) by (rewrite (zlen_app _ tm); lia). rewrite slice_from_app. reflexivity.
Qed.
Lemma literal_write f name t d c : literal_bytes f d = Some c -> (match d with LText s => Forall scalar s /\ (f = 116 -> wf s) | LBytes b => wf b end) ->
  Forall scalar name -> zlen (utf8 name) = zlen name -> zlen name <= 255 -> 0 <= t < 2 ^ 32 ->
  exists enc, data_content (PLiteral f name (TDate t) d) = Ok enc /\ rfc_literal f (utf8 name) t c enc /\ data_from 11 enc = Ok (PLiteral f name (TInt t) d).
Proof.
  intros Hc Hd Hn Ha Hl Ht. pose proof (int_4_spec t Ht) as E4. clear Ht. set (tm := int_to_4byte t) in E4. pose proof (zlen_nonneg name).
  assert (Hfm : ((f =? 108) || (f =? 49) || (f =? 98) || (f =? 116) || (f =? 117)) = true).
  { unfold literal_bytes in Hc. destruct d; [destruct ((f =? 108) || (f =? 49) || (f =? 98)) eqn:E; [lia|discriminate]|]. destruct (f =? 116) eqn:?; [lia|]. destruct (f =? 117) eqn:?; [lia|discriminate]. }
  assert (Wc : wf c). { unfold literal_bytes in Hc. destruct d as [b|s]; [destruct (_ || _) in Hc; [injection Hc as <-; exact Hd|discriminate]|]. destruct (f =? 116) eqn:?; [injection Hc as <-; apply Hd; lia|]. destruct (f =? 117); [injection Hc as <-; apply utf8_wf, Hd|discriminate]. }
  assert (R : rfc_literal f (utf8 name) t c ([f] ++ [zlen name] ++ utf8 name ++ tm ++ c)). { destruct E4 as (E1 & E2 & E3). exists tm. rewrite Ha. split; [reflexivity|]. split; [exact E2|]. split; [exact E1|exact E3]. }
  exists ([f] ++ [zlen name] ++ utf8 name ++ tm ++ c). split; [|split; [exact R|]].
  - cbn [data_content]. unfold literal_content. fold tm. clearbody tm. rewrite Hfm. cbn [negb]. rewrite mk_bytes_wf by (repeat constructor; unfold byte; lia). cbn [bind]. rewrite encode_scalar by easy.
    replace (if f =? 116 then _ else _) with (@Ok bytes c); [reflexivity|]. unfold literal_bytes in Hc. destruct d as [b|s].
    + destruct (_ || _) eqn:E in Hc; [|discriminate]. injection Hc as <-. replace (f =? 116) with false by lia. now replace (f =? 117) with false by lia.
    + destruct (f =? 116) eqn:?. { injection Hc as <-. f_equal. destruct Hd as [_ Hd]. specialize (Hd ltac:(lia)). clear -Hd. induction Hd as [|x s Hx _ IH]; [reflexivity|]. unfold byte in Hx. unfold latin1_encode_replace in *. cbn [map]. rewrite <- IH. now replace (x <? 256) with true by lia. }
      destruct (f =? 117) eqn:?; [|discriminate]. injection Hc as <-. f_equal. symmetry. now apply encode_scalar.
  - clearbody tm. change (data_from 11) with literal_from. assert (Bf : byte f) by (unfold byte; lia). rewrite (literal_parse f (utf8 name) t c _ Bf (utf8_wf _ Hn) ltac:(lia) Wc R). rewrite decode_replace_utf8 by easy.
    unfold literal_bytes in Hc. destruct d as [b|s].
    + destruct (_ || _) eqn:E in Hc; [|discriminate]. injection Hc as <-. replace (f =? 116) with false by lia. now replace (f =? 117) with false by lia.
    + destruct (f =? 116) eqn:?; [now injection Hc as <-|]. destruct (f =? 117) eqn:?; [|discriminate]. injection Hc as <-. now rewrite decode_utf8 by easy.
Qed.
