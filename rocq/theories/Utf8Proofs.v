From Verif Require Import Base BaseProofs Text Utf8 SpecUtf8.
Lemma psi {A B} (a c : A) (m n : B) : (Some a, m) = (Some c, n) -> a = c /\ m = n. Proof. intros H. inversion H. now split. Qed.
Lemma enc1_rfc c : 0 <= c -> utf8_enc1 c = rfc3629 c.
Proof.
  intros H. unfold utf8_enc1, rfc3629. rewrite !Z.shiftr_div_pow2 by lia. change 63 with (Z.ones 6). rewrite !Z.land_ones by lia.
  change (2 ^ 6) with 64. change (2 ^ 12) with 4096. change (2 ^ 18) with 262144.
  replace (c <? 128) with (c <=? 127) by lia. replace (c <? 2048) with (c <=? 2047) by lia. replace (c <? 65536) with (c <=? 65535) by lia. reflexivity.
Qed.
Lemma rfc_len c : (1 <= length (rfc3629 c) <= 4)%nat.
Proof. unfold rfc3629. repeat destruct (_ <=? _); cbn [length]; lia. Qed.
Lemma rfc_wf c : scalar c -> wf (rfc3629 c).
Proof.
  intros [H _]. unfold rfc3629. destruct (c <=? 127) eqn:?; [|destruct (c <=? 2047) eqn:?; [|destruct (c <=? 65535) eqn:?]];
  repeat constructor; lia.
Qed.
Lemma next_rfc c t : scalar c -> utf8_next (rfc3629 c ++ t) = (Some c, length (rfc3629 c)).
Proof.
  intros [H Hs]. unfold rfc3629. destruct (c <=? 127) eqn:E1; [|destruct (c <=? 2047) eqn:E2; [|destruct (c <=? 65535) eqn:E3]]; cbn [app length utf8_next]; unfold cont, second_ok.
  - now replace (c <? 128) with true by lia.
  - replace (192 + c / 64 <? 128) with false by lia. replace (192 + c / 64 <? 194) with false by lia. replace (192 + c / 64 <? 224) with true by lia.
    replace ((128 <=? 128 + c mod 64) && (128 + c mod 64 <? 192)) with true by lia. do 2 f_equal. lia.
  - replace (224 + c / 4096 <? 128) with false by lia. replace (224 + c / 4096 <? 194) with false by lia. replace (224 + c / 4096 <? 224) with false by lia. replace (224 + c / 4096 <? 240) with true by lia.
    match goal with |- context [if ?b then match _ with _ => _ end else _] => replace b with true end.
    2:{ symmetry. destruct (224 + c / 4096 =? 224) eqn:?; [|destruct (224 + c / 4096 =? 240) eqn:?]; (destruct (224 + c / 4096 =? 237) eqn:?; [|destruct (224 + c / 4096 =? 244) eqn:?]); lia. }
    replace ((128 <=? 128 + c mod 64) && (128 + c mod 64 <? 192)) with true by lia. do 2 f_equal. lia.
  - replace (240 + c / 262144 <? 128) with false by lia. replace (240 + c / 262144 <? 194) with false by lia. replace (240 + c / 262144 <? 224) with false by lia. replace (240 + c / 262144 <? 240) with false by lia. replace (240 + c / 262144 <? 245) with true by lia.
    match goal with |- context [if ?b then match _ with _ => _ end else _] => replace b with true end.
    2:{ symmetry. destruct (240 + c / 262144 =? 224) eqn:?; [|destruct (240 + c / 262144 =? 240) eqn:?]; (destruct (240 + c / 262144 =? 237) eqn:?; [|destruct (240 + c / 262144 =? 244) eqn:?]); lia. }
    replace ((128 <=? 128 + (c / 64) mod 64) && (128 + (c / 64) mod 64 <? 192)) with true by lia.
    replace ((128 <=? 128 + c mod 64) && (128 + c mod 64 <? 192)) with true by lia. do 2 f_equal. lia.
Qed.
Lemma next_scalar l c n : wf l -> utf8_next l = (Some c, n) -> scalar c.
Proof.
  intros W. destruct l as [|b t]; [discriminate|]. apply wf_cons in W as [Hb W]. unfold byte in Hb. cbn [utf8_next]. 
  destruct (b <? 128) eqn:?; [intros [<- <-]%psi; unfold scalar; lia|]. destruct (b <? 194) eqn:?; [discriminate|].
  destruct (b <? 224) eqn:?. { destruct t as [|c1 t]; [discriminate|]. destruct (cont c1) eqn:?; [|discriminate]. intros [<- <-]%psi. unfold cont, second_ok, scalar in *. lia. }
  destruct (b <? 240) eqn:?.
  { destruct t as [|c1 t]; [discriminate|]. destruct (second_ok b c1) eqn:E; [|discriminate]. destruct t as [|c2 t]; [discriminate|]. destruct (cont c2) eqn:?; [|discriminate]. intros [<- <-]%psi. unfold cont, second_ok, scalar in *.
    revert E. destruct (b =? 224) eqn:?; destruct (b =? 240) eqn:?; destruct (b =? 237) eqn:?; destruct (b =? 244) eqn:?; lia. }
  destruct (b <? 245) eqn:?; [|discriminate].
  destruct t as [|c1 t]; [discriminate|]. destruct (second_ok b c1) eqn:E; [|discriminate]. destruct t as [|c2 t]; [discriminate|]. destruct (cont c2) eqn:?; [|discriminate].
  destruct t as [|c3 t]; [discriminate|]. destruct (cont c3) eqn:?; [|discriminate]. intros [<- <-]%psi. unfold cont, second_ok, scalar in *.
  revert E. destruct (b =? 224) eqn:?; destruct (b =? 240) eqn:?; destruct (b =? 237) eqn:?; destruct (b =? 244) eqn:?; lia.
Qed.
Lemma items_utf8 s : Forall scalar s -> forall fuel, (length (utf8 s) <= fuel)%nat -> utf8_items fuel (utf8 s) = map Some s.
Proof.
  induction 1 as [|c s Hc Hs IH]; intros fuel Hf; unfold utf8 in *; cbn [map concat] in *.
  - destruct fuel; reflexivity.
  - pose proof (rfc_len c). rewrite app_length in Hf. destruct fuel as [|fuel]; [lia|].
    pose proof (next_rfc c (concat (map rfc3629 s)) Hc) as N. destruct (rfc3629 c) as [|b r] eqn:Er; [cbn [length] in *; lia|]. cbn [app] in *.
    cbn [utf8_items]. rewrite N. f_equal. cbn [length skipn] in *.
    rewrite skipn_app, skipn_all, Nat.sub_diag. cbn [app skipn]. apply IH. lia.
Qed.
Lemma skipn_wf n (l : bytes) : wf l -> wf (skipn n l).
Proof. intros H. rewrite <- (firstn_skipn n l) in H. now apply wf_app in H. Qed.
Lemma items_scalar fuel : forall l, wf l -> Forall (fun o => forall c, o = Some c -> scalar c) (utf8_items fuel l).
Proof.
  induction fuel as [|f IH]; intros l W; [constructor|]. cbn [utf8_items]. destruct l as [|b t]; [constructor|].
  destruct (utf8_next (b :: t)) as [o n] eqn:E. constructor; [|apply IH, skipn_wf, W]. intros c ->. eapply next_scalar; eauto.
Qed.
Lemma decode_replace_scalar l : wf l -> Forall scalar (utf8_decode_replace l).
Proof.
  intros W. unfold utf8_decode_replace, items. pose proof (items_scalar (length l) l W) as H. induction H as [|o r Ho _ IH]; [constructor|]. cbn [map]. constructor; [|exact IH].
  destruct o as [c|]; [now apply Ho|]. unfold scalar. lia.
Qed.
Lemma encode_scalar s : Forall scalar s -> utf8_encode_replace s = utf8 s.
Proof.
  induction 1 as [|c s [Hc Hn] _ IH]; [reflexivity|]. unfold utf8_encode_replace, utf8 in *. cbn [flat_map map concat]. rewrite IH. f_equal.
  unfold is_surrogate. replace ((55296 <=? c) && (c <=? 57343)) with false by lia. apply enc1_rfc. lia.
Qed.
Lemma encode_strict_scalar s : Forall scalar s -> utf8_encode s = Ok (utf8 s).
Proof.
  intros H. unfold utf8_encode. replace (existsb is_surrogate s) with false.
  - f_equal. induction H as [|c s [Hc Hn] _ IH]; [reflexivity|]. unfold utf8 in *. cbn [flat_map map concat]. rewrite IH. f_equal. apply enc1_rfc. lia.
  - symmetry. induction H as [|c s [Hc Hn] _ IH]; [reflexivity|]. cbn [existsb]. rewrite IH. unfold is_surrogate. lia.
Qed.
Lemma decode_replace_utf8 s : Forall scalar s -> utf8_decode_replace (utf8 s) = s.
Proof. intros H. unfold utf8_decode_replace, items. rewrite items_utf8 by (easy || lia). rewrite map_map. apply map_id. Qed.
Lemma decode_utf8 s : Forall scalar s -> utf8_decode (utf8 s) = Ok s.
Proof. intros H. unfold utf8_decode, items. rewrite items_utf8 by (easy || lia). clear H. induction s as [|c s IH]; [reflexivity|]. cbn [map mapM bind]. rewrite IH. reflexivity. Qed.
Lemma utf8_inj a b : Forall scalar a -> Forall scalar b -> utf8 a = utf8 b -> a = b.
Proof. intros Ha Hb H. rewrite <- (decode_replace_utf8 a), <- (decode_replace_utf8 b) by easy. now rewrite H. Qed.
Lemma utf8_wf s : Forall scalar s -> wf (utf8 s).
Proof. induction 1; unfold utf8 in *; cbn [map concat]; [constructor|]. apply wf_app. split; [now apply rfc_wf|easy]. Qed.
Lemma utf8_app a b : utf8 (a ++ b) = utf8 a ++ utf8 b.
Proof. unfold utf8. now rewrite map_app, concat_app. Qed.
(** decoding with replacement and encoding again gives back exactly the well-formed strings *)
Lemma reencode_iff b : wf b -> utf8_encode_replace (utf8_decode_replace b) = b <-> valid_utf8 b.
Proof.
  intros W. pose proof (decode_replace_scalar b W) as S. split.
  - intros H. exists (utf8_decode_replace b). split; [easy|]. rewrite <- (encode_scalar _ S). easy.
  - intros (s & Hs & ->). rewrite decode_replace_utf8 by easy. now apply encode_scalar.
Qed.
(** one step covers at least one octet, and a code point's step covers exactly its octets *)
Lemma next_some l c n : wf l -> utf8_next l = (Some c, n) -> rfc3629 c = firstn n l /\ n = length (rfc3629 c).
Proof.
  intros W. destruct l as [|b t]; [discriminate|]. apply wf_cons in W as [Hb W]. unfold byte in Hb. cbn [utf8_next].
  destruct (b <? 128) eqn:?. { intros [<- <-]%psi. unfold cont, second_ok, scalar in *. unfold rfc3629. replace (b <=? 127) with true by lia. cbn. easy. } destruct (b <? 194) eqn:?; [discriminate|].
  destruct (b <? 224) eqn:?.
  { destruct t as [|c1 t]; [discriminate|]. destruct (cont c1) eqn:?; [|discriminate]. intros [<- <-]%psi. unfold cont, second_ok, scalar in *. set (x := (b - 192) * 64 + (c1 - 128)).
    unfold rfc3629. replace (x <=? 127) with false by lia. replace (x <=? 2047) with true by lia. cbn [firstn length]. split; [|easy]. unfold x. repeat f_equal; lia. }
  destruct (b <? 240) eqn:?.
  { destruct t as [|c1 t]; [discriminate|]. destruct (second_ok b c1) eqn:E; [|discriminate]. destruct t as [|c2 t]; [discriminate|]. destruct (cont c2) eqn:?; [|discriminate]. intros [<- <-]%psi. unfold cont, second_ok, scalar in *.
    set (x := (b - 224) * 4096 + (c1 - 128) * 64 + (c2 - 128)).
    assert (2048 <= x <= 65535 /\ 128 <= c1 < 192) as [Hx Hc1]. { revert E. destruct (b =? 224) eqn:?; destruct (b =? 240) eqn:?; destruct (b =? 237) eqn:?; destruct (b =? 244) eqn:?; lia. }
    unfold rfc3629. replace (x <=? 127) with false by lia. replace (x <=? 2047) with false by lia. replace (x <=? 65535) with true by lia. cbn [firstn length]. split; [|easy]. clear E. unfold x. repeat f_equal; lia. }
  destruct (b <? 245) eqn:?; [|discriminate].
  destruct t as [|c1 t]; [discriminate|]. destruct (second_ok b c1) eqn:E; [|discriminate]. destruct t as [|c2 t]; [discriminate|]. destruct (cont c2) eqn:?; [|discriminate].
  destruct t as [|c3 t]; [discriminate|]. destruct (cont c3) eqn:?; [|discriminate]. intros [<- <-]%psi. unfold cont, second_ok, scalar in *.
  set (x := (b - 240) * 262144 + (c1 - 128) * 4096 + (c2 - 128) * 64 + (c3 - 128)).
  assert (65536 <= x <= 1114111 /\ 128 <= c1 < 192) as [Hx Hc1]. { revert E. destruct (b =? 224) eqn:?; destruct (b =? 240) eqn:?; destruct (b =? 237) eqn:?; destruct (b =? 244) eqn:?; lia. }
  unfold rfc3629. replace (x <=? 127) with false by lia. replace (x <=? 2047) with false by lia. replace (x <=? 65535) with false by lia. cbn [firstn length]. split; [|easy]. clear E. unfold x. repeat f_equal; lia.
Qed.
(** strict decoding accepts exactly the well-formed strings *)
Lemma decode_ok_inv b s : wf b -> utf8_decode b = Ok s -> Forall scalar s /\ b = utf8 s.
Proof.
  unfold utf8_decode, items. intros W. assert (Hl : (length b <= length b)%nat) by lia. revert Hl. generalize (length b) at 2 3 as f. intros f. revert b s W.
  induction f as [|f IH]; intros b s W Hl H.
  - destruct b; [|cbn [length] in Hl; lia]. cbn in H. injection H as <-. split; [constructor|reflexivity].
  - destruct b as [|x t]; [cbn in H; injection H as <-; split; [constructor|reflexivity]|]. cbn [utf8_items] in H. destruct (utf8_next (x :: t)) as [o n] eqn:En.
    cbn [mapM] in H. destruct o as [c|]; [|discriminate]. cbn [bind] in H. apply bind_ok in H as (s' & H & H'). injection H' as <-.
    destruct (next_some (x :: t) c n W En) as [R1 R2]. pose proof (next_scalar (x :: t) c n W En) as Sc. pose proof (rfc_len c) as Lc.
    apply IH in H as [F E]; [|now apply skipn_wf|rewrite skipn_length; cbn [length] in *; lia].
    split; [now constructor|]. unfold utf8 in *. cbn [map concat]. rewrite R1, <- E. symmetry. apply firstn_skipn.
Qed.
