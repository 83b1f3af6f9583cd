From Verif Require Import Base.

Lemma zlen_nonneg {A} (l : list A) : 0 <= zlen l. Proof. unfold zlen; lia. Qed.
Lemma zlen_app {A} (a b : list A) : zlen (a ++ b) = zlen a + zlen b.
Proof. unfold zlen; rewrite app_length; lia. Qed.
Lemma zlen_cons {A} (x : A) l : zlen (x :: l) = 1 + zlen l.
Proof. unfold zlen; cbn [length]; lia. Qed.
Lemma zlen_nil {A} : zlen (@nil A) = 0. Proof. reflexivity. Qed.
Lemma zlen_map {A B} (f : A -> B) l : zlen (map f l) = zlen l.
Proof. unfold zlen; now rewrite map_length. Qed.
Lemma zlen_repeat {A} (a : A) n : zlen (repeat a n) = Z.of_nat n.
Proof. unfold zlen; now rewrite repeat_length. Qed.
Lemma zlen_rev {A} (l : list A) : zlen (rev l) = zlen l.
Proof. unfold zlen; now rewrite rev_length. Qed.
Lemma zlen_0 {A} (l : list A) : zlen l = 0 -> l = [].
Proof. destruct l; [easy|]. rewrite zlen_cons. pose proof (zlen_nonneg l). lia. Qed.

Lemma to_nat_zlen {A} (l : list A) : Z.to_nat (zlen l) = length l.
Proof. unfold zlen; lia. Qed.

Lemma get_nonneg {A} (l : list A) i : 0 <= i ->
  get l i = match nth_error l (Z.to_nat i) with Some a => Ok a | None => Err IndexError end.
Proof.
  intros Hi. unfold get. destruct (i <? 0) eqn:E; [lia|]. cbv zeta. rewrite E. cbn [orb].
  destruct (zlen l <=? i) eqn:E2; [|reflexivity].
  destruct (nth_error l (Z.to_nat i)) eqn:En; [|reflexivity].
  assert (Z.to_nat i < length l)%nat by (apply nth_error_Some; congruence). unfold zlen in *; lia.
Qed.
Lemma get_nth {A} (l : list A) i a :
  0 <= i -> nth_error l (Z.to_nat i) = Some a -> get l i = Ok a.
Proof. intros Hi H. rewrite get_nonneg by easy. now rewrite H. Qed.
Lemma get_app_r {A} (pre l : list A) i :
  0 <= i -> get (pre ++ l) (zlen pre + i) = get l i.
Proof.
  intros Hi. pose proof (zlen_nonneg pre). rewrite !get_nonneg by lia.
  rewrite nth_error_app2 by (unfold zlen in *; lia).
  now replace (Z.to_nat (zlen pre + i) - length pre)%nat with (Z.to_nat i) by (unfold zlen in *; lia).
Qed.
Lemma get_app_0 {A} (pre l : list A) x : get (pre ++ x :: l) (zlen pre) = Ok x.
Proof. rewrite <- (Z.add_0_r (zlen pre)), get_app_r by lia. rewrite get_nonneg by lia. reflexivity. Qed.
Lemma get_app_l {A} (l suf : list A) i a : 0 <= i -> get l i = Ok a -> get (l ++ suf) i = Ok a.
Proof.
  intros Hi. rewrite !get_nonneg by easy.
  destruct (nth_error l (Z.to_nat i)) eqn:En; [|discriminate].
  intros [= <-]. rewrite nth_error_app1; [now rewrite En|].
  apply nth_error_Some. congruence.
Qed.
Lemma get_cons_0 {A} (x : A) l : get (x :: l) 0 = Ok x. Proof. now rewrite get_nonneg. Qed.
Lemma get_cons_S {A} (x : A) l i : 0 < i -> get (x :: l) i = get l (i - 1).
Proof.
  intros. change (x :: l) with ([x] ++ l).
  rewrite <- (get_app_r [x] l (i - 1)) by lia. f_equal. unfold zlen; cbn [length]; lia.
Qed.
Lemma get_ok_lt {A} (l : list A) i a : 0 <= i -> get l i = Ok a -> i < zlen l.
Proof.
  intros Hi. rewrite get_nonneg by easy.
  destruct (nth_error l (Z.to_nat i)) eqn:En; [|discriminate]. intros _.
  assert (Z.to_nat i < length l)%nat by (apply nth_error_Some; congruence). unfold zlen; lia.
Qed.
Lemma get_lt_ok {A} (l : list A) i : 0 <= i < zlen l -> exists a, get l i = Ok a.
Proof.
  intros Hi. rewrite get_nonneg by easy.
  destruct (nth_error l (Z.to_nat i)) eqn:En; [eauto|].
  apply nth_error_None in En. unfold zlen in *; lia.
Qed.
Lemma get_ge_err {A} (l : list A) i : zlen l <= i -> get l i = Err IndexError.
Proof.
  intros Hi. pose proof (zlen_nonneg l). rewrite get_nonneg by lia.
  destruct (nth_error l (Z.to_nat i)) eqn:En; [|reflexivity].
  assert (Z.to_nat i < length l)%nat by (apply nth_error_Some; congruence). unfold zlen in *; lia.
Qed.
Lemma get_err {A} (l : list A) i e : get l i = Err e -> e = IndexError.
Proof.
  unfold get. cbv zeta. set (j := if i <? 0 then i + zlen l else i). intros H.
  destruct (_ || _) in H; [congruence|]. destruct (nth_error _ _) in H; congruence.
Qed.
Lemma get_byte l i b : wf l -> get l i = Ok b -> byte b.
Proof.
  unfold get, wf. cbv zeta. set (j := if i <? 0 then i + zlen l else i). intros H.
  destruct (_ || _); [discriminate|].
  destruct (nth_error _ _) eqn:En; [|discriminate]. intros [= <-].
  apply nth_error_In in En. rewrite Forall_forall in H. auto.
Qed.

Lemma clip_in n i : 0 <= i <= n -> clip n i = i.
Proof. unfold clip. destruct (i <? 0) eqn:E; lia. Qed.
Lemma clip_hi n i : 0 <= n <= i -> clip n i = n.
Proof. unfold clip. destruct (i <? 0) eqn:E; lia. Qed.

Lemma slice_app {A} (pre l suf : list A) :
  slice (pre ++ l ++ suf) (zlen pre) (zlen pre + zlen l) = l.
Proof.
  unfold slice. rewrite !zlen_app.
  pose proof (zlen_nonneg pre); pose proof (zlen_nonneg l); pose proof (zlen_nonneg suf).
  rewrite !clip_in by lia.
  rewrite to_nat_zlen, skipn_app, Nat.sub_diag, skipn_all, skipn_O. cbn [app].
  replace (Z.to_nat _) with (length l) by (unfold zlen; lia).
  now rewrite firstn_app, firstn_all, Nat.sub_diag, app_nil_r.
Qed.
Lemma slice_app' {A} (pre l suf : list A) i j :
  i = zlen pre -> j = zlen pre + zlen l -> slice (pre ++ l ++ suf) i j = l.
Proof. intros -> ->. apply slice_app. Qed.
Lemma slice_app_end {A} (pre l : list A) i j :
  i = zlen pre -> zlen pre + zlen l <= j -> slice (pre ++ l) i j = l.
Proof.
  intros -> Hj. unfold slice. rewrite !zlen_app.
  pose proof (zlen_nonneg pre); pose proof (zlen_nonneg l).
  rewrite (clip_in _ (zlen pre)) by lia. rewrite clip_hi by lia.
  rewrite to_nat_zlen, skipn_app, Nat.sub_diag, skipn_all, skipn_O. cbn [app].
  replace (Z.to_nat _) with (length l) by (unfold zlen; lia). apply firstn_all.
Qed.
Lemma slice_full {A} (l : list A) : slice l 0 (zlen l) = l.
Proof. assert (H := slice_app_end [] l 0 (zlen l)). apply H; unfold zlen; cbn [length]; lia. Qed.
Lemma slice_from_app {A} (pre l : list A) : slice_from (pre ++ l) (zlen pre) = l.
Proof.
  unfold slice_from. rewrite zlen_app, clip_in by (pose proof (zlen_nonneg pre); pose proof (zlen_nonneg l); lia).
  now rewrite to_nat_zlen, skipn_app, Nat.sub_diag, skipn_all, skipn_O.
Qed.
Lemma slice_len {A} (l : list A) i j :
  0 <= i -> i <= j -> zlen (slice l i j) = Z.max 0 (Z.min j (zlen l) - i).
Proof.
  intros Hi Hj. unfold slice. pose proof (zlen_nonneg l).
  unfold zlen at 1. rewrite firstn_length, skipn_length.
  unfold clip. destruct (i <? 0) eqn:?, (j <? 0) eqn:?; try lia. all: unfold zlen in *; lia.
Qed.
Lemma slice_wf l i j : wf l -> wf (slice l i j).
Proof.
  unfold wf, slice. rewrite !Forall_forall. intros H x Hx. apply H.
  rewrite <- (firstn_skipn (Z.to_nat (clip (zlen l) i)) l). apply in_or_app. right.
  rewrite <- (firstn_skipn (Z.to_nat (clip (zlen l) j - clip (zlen l) i)) (skipn _ l)).
  apply in_or_app. now left.
Qed.

Lemma byteb_spec b : byteb b = true <-> byte b.
Proof. unfold byteb, byte. lia. Qed.
Lemma wfb_spec l : wfb l = true <-> wf l.
Proof.
  unfold wfb, wf. rewrite forallb_forall, Forall_forall.
  split; intros H x Hx; apply byteb_spec; auto.
Qed.
Lemma mk_bytes_wf l : wf l -> mk_bytes l = Ok l.
Proof. unfold mk_bytes. intros H. apply wfb_spec in H. now rewrite H. Qed.
Lemma mk_bytes_inv l l' : mk_bytes l = Ok l' -> l' = l /\ wf l.
Proof. unfold mk_bytes. destruct (wfb l) eqn:E; [|discriminate]. intros [= <-]. split; [easy|now apply wfb_spec]. Qed.

Lemma wf_app a b : wf (a ++ b) <-> wf a /\ wf b.
Proof. unfold wf. apply Forall_app. Qed.
Lemma wf_cons x l : wf (x :: l) <-> byte x /\ wf l.
Proof. unfold wf. apply Forall_cons_iff. Qed.
Lemma wf_nil : wf []. Proof. constructor. Qed.
Lemma wf_zeros n : wf (repeat 0 n).
Proof. unfold wf. apply Forall_forall. intros x Hx. apply repeat_spec in Hx. subst; unfold byte; lia. Qed.
Global Hint Resolve wf_nil wf_zeros : core.

Lemma zlist_eqb_spec a b : zlist_eqb a b = true <-> a = b.
Proof.
  revert b; induction a as [|x a IH]; intros [|y b]; cbn; try easy.
  rewrite andb_true_iff, Z.eqb_eq, IH. split; [intros [-> ->]; easy | intros [= -> ->]; easy].
Qed.
Lemma zlist_eqb_refl a : zlist_eqb a a = true.
Proof. now apply zlist_eqb_spec. Qed.
Lemma zlist_eqb_neq a b : a <> b -> zlist_eqb a b = false.
Proof. intros H. destruct (zlist_eqb a b) eqn:E; [|easy]. now apply zlist_eqb_spec in E. Qed.

Lemma bind_ok {A B} (m : res A) (k : A -> res B) b :
  bind m k = Ok b -> exists a, m = Ok a /\ k a = Ok b.
Proof. destruct m; cbn; [eauto|discriminate]. Qed.

Lemma mapM_ok_map {A B} (f : A -> res B) (g : A -> B) l :
  (forall a, In a l -> f a = Ok (g a)) -> mapM f l = Ok (map g l).
Proof.
  induction l as [|a l IH]; intros H; [reflexivity|]. cbn.
  rewrite H by now left. cbn. rewrite IH; [reflexivity|]. intros; apply H; now right.
Qed.
Lemma mapM_length {A B} (f : A -> res B) l r : mapM f l = Ok r -> length r = length l.
Proof.
  revert r; induction l as [|a l IH]; cbn; intros r H; [now injection H as <-|].
  apply bind_ok in H as (b & _ & H). apply bind_ok in H as (bs & Hbs & H). injection H as <-.
  cbn. f_equal. auto.
Qed.

Lemma zrange_len n : 0 <= n -> zlen (zrange n) = n.
Proof. intros. unfold zrange. rewrite zlen_map. unfold zlen. rewrite seq_length. lia. Qed.

(** invert a chain of [do]s *)
Ltac inv_do H :=
  repeat match type of H with
  | bind ?m ?k = Ok _ =>
      let a := fresh "a" in let Ha := fresh "Ha" in
      apply bind_ok in H as (a & Ha & H)
  end.

Lemma ok2 {A B} (a a' : A) (b b' : B) : a = a' -> b = b' -> Ok (a, b) = Ok (a', b').
Proof. now intros -> ->. Qed.
Lemma ok3 {A B C} (a a' : A) (b b' : B) (c c' : C) : a = a' -> b = b' -> c = c' -> Ok (a, b, c) = Ok (a', b', c').
Proof. now intros -> -> ->. Qed.

(** case split on the condition of the first [if] of the goal *)
Ltac dif := match goal with |- context [if ?b then _ else _] => let E := fresh "E" in destruct b eqn:E end.
(** same, discarding arithmetically impossible cases *)
Ltac difl := dif; [try lia | try lia].

Lemma zlen_1 {A} (l : list A) : zlen l = 1 -> exists b, l = [b].
Proof.
  destruct l as [|b [|c l]]; intros H; [discriminate|eauto|].
  rewrite !zlen_cons in H. pose proof (zlen_nonneg l). lia.
Qed.
Lemma zlen_2 {A} (l : list A) : zlen l = 2 -> exists a b, l = [a; b].
Proof.
  destruct l as [|a l]; intros H; [discriminate|]. rewrite zlen_cons in H.
  destruct (zlen_1 l ltac:(lia)) as (b & ->). eauto.
Qed.

Lemma slice_firstn_skipn {A} (l : list A) i j : 0 <= i <= j -> slice l i j = firstn (Z.to_nat (j - i)) (skipn (Z.to_nat i) l).
Proof.
  intros H. unfold slice, clip. destruct (i <? 0) eqn:?, (j <? 0) eqn:?; try lia.
  destruct (Z.le_gt_cases i (zlen l)) as [Hi|Hi].
  - rewrite (Z.min_l i) by lia. destruct (Z.le_gt_cases j (zlen l)) as [Hj|Hj].
    + now rewrite Z.min_l by lia.
    + rewrite Z.min_r by lia. rewrite !firstn_all2; [reflexivity| |]; rewrite skipn_length; unfold zlen in *; lia.
  - rewrite !skipn_all2 by (unfold zlen in *; lia). now rewrite !firstn_nil.
Qed.
Lemma skipn_skipn {A} n m (l : list A) : skipn n (skipn m l) = skipn (n + m) l.
Proof.
  revert l; induction m as [|m IH]; intros l; [now rewrite Nat.add_0_r|]. rewrite Nat.add_succ_r.
  destruct l as [|x l]; [now rewrite !skipn_nil|]. cbn [skipn]. apply IH.
Qed.
Lemma nth_error_skipn' {A} n m (l : list A) : nth_error (skipn n l) m = nth_error l (n + m).
Proof. revert l; induction n as [|n IH]; intros [|x l]; cbn; try easy. now destruct m. Qed.

Lemma firstn_plus {A} n m (l : list A) : firstn (n + m) l = firstn n l ++ firstn m (skipn n l).
Proof. revert l; induction n as [|n IH]; intros [|x l]; cbn; try easy; [now rewrite firstn_nil|now rewrite IH]. Qed.
Lemma slice_cat {A} (l : list A) i j k : 0 <= i <= j -> j <= k -> slice l i k = slice l i j ++ slice l j k.
Proof.
  intros Hi Hk. rewrite !slice_firstn_skipn by lia.
  replace (Z.to_nat (k - i)) with (Z.to_nat (j - i) + Z.to_nat (k - j))%nat by lia.
  rewrite firstn_plus, skipn_skipn. do 3 f_equal. lia.
Qed.
Lemma slice_one {A} (l : list A) i a : 0 <= i -> get l i = Ok a -> slice l i (i + 1) = [a].
Proof.
  intros Hi Hg. rewrite get_nonneg in Hg by lia. rewrite slice_firstn_skipn by lia.
  destruct (nth_error l (Z.to_nat i)) as [x|] eqn:En; [|discriminate]. injection Hg as ->.
  replace (Z.to_nat (i + 1 - i)) with 1%nat by lia.
  rewrite <- (Nat.add_0_r (Z.to_nat i)), <- nth_error_skipn' in En.
  destruct (skipn (Z.to_nat i) l); [discriminate|]. cbn in *. congruence.
Qed.
Lemma slice_cons_get {A} (l : list A) i j a : 0 <= i < j -> get l i = Ok a -> slice l i j = a :: slice l (i + 1) j.
Proof. intros Hi Hg. rewrite (slice_cat l i (i + 1) j) by lia. now rewrite (slice_one l i a). Qed.
Lemma slice_nil {A} (l : list A) i : 0 <= i -> slice l i i = [].
Proof. intros. rewrite slice_firstn_skipn by lia. replace (i - i) with 0 by lia. reflexivity. Qed.
