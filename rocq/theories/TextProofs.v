From Verif Require Import Base BaseProofs Text SpecArmor.

Lemma no_break_app a b : no_break (a ++ b) <-> no_break a /\ no_break b.
Proof. apply Forall_app. Qed.

Lemma splitlines_acc_line acc l rest : no_break l ->
  splitlines_acc acc (l ++ [10] ++ rest) = (rev acc ++ l) :: splitlines_acc [] rest.
Proof.
  intros H. revert acc; induction H as [|c l Hc Hl IH]; intros acc.
  - cbn [app splitlines_acc]. change (is_linebreak 10) with true. cbv iota. rewrite app_nil_r.
    destruct rest; reflexivity.
  - cbn [app splitlines_acc]. rewrite Hc. change (l ++ 10 :: rest) with (l ++ [10] ++ rest).
    rewrite IH. cbn [rev]. now rewrite <- app_assoc.
Qed.
Lemma join_cons sep p ps : ps <> [] -> join sep (p :: ps) = p ++ sep ++ join sep ps.
Proof. destruct ps; easy. Qed.
Lemma splitlines_join lines : Forall no_break lines -> lines <> [] ->
  splitlines (join NL lines ++ NL) = lines.
Proof.
  intros H. induction H as [|l ls Hl Hls IH]; [easy|]. intros _. unfold splitlines.
  destruct ls as [|l2 ls].
  - cbn [join]. change (l ++ NL) with (l ++ [10] ++ []). now rewrite splitlines_acc_line.
  - rewrite join_cons by easy. rewrite <- !app_assoc. change NL with [10] at 1. rewrite splitlines_acc_line by easy.
    cbn [rev app]. f_equal. apply IH. easy.
Qed.

Lemma strip_prefix_app p l : strip_prefix p (p ++ l) = Some l.
Proof. induction p; cbn; [easy|]. now rewrite Z.eqb_refl. Qed.
Lemma strip_prefix_some p l r : strip_prefix p l = Some r -> l = p ++ r.
Proof.
  revert l; induction p as [|x p IH]; intros l H; [cbn in H; now injection H|].
  destruct l as [|y l]; [discriminate|]. cbn in H. destruct (x =? y) eqn:E; [|discriminate].
  apply Z.eqb_eq in E. subst. cbn. f_equal. now apply IH.
Qed.
Lemma strip_prefix_none p l : strip_prefix p l = None -> forall r, l <> p ++ r.
Proof. intros H r ->. now rewrite strip_prefix_app in H. Qed.

Lemma split_once_some sep l k v : sep <> [] -> split_once sep l = Some (k, v) ->
  l = k ++ sep ++ v /\ (forall a b, k ++ removelast sep <> a ++ sep ++ b).
Proof.
  intros Hs. revert k v; induction l as [|c l IH]; intros k v H.
  - unfold split_once in H. destruct (strip_prefix sep []) as [r|] eqn:E; [|discriminate].
    apply strip_prefix_some in E. destruct sep; easy.
  - cbn [split_once] in H. destruct (strip_prefix sep (c :: l)) as [r|] eqn:E.
    + injection H as <- <-. apply strip_prefix_some in E. split; [easy|].
      intros a b Hab. cbn [app] in Hab. apply (f_equal (@length Z)) in Hab. rewrite !app_length in Hab.
      assert (length (removelast sep) < length sep)%nat; [|lia].
      rewrite (app_removelast_last 0 Hs) at 2. rewrite app_length. cbn; lia.
    + destruct (split_once sep l) as [[k' v']|] eqn:E2; [|discriminate]. injection H as <- <-.
      destruct (IH _ _ eq_refl) as [-> Hn]. split; [easy|]. intros a b Hab. destruct a as [|x a].
      * pose proof (strip_prefix_none _ _ E) as Hno. 
        assert (Hx : exists z, c :: k' ++ sep = sep ++ z).
        { cbn [app] in Hab. exists (b ++ [last sep 0]). rewrite (app_removelast_last 0 Hs) at 1.
          rewrite app_assoc, app_comm_cons, Hab. now rewrite <- app_assoc. }
        destruct Hx as [z Hz]. apply (Hno (z ++ v')). rewrite !app_assoc, <- Hz. cbn [app]. rewrite <- app_assoc. reflexivity.
      * cbn [app] in Hab. injection Hab as _ Hab. apply (Hn a b). exact Hab.
Qed.
Lemma split_once_here sep k v : sep <> [] -> (forall a b, k ++ removelast sep <> a ++ sep ++ b) ->
  split_once sep (k ++ sep ++ v) = Some (k, v).
Proof.
  intros Hs. induction k as [|c k IH]; intros Hn.
  - cbn [app]. destruct sep as [|x sep]; [easy|]. cbn [split_once app].
    change (x :: sep ++ v) with ((x :: sep) ++ v). now rewrite strip_prefix_app.
  - cbn [app split_once]. 
    assert (Hnone : strip_prefix sep (c :: k ++ sep ++ v) = None).
    { destruct (strip_prefix sep _) as [r|] eqn:E; [|reflexivity]. exfalso. apply strip_prefix_some in E.
      (* sep is a prefix of c::k++sep++v, and |c::k++removelast sep| >= |sep| *)
      apply (Hn [] (skipn (length sep) ((c :: k) ++ removelast sep))). cbn [app].
      assert (HL : (length sep <= length ((c :: k) ++ removelast sep))%nat).
      { rewrite app_length. cbn [length]. rewrite (app_removelast_last 0 Hs) at 1. rewrite app_length. cbn. lia. }
      rewrite <- (firstn_skipn (length sep) ((c :: k) ++ removelast sep)) at 1. cbn [app] in *. f_equal.
      assert (HF : firstn (length sep) (c :: k ++ sep ++ v) = sep).
      { rewrite E, firstn_app, firstn_all, Nat.sub_diag. now rewrite app_nil_r. }
      rewrite <- HF at 3. replace (c :: k ++ sep ++ v) with ((c :: k ++ removelast sep) ++ [last sep 0] ++ v).
      2:{ rewrite (app_removelast_last 0 Hs) at 3. cbn [app]. rewrite <- !app_assoc. reflexivity. }
      rewrite firstn_app. replace (length sep - length (c :: k ++ removelast sep))%nat with 0%nat by lia.
      rewrite firstn_O, app_nil_r. reflexivity. }
    rewrite Hnone, IH; [reflexivity|]. intros a b Hab. apply (Hn (c :: a) b). cbn. now rewrite Hab.
Qed.
Lemma split_once_none sep l : split_once sep l = None -> forall a b, l <> a ++ sep ++ b.
Proof.
  induction l as [|c l IH]; intros H a b Hab.
  - unfold split_once in H. destruct (strip_prefix sep []) eqn:E; [discriminate|].
    destruct a; [|discriminate]. now apply (strip_prefix_none _ _ E b).
  - cbn [split_once] in H. destruct (strip_prefix sep (c :: l)) eqn:E; [discriminate|].
    destruct (split_once sep l) as [[k v]|] eqn:E2; [discriminate|].
    destruct a as [|x a]; [now apply (strip_prefix_none _ _ E b)|].
    injection Hab as _ Hab. now apply (IH eq_refl a b).
Qed.

(** decimals *)
Lemma dec_val_snoc p d : dec_val (p ++ [48 + d]) = 10 * dec_val p + d.
Proof. unfold dec_val. rewrite fold_left_app. cbn [fold_left]. lia. Qed.
Lemma dec_digits_spec fuel : forall i, 0 <= i -> i < 10 ^ Z.of_nat fuel -> (0 < fuel)%nat ->
  dec_val (dec_digits fuel i) = i /\ Forall (fun c => is_digit c = true) (dec_digits fuel i).
Proof.
  induction fuel as [|f IH]; intros i Hi Hlt Hf; [lia|]. cbn [dec_digits].
  destruct (i <? 10) eqn:E.
  - split; [unfold dec_val; cbn [fold_left]; lia|]. constructor; [unfold is_digit; lia|constructor].
  - rewrite Nat2Z.inj_succ, Z.pow_succ_r in Hlt by lia.
    destruct f as [|f]; [cbn in Hlt; lia|].
    destruct (IH (i / 10)) as [Hv Hd]; [lia|lia|lia|].
    split.
    + rewrite dec_val_snoc, Hv. lia.
    + apply Forall_app. split; [exact Hd|]. constructor; [unfold is_digit; lia|constructor].
Qed.
Lemma dec_digits_head fuel : forall i, 0 < i -> i < 10 ^ Z.of_nat fuel -> 
  exists c t, dec_digits fuel i = c :: t /\ c <> 48.
Proof.
  induction fuel as [|f IH]; intros i Hi Hlt; [cbn in Hlt; lia|]. cbn [dec_digits].
  destruct (i <? 10) eqn:E; [exists (48 + i), []; split; [easy|lia]|].
  rewrite Nat2Z.inj_succ, Z.pow_succ_r in Hlt by lia.
  destruct (IH (i / 10)) as (c & t & -> & Hc); [lia|lia|]. exists c, (t ++ [48 + i mod 10]). split; [easy|exact Hc].
Qed.
Lemma dec_fuel i : 0 <= i -> i < 10 ^ Z.of_nat (S (Z.to_nat (Z.log2 i))).
Proof.
  intros Hi. rewrite Nat2Z.inj_succ, Z2Nat.id by apply Z.log2_nonneg.
  destruct (Z.eq_dec i 0) as [->|Hne]; [cbn; lia|].
  pose proof (Z.log2_spec i ltac:(lia)) as [_ H]. eapply Z.lt_le_trans; [exact H|].
  apply Z.pow_le_mono_l. lia.
Qed.
Lemma span_digits_app a b : Forall (fun c => is_digit c = true) a ->
  match b with c :: _ => is_digit c = false | [] => True end -> span_digits (a ++ b) = (a, b).
Proof.
  intros Ha Hb. induction Ha as [|c a Hc Ha IH]; cbn [app].
  - destruct b as [|c b]; [easy|]. cbn. now rewrite Hb.
  - cbn. rewrite Hc, IH. reflexivity.
Qed.
Lemma span_digits_spec l a b : span_digits l = (a, b) ->
  l = a ++ b /\ Forall (fun c => is_digit c = true) a /\ match b with c :: _ => is_digit c = false | [] => True end.
Proof.
  revert a b; induction l as [|c l IH]; cbn; intros a b H; [now injection H as <- <-|].
  destruct (is_digit c) eqn:E.
  - destruct (span_digits l) as [a' b'] eqn:E2. injection H as <- <-. destruct (IH _ _ eq_refl) as (-> & H1 & H2).
    split; [easy|]. split; [now constructor|easy].
  - injection H as <- <-. easy.
Qed.
