From Verif Require Import Base BaseProofs Message SpecMessage.
Ltac two IH := let n := fresh "n" in let d := fresh "d" in let Hn := fresh "Hn" in
  intros d; pose (n := length d); assert (Hn : n = length d) by reflexivity; clearbody n; revert d Hn; induction n as [n IH] using lt_wf_ind; intros d Hn.

Lemma crlf_2 a b t : crlf_sub (a :: b :: t) = if ((a =? 13) && negb (b =? 10)) || (negb (a =? 13) && (b =? 10)) then 13 :: 10 :: crlf_sub t else a :: crlf_sub (b :: t).
Proof. reflexivity. Qed.
Lemma canon_2 a b t : canonical_text (a :: b :: t) = if a =? 13 then 13 :: 10 :: (if b =? 10 then canonical_text t else canonical_text (b :: t)) else if a =? 10 then 13 :: 10 :: canonical_text (b :: t) else a :: canonical_text (b :: t).
Proof. reflexivity. Qed.
Lemma crlf_len d : length (crlf_sub d) = length d.
Proof.
  revert d. two IH. destruct d as [|a [|b t]]; [reflexivity|reflexivity|]. cbn [length] in Hn. rewrite crlf_2. destruct (_ || _).
  - cbn [length]. do 2 f_equal. apply (IH (length t)); lia.
  - pose proof (IH (length (b :: t)) ltac:(cbn [length]; lia) (b :: t) eq_refl) as X. cbn [length] in *. now rewrite X.
Qed.
Lemma canon_ge d : (length d <= length (canonical_text d))%nat.
Proof.
  revert d. two IH. destruct d as [|a t]; [cbn; lia|]. cbn [length] in Hn. cbn [canonical_text]. destruct (a =? 13).
  - destruct t as [|b t']; [cbn; lia|]. destruct (b =? 10); cbn [length] in *.
    + pose proof (IH (length t') ltac:(lia) t' eq_refl). lia.
    + pose proof (IH (length (b :: t')) ltac:(cbn [length]; lia) (b :: t') eq_refl) as X. cbn [length] in X. lia.
  - destruct (a =? 10); cbn [length]; pose proof (IH (length t) ltac:(lia) t eq_refl); lia.
Qed.
(** same length only if already canonical *)
Lemma canon_same d : length (canonical_text d) = length d -> canonical_text d = d.
Proof.
  revert d. two IH. destruct d as [|a t]; [reflexivity|]. cbn [length] in Hn. cbn [canonical_text]. destruct (a =? 13) eqn:Ea.
  - apply Z.eqb_eq in Ea. subst a. destruct t as [|b t']; [cbn; lia|]. destruct (b =? 10) eqn:Eb; cbn [length] in *; intros H.
    + apply Z.eqb_eq in Eb. subst b. do 2 f_equal. apply (IH (length t')); lia.
    + pose proof (canon_ge (b :: t')) as X. cbn [length] in X. lia.
  - destruct (a =? 10) eqn:Eb; cbn [length]; intros H.
    + pose proof (canon_ge t). lia.
    + f_equal. apply (IH (length t)); lia.
Qed.
Lemma canon_idem d : canonical_text (canonical_text d) = canonical_text d.
Proof.
  revert d. two IH. destruct d as [|a t]; [reflexivity|]. cbn [length] in Hn. cbn [canonical_text]. destruct (a =? 13) eqn:Ea.
  - destruct t as [|b t']; [reflexivity|]. destruct (b =? 10) eqn:Eb; cbn [length] in *; cbn [canonical_text]; cbn [Z.eqb Pos.eqb]; do 2 f_equal.
    + apply (IH (length t')); lia.
    + apply (IH (length (b :: t')) ltac:(cbn [length]; lia) (b :: t') eq_refl).
  - destruct (a =? 10) eqn:Eb; cbn [canonical_text]; cbn [Z.eqb Pos.eqb]; [do 2 f_equal; apply (IH (length t)); lia|]. rewrite Ea, Eb. f_equal. apply (IH (length t)); lia.
Qed.
Lemma crlf_fix d : canonical_text d = d -> crlf_sub d = d.
Proof.
  revert d. two IH. destruct d as [|a [|b t]]; [reflexivity|reflexivity|]. cbn [length] in Hn. rewrite canon_2, crlf_2. destruct (a =? 13) eqn:Ea.
  - apply Z.eqb_eq in Ea. subst a. destruct (b =? 10) eqn:Eb; cbn [andb negb orb]; intros H.
    + apply Z.eqb_eq in Eb. subst b. f_equal. injection H as H. destruct t as [|c t]; [reflexivity|]. rewrite crlf_2. cbn [Z.eqb Pos.eqb andb negb orb].
      pose proof (IH (length (c :: t)) ltac:(cbn [length] in *; lia) (c :: t) eq_refl H) as X.
      destruct (c =? 10) eqn:Ec.
      * exfalso. apply Z.eqb_eq in Ec. subst c. destruct t; cbn [canonical_text Z.eqb Pos.eqb] in H; discriminate H.
      * f_equal. exact X.
    + exfalso. apply (f_equal (@length Z)) in H. pose proof (canon_ge (b :: t)) as X. cbn [length] in *. lia.
  - destruct (a =? 10) eqn:Ea'; cbn [andb negb orb]; intros H.
    + exfalso. apply Z.eqb_eq in Ea'. subst a. discriminate H.
    + injection H as H. assert (Eb : (b =? 10) = false). { destruct (b =? 10) eqn:Eb; [|reflexivity]. apply Z.eqb_eq in Eb. subst b. destruct t; discriminate H. }
      rewrite Eb. f_equal. apply (IH (length (b :: t))); [cbn [length]; lia|reflexivity|exact H].
Qed.
Lemma crlf_exact d : crlf_sub d = canonical_text d <-> canonical_text d = d.
Proof. split; intros H; [apply canon_same; rewrite <- H; apply crlf_len|now rewrite (crlf_fix d H)]. Qed.
Lemma crlf_eats a b t : a <> 13 -> b <> 13 -> crlf_sub (a :: 10 :: t) = crlf_sub (b :: 10 :: t).
Proof. intros Ha Hb. rewrite !crlf_2. rewrite (proj2 (Z.eqb_neq a 13) Ha), (proj2 (Z.eqb_neq b 13) Hb). reflexivity. Qed.
