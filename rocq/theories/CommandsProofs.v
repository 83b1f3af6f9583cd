From Verif Require Import Base BaseProofs Text Commands SpecCommands.
Open Scope Z_scope.

Lemma is_in_spec t l : is_in t l = true <-> In t l.
Proof.
  unfold is_in. rewrite existsb_exists. split; [intros (x & I & E); apply zlist_eqb_spec in E; now subst|]. intros I. exists t. split; [exact I|]. apply zlist_eqb_spec. reflexivity.
Qed.
Lemma drop_in x l c : In c (drop x l) <-> In c l /\ c <> x.
Proof.
  unfold drop. rewrite filter_In. split; intros [I N]; (split; [exact I|]).
  - intros ->. rewrite (proj2 (zlist_eqb_spec x x) eq_refl) in N. discriminate N.
  - destruct (zlist_eqb x c) eqn:E; [apply zlist_eqb_spec in E; congruence|reflexivity].
Qed.
Definition dropped (out l : list text) : list text := filter (fun y => negb (is_in y out)) l.
Lemma dropped_without out l : without out (dropped out l) l.
Proof.
  induction l as [|c l IH]; [constructor|]. cbn [dropped filter]. destruct (is_in c out) eqn:E; cbn [negb].
  - apply wo_drop; [now apply is_in_spec|exact IH].
  - apply wo_keep; [intros I; apply is_in_spec in I; congruence|exact IH].
Qed.
Lemma without_unique out l m : without out l m -> l = dropped out m.
Proof.
  induction 1 as [|c l m N H IH|c l m N H IH]; [reflexivity| |]; cbn [dropped filter].
  - destruct (is_in c out) eqn:E; [apply is_in_spec in E; contradiction|]. cbn [negb]. now f_equal.
  - apply is_in_spec in N. rewrite N. exact IH.
Qed.
Lemma drop_dropped a t l : dropped t (drop a l) = dropped (a :: t) l.
Proof.
  induction l as [|c l IH]; [reflexivity|]. cbn [drop filter dropped is_in existsb]. assert (S : zlist_eqb c a = zlist_eqb a c).
  { destruct (zlist_eqb c a) eqn:E; [apply zlist_eqb_spec in E; subst; symmetry; now apply zlist_eqb_spec|]. destruct (zlist_eqb a c) eqn:F; [apply zlist_eqb_spec in F; subst; rewrite (proj2 (zlist_eqb_spec c c) eq_refl) in E; discriminate E|reflexivity]. }
  rewrite S. destruct (zlist_eqb a c) eqn:E; cbn [negb orb]; [exact IH|]. cbn [dropped filter]. destruct (is_in c t) eqn:F; cbn [negb].
  - fold (is_in c t). rewrite F. cbn [negb]. exact IH.
  - fold (is_in c t). rewrite F. cbn [negb]. f_equal. exact IH.
Qed.
Lemma disable_some shared : forall algos d l, disable shared algos d (Some l) = (if shared then d else dropped algos d, Some (dropped algos l), None).
Proof.
  assert (N : forall l, dropped [] l = l) by (induction l as [|c l IH]; [reflexivity|cbn; now f_equal]).
  induction algos as [|a t IH]; intros d l; cbn [disable]; [rewrite !N; destruct shared; reflexivity|]. rewrite IH. rewrite drop_dropped. destruct shared; [reflexivity|now rewrite drop_dropped].
Qed.
Lemma first_of out l c : get (dropped out l) 0 = Ok c -> first_not_in out l c.
Proof.
  induction l as [|x l IH]; cbn [dropped filter]; intros H; [discriminate H|]. destruct (is_in x out) eqn:E; cbn [negb] in H.
  - destruct (IH H) as (pre & post & -> & P & N). exists (x :: pre), post. split; [reflexivity|]. split; [|exact N]. intros y [<-|I]; [now apply is_in_spec|now apply P].
  - rewrite get_cons_0 in H. injection H as <-. exists [], l. split; [reflexivity|]. split; [intros y []|]. intros I. apply is_in_spec in I. congruence.
Qed.
Lemma first_back out l c : first_not_in out l c -> get (dropped out l) 0 = Ok c.
Proof.
  intros (pre & post & -> & P & N). induction pre as [|x pre IH]; cbn [app dropped filter].
  - destruct (is_in c out) eqn:E; [apply is_in_spec in E; contradiction|]. cbn [negb]. apply get_cons_0.
  - rewrite (proj2 (is_in_spec x out)) by (apply P; now left). cbn [negb]. apply IH. intros y I. apply P. now right.
Qed.
Lemma get_nil0 {A} : get (@nil A) 0 = Err IndexError. Proof. reflexivity. Qed.
Lemma default_step d a : incl (fst (fst (new_helper d a))) d.
Proof.
  unfold new_helper. destruct (g_disabled a) as [algos|]; [|apply incl_refl]. destruct (g_personal a) as [l|].
  - rewrite disable_some. cbn [fst]. destruct l; [|apply incl_refl]. intros c I. unfold dropped in I. now apply filter_In in I.
  - destruct algos as [|x t]; cbn [disable fst]; [apply incl_refl|]. intros c I. now apply drop_in in I.
Qed.
Lemma default_incl l : forall d, incl (default_after d l) d.
Proof. induction l as [|a l IH]; intros d; cbn [default_after fold_left]; [apply incl_refl|]. eapply incl_tran; [apply IH|apply default_step]. Qed.
Lemma default_app l m d : default_after d (l ++ m) = default_after (default_after d l) m.
Proof. unfold default_after. apply fold_left_app. Qed.


(** ** words *)
Lemma words_sep : forall l acc, Forall (fun c => is_space c = false) acc ->
  separated l (words_acc [] l) /\ (acc <> [] -> separated (rev acc ++ l) (words_acc acc l)).
Proof.
  induction l as [|c l IH]; intros acc F; cbn [words_acc].
  - split; [constructor; constructor|]. intros N. destruct acc as [|x acc]; [easy|]. rewrite app_nil_r. apply (sep_one []); [constructor| |].
    + intros E. apply (f_equal (@List.length Z)) in E. rewrite rev_length in E. discriminate E.
    + apply Forall_rev. exact F.
  - destruct (is_space c) eqn:S.
    + destruct (IH [] (Forall_nil _)) as [A _]. assert (A0 : separated (c :: l) (words_acc [] l)).
      { destruct A as [t H|s w H1 H2 H3|s w c' t ws H1 H2 H3 H4 H5].
        - apply sep_end. constructor; assumption.
        - change (c :: s ++ w) with ((c :: s) ++ w). apply sep_one; [constructor; assumption|assumption|assumption].
        - change (c :: s ++ w ++ c' :: t) with ((c :: s) ++ w ++ c' :: t). apply sep_more; [constructor; assumption|assumption..]. }
      split; [exact A0|]. intros N. destruct acc as [|x acc]; [easy|]. apply (sep_more [] (rev (x :: acc)) c l); [constructor| | |exact S|exact A].
      * intros E. apply (f_equal (@List.length Z)) in E. rewrite rev_length in E. discriminate E.
      * apply Forall_rev. exact F.
    + destruct (IH [c]) as [_ B]; [constructor; [exact S|constructor]|]. split; [apply B; discriminate|]. intros N.
      destruct (IH (c :: acc)) as [_ B2]; [constructor; assumption|]. specialize (B2 ltac:(discriminate)). cbn [rev] in B2. rewrite <- app_assoc in B2. exact B2.
Qed.
Lemma words_separated l : separated l (words l). Proof. exact (proj1 (words_sep l [] (Forall_nil _))). Qed.

(** ** splitting at = *)
Lemma split_eq a b : ~ In 61 a -> split_once [61] (a ++ 61 :: b) = Some (a, b).
Proof.
  induction a as [|c a IH]; intros N; [reflexivity|]. cbn [app split_once strip_prefix]. replace (61 =? c) with false; [|symmetry; apply Z.eqb_neq; intros <-; apply N; now left].
  rewrite IH; [reflexivity|]. intros I. apply N. now right.
Qed.
Lemma split_eq_none a : ~ In 61 a -> split_once [61] a = None.
Proof.
  induction a as [|c a IH]; intros N; [reflexivity|]. cbn [split_once strip_prefix]. replace (61 =? c) with false; [|symmetry; apply Z.eqb_neq; intros <-; apply N; now left].
  rewrite IH; [reflexivity|]. intros I. apply N. now right.
Qed.
Lemma split_eq_inv l a b : split_once [61] l = Some (a, b) -> l = a ++ 61 :: b /\ ~ In 61 a.
Proof.
  revert a b. induction l as [|c l IH]; intros a b H; cbn [split_once strip_prefix] in H; [discriminate H|]. destruct (61 =? c) eqn:E.
  - injection H as <- <-. apply Z.eqb_eq in E. subst. split; [reflexivity|intros []].
  - destruct (split_once [61] l) as [[k v]|]; [|discriminate H]. injection H as <- <-. destruct (IH k v eq_refl) as [-> N]. split; [reflexivity|]. intros [I|I]; [lia|contradiction].
Qed.
Lemma split_group_ok v n r : split_group v = Ok (n, r) <-> v = n ++ 61 :: r /\ ~ In 61 n /\ ~ In 61 r.
Proof.
  unfold split_group. split.
  - destruct (split_once [61] v) as [[a b]|] eqn:E; [|discriminate]. destruct (split_once [61] b) as [x|] eqn:F; [discriminate|]. intros H. injection H as <- <-. apply split_eq_inv in E as [-> N]. split; [reflexivity|]. split; [exact N|].
    intros I. apply in_split in I as (p & q & ->). assert (G : exists p' q', p ++ 61 :: q = p' ++ 61 :: q' /\ ~ In 61 p').
    { clear. induction p as [|c p IH]; [exists [], q; split; [reflexivity|intros []]|]. destruct (Z.eq_dec c 61) as [->|N]; [exists [], (p ++ 61 :: q); split; [reflexivity|intros []]|]. destruct IH as (p' & q' & E & I). exists (c :: p'), q'. cbn [app]. rewrite E. split; [reflexivity|]. intros [J|J]; [congruence|contradiction]. }
    destruct G as (p' & q' & G1 & G2). rewrite G1, split_eq in F by exact G2. discriminate F.
  - intros (-> & N1 & N2). rewrite split_eq by exact N1. now rewrite split_eq_none.
Qed.

(** ** encryption *)
Lemma acceptable_iff ks : forall cs c, first_acceptable cs ks = Some c <-> exists pre post, cs = pre ++ c :: post /\ (forall k, In k ks -> In c (k_prefs k)) /\ (forall x, In x pre -> exists k, In k ks /\ ~ In x (k_prefs k)).
Proof.
  assert (T : forall c, forallb (fun k => existsb (Z.eqb c) (k_prefs k)) ks = true <-> forall k, In k ks -> In c (k_prefs k)).
  { intros c. rewrite forallb_forall. split; intros H k I; specialize (H k I); [apply existsb_exists in H as (y & J & E); apply Z.eqb_eq in E; now subst|apply existsb_exists; exists c; split; [exact H|apply Z.eqb_refl]]. }
  assert (F : forall c, forallb (fun k => existsb (Z.eqb c) (k_prefs k)) ks = false -> exists k, In k ks /\ ~ In c (k_prefs k)).
  { intros c. clear T. induction ks as [|k l IH]; [discriminate|]. cbn [forallb]. destruct (existsb (Z.eqb c) (k_prefs k)) eqn:E; cbn [andb]; intros H.
    - destruct (IH H) as (k' & I & N). exists k'. split; [now right|exact N].
    - exists k. split; [now left|]. intros I. assert (existsb (Z.eqb c) (k_prefs k) = true) by (apply existsb_exists; exists c; split; [exact I|apply Z.eqb_refl]). congruence. }
  induction cs as [|x cs IH]; intros c; cbn [first_acceptable].
  - split; [discriminate|]. intros (pre & post & E & _). destruct pre; discriminate E.
  - destruct (forallb (fun k => existsb (Z.eqb x) (k_prefs k)) ks) eqn:E.
    + split; [intros H; injection H as <-; exists [], cs; split; [reflexivity|]; split; [exact (proj1 (T x) E)|intros y []]|].
      intros (pre & post & Q & A & B). destruct pre as [|y pre]; injection Q as Q1 Q2; [now subst|]. subst y. destruct (B x (or_introl eq_refl)) as (k & I & N). exfalso. apply N. exact (proj1 (T x) E k I).
    + rewrite IH. split.
      * intros (pre & post & -> & A & B). exists (x :: pre), post. split; [reflexivity|]. split; [exact A|]. intros y [<-|I]; [now apply F|now apply B].
      * intros (pre & post & Q & A & B). destruct pre as [|y pre]; injection Q as Q1 Q2; [subst x; pose proof (proj2 (T c) A); congruence|]. exists pre, post. split; [exact Q2|]. split; [exact A|]. intros z I. apply B. now right.
Qed.
Lemma acceptable_none ks : forall cs, first_acceptable cs ks = None <-> forall x, In x cs -> exists k, In k ks /\ ~ In x (k_prefs k).
Proof.
  intros cs. split.
  - intros H x I. induction cs as [|c cs IH]; [destruct I|]. cbn [first_acceptable] in H. destruct (forallb (fun k => existsb (Z.eqb c) (k_prefs k)) ks) eqn:E; [discriminate H|]. destruct I as [<-|I]; [|now apply IH].
    clear -E. induction ks as [|k l IH]; [discriminate E|]. cbn [forallb] in E. destruct (existsb (Z.eqb c) (k_prefs k)) eqn:F; cbn [andb] in E; [destruct (IH E) as (k' & I & N); exists k'; split; [now right|exact N]|].
    exists k. split; [now left|]. intros I. assert (existsb (Z.eqb c) (k_prefs k) = true) by (apply existsb_exists; exists c; split; [exact I|apply Z.eqb_refl]). congruence.
  - intros H. destruct (first_acceptable cs ks) as [c|] eqn:E; [|reflexivity]. apply acceptable_iff in E as (pre & post & -> & A & _). destruct (H c) as (k & I & N); [apply in_or_app; right; now left|]. exfalso. apply N. now apply A.
Qed.

(** ** write_output *)
Lemma slice_cut (d : bytes) : d = slice d 0 1024 ++ slice_from d 1024.
Proof. unfold slice, slice_from. rewrite (clip_in (zlen d) 0) by (pose proof (zlen_nonneg d); lia). cbn [Z.to_nat skipn]. unfold clip. change (1024 <? 0) with false. cbv iota. rewrite Z.sub_0_r. symmetry. apply firstn_skipn. Qed.
Lemma chunk_len (d : bytes) : zlen (slice d 0 1024) = Z.min 1024 (zlen d).
Proof.
  unfold slice. rewrite (clip_in (zlen d) 0) by (pose proof (zlen_nonneg d); lia). change (Z.to_nat 0) with 0%nat. cbn [skipn]. unfold clip. change (1024 <? 0) with false. cbv iota. rewrite Z.sub_0_r. unfold zlen. rewrite firstn_length. lia.
Qed.
Lemma write_loop_spec l : forall f d t, (List.length d < f)%nat -> 0 <= t -> t <= l ->
  (t + zlen d <= l -> write_loop f (Some l) d t = (d, Ok (t + zlen d))) /\
  (l < t + zlen d -> exists w rest, d = w ++ rest /\ write_loop f (Some l) d t = (w, fatal) /\ l < t + zlen w <= l + 1024).
Proof.
  induction f as [|f IH]; intros d t Lf T L; [lia|]. cbn [write_loop]. set (c := slice d 0 1024). set (r := slice_from d 1024).
  pose proof (slice_cut d) as Cut. fold c r in Cut. pose proof (chunk_len d) as Lc. fold c in Lc. pose proof (zlen_nonneg d).
  assert (Lr : zlen d = zlen c + zlen r) by (rewrite Cut at 1; apply zlen_app). clearbody c r.
  destruct (l <? t + zlen c) eqn:E1.
  - split; [intros; pose proof (zlen_nonneg r); lia|]. intros _. exists c, r. split; [exact Cut|]. split; [reflexivity|]. lia.
  - destruct (zlen c =? 0) eqn:E2.
    + assert (zlen d = 0) by lia. assert (Dn : d = []) by (destruct d; [reflexivity|rewrite zlen_cons in *; pose proof (zlen_nonneg d); lia]). split; [|lia]. intros _. assert (Cn : c = []) by (destruct c; [reflexivity|rewrite zlen_cons in *; pose proof (zlen_nonneg c); lia]). rewrite Dn, Cn. reflexivity.
    + destruct (IH r (t + zlen c)) as [A B]; [unfold zlen in *; lia|lia|lia|]. split.
      * intros Q. rewrite A by lia. rewrite <- Cut. f_equal. f_equal. lia.
      * intros Q. destruct B as (w & rest & -> & W & V); [lia|]. rewrite W. exists (c ++ w), rest. split; [rewrite Cut at 1; now rewrite app_assoc|]. split; [reflexivity|]. rewrite zlen_app. lia.
Qed.
