(** C78: regular expressions of trust signatures. *)
From Verif Require Import Base BaseProofs Text Regex SpecRegex RegexProofs.

(** Every text that is accepted is an expression of RFC 4880 section 8. Missing: texts with a backslash at the end, before a newline or
    before a closing bracket. *)
Theorem c78_sound_partial s : escaped s -> no_escaped_bracket s -> validate_subpacket_regex s = Accept -> rfc_regex s.
Proof.
  intros E N H. unfold validate_subpacket_regex in H. fold (run (tokens s) CBranch false []) in H. destruct (run (tokens s) CBranch false []) as [[[[u v] p] rest]|] eqn:R; [|discriminate H]. destruct u; [discriminate H|]. destruct v; [|discriminate H].
  destruct (sound (length (tokens s)) (tokens s) CBranch [] false [] false true p rest (le_n _)) as (took & T & _ & _ & A & _); [cbn [inv]; constructor; constructor|exact R|]. destruct (A eq_refl) as [-> A2]. rewrite app_nil_r in T. specialize (A2 eq_refl). cbn [app] in A2. rewrite <- T in A2.
  rewrite <- (tokens_concat s E). exact (proj1 of_tokens _ A2 (tokens_ok s E N)).
Qed.
(** Every such expression is accepted, except those that repeat a range with a vertical bar in it. *)
Theorem c78_complete_partial s : escaped s -> no_escaped_bracket s -> regex false s -> validate_subpacket_regex s = Accept.
Proof.
  intros E N H. destruct (proj1 (to_tokens false) s H []) as (_ & _ & T); [now rewrite app_nil_r|now rewrite app_nil_r|]. destruct (proj1 (complete false) _ T eq_refl [] CBranch [] Logic.I) as (c & G & R). rewrite app_nil_r in R.
  unfold validate_subpacket_regex. fold (run (tokens s) CBranch false []). rewrite R, run_nil. destruct c; try contradiction; reflexivity.
Qed.
(** The position in the error lies in the text, and what is before it is the beginning of some correct expression. *)
Theorem c78_position_partial s n : escaped s -> no_escaped_bracket s -> validate_subpacket_regex s = RegexError n -> 0 <= n < zlen s /\ exists t, rfc_regex (firstn (Z.to_nat n) s ++ t).
Proof.
  intros E N H. unfold validate_subpacket_regex in H. fold (run (tokens s) CBranch false []) in H. destruct (run (tokens s) CBranch false []) as [[[[u v] p] rest]|] eqn:R; [|discriminate H].
  destruct (sound (length (tokens s)) (tokens s) CBranch [] false [] u v p rest (le_n _)) as (took & T & O & (e & Fe & V) & A & B); [cbn [inv]; constructor; constructor|exact R|]. cbn [app] in O, V, A, B.
  pose proof (tokens_ok s E N) as F. assert (Ne : ~ In [] (tokens s)). { intros I. rewrite Forall_forall in F. destruct (F _ I) as [(c & Q & _)|(d & Q & _)]; discriminate Q. }
  assert (S : s = p ++ concat rest) by (rewrite <- (tokens_concat s E), T, concat_app; congruence).
  assert (G : exists t, rfc_regex (p ++ t)). { exists (concat e). subst p. rewrite <- concat_app. apply (proj1 of_tokens _ V). apply Forall_app. split; [rewrite T in F; now apply Forall_app in F|]. eapply Forall_impl; [|exact Fe]. intros t Q. left. exact Q. }
  destruct G as [t G]. assert (K : 0 <= n < zlen s /\ n <= zlen p).
  { destruct u.
    - injection H as <-. assert (P : p <> []). { destruct (loop_true _ _ _ _ _ R) as [P|(x & I & _)]; [exact P|contradiction]. } rewrite S, zlen_app. pose proof (zlen_nonneg (concat rest)). destruct p; [contradiction|]. rewrite zlen_cons. pose proof (zlen_nonneg p). lia.
    - destruct v; [discriminate H|]. injection H as <-. destruct (B eq_refl) as (t1 & r1 & -> & _). rewrite S, zlen_app. pose proof (zlen_nonneg p). cbn [concat]. rewrite zlen_app. pose proof (zlen_nonneg (concat r1)). assert (1 <= zlen t1). { rewrite T in F. apply Forall_app in F as [_ F]. destruct (Forall_inv F) as [(c & -> & _)|(d & -> & _)]; cbv; discriminate. } lia. }
  destruct K as [K1 K2]. split; [exact K1|]. exists (skipn (Z.to_nat n) p ++ t). rewrite S. rewrite firstn_app. replace (Z.to_nat n - length p)%nat with 0%nat by (unfold zlen in K2; lia). cbn [firstn]. rewrite app_nil_r, app_assoc, firstn_skipn. exact G.
Qed.
Print Assumptions c78_sound_partial. Print Assumptions c78_complete_partial. Print Assumptions c78_position_partial.

(** ** refuted parts *)
Lemma singles x : ~ In 92 x -> escaped x /\ tokens x = map (fun c => [c]) x.
Proof.
  induction x as [|c x IH]; intros N; [split; [constructor|reflexivity]|]. destruct IH as [E T]; [intros I; apply N; right; exact I|]. assert (c <> 92) by (intros ->; apply N; left; reflexivity). split; [now constructor|]. rewrite tokens_char by assumption. now rewrite T.
Qed.
(** A repeated range with a vertical bar in it raises AttributeError, whatever follows. *)
Theorem c78_bar_refuted x c rest : range_body x -> ~ In 92 x -> In 124 x -> In c [42; 43; 63] -> rfc_regex ([91] ++ x ++ [93; c]) /\ validate_subpacket_regex ([91] ++ x ++ [93; c] ++ rest) = Crash.
Proof.
  intros B N I C. split.
  - replace ([91] ++ x ++ [93; c]) with ((([91] ++ x ++ [93]) ++ [c]) ++ []) by (rewrite app_nil_r; now rewrite <- !app_assoc). constructor. constructor; [|constructor]. constructor; [constructor; exact B|exact C|discriminate].
  - destruct (singles x N) as [E T]. unfold validate_subpacket_regex. cbn [app]. rewrite tokens_char by lia. rewrite (tokens_app x) by exact E. rewrite tokens_char by lia. assert (Nc : c <> 92) by (cbn in C; lia). rewrite tokens_char by exact Nc.
    fold (run ([91] :: tokens x ++ [93] :: [c] :: tokens rest) CBranch false []). rewrite run_lb. rewrite <- (tokens_concat x E) in B. destruct (body_tokens _ B) as [B1 B2]. destruct (run_body _ B1 ([93] :: [c] :: tokens rest) false ([] ++ [91])) as (n & R & Hn). rewrite R, run_rb, B2, run_rep by (cbn [In] in C |- *; repeat destruct C as [<-|C]; try contradiction; tauto).
    assert (n = true) by (apply Hn; rewrite T; apply (in_map (fun c => [c])); exact I). now subst n.
Qed.
(** A backslash at the end is accepted, although there is no character for it. *)
Inductive paired : text -> Prop := pr_nil : paired [] | pr_char c s : c <> 92 -> paired s -> paired (c :: s) | pr_pair c s : paired s -> paired (92 :: c :: s).
Lemma paired_app a b : paired a -> paired b -> paired (a ++ b).
Proof. intros A B. induction A; cbn [app]; [exact B|now constructor|now constructor]. Qed.
Lemma paired_any n : forall x, (length x <= n)%nat -> (forall z, x <> z ++ [92]) -> paired x.
Proof.
  induction n as [|n IH]; intros x L N; (destruct x as [|c x]; [constructor|]); cbn [length] in L; [lia|]. destruct (Z.eq_dec c 92) as [->|Nc].
  - destruct x as [|d x]; [destruct (N [] eq_refl)|]. apply pr_pair. apply IH; [cbn [length] in L; lia|]. intros z ->. exact (N (92 :: d :: z) eq_refl).
  - constructor; [exact Nc|]. apply IH; [lia|]. intros z ->. exact (N (c :: z) eq_refl).
Qed.
Lemma rfc_paired : (forall r, regex true r -> no_escaped_bracket r -> paired r) /\ (forall r, branch true r -> no_escaped_bracket r -> paired r) /\ (forall r, piece true r -> no_escaped_bracket r -> paired r) /\ (forall r, atom true r -> no_escaped_bracket r -> paired r).
Proof.
  assert (One : forall c, c <> 92 -> paired [c]) by (intros c Nc; constructor; [exact Nc|constructor]).
  apply rall.
  - auto.
  - intros b r _ IHb _ IHr N. apply paired_app; [apply IHb; exact (neb_l _ _ N)|]. apply neb_r in N. apply paired_app; [apply One; lia|]. apply IHr. exact (neb_r _ _ N).
  - constructor.
  - intros p b _ IHp _ IHb N. apply paired_app; [apply IHp; exact (neb_l _ _ N)|]. apply IHb. exact (neb_r _ _ N).
  - auto.
  - intros a c _ IH C _ N. apply paired_app; [apply IH; exact (neb_l _ _ N)|]. apply One. cbn in C. lia.
  - intros r _ IH N. apply paired_app; [apply One; lia|]. apply neb_r in N. apply paired_app; [apply IH; exact (neb_l _ _ N)|apply One; lia].
  - intros x B N. apply paired_app; [apply One; lia|]. apply neb_r in N. apply paired_app; [|apply One; lia]. apply (paired_any (length x)); [lia|]. intros z ->. apply N. exists z, []. now rewrite <- app_assoc.
  - intros c Nc _. apply One. intros ->. apply Nc. cbn. tauto.
  - intros c _. apply pr_pair. constructor.
Qed.
Theorem c78_trailing_refuted s : escaped s -> no_escaped_bracket s -> regex false s -> validate_subpacket_regex (s ++ [92]) = Accept /\ ~ rfc_regex (s ++ [92]).
Proof.
  intros E N H. split.
  - pose proof (c78_complete_partial s E N H) as A. unfold validate_subpacket_regex in *. rewrite tokens_app by exact E. change (tokens [92]) with (@nil text). rewrite app_nil_r. exact A.
  - intros R. apply (proj1 rfc_paired) in R.
    + revert R. clear -E. induction E as [|c s Nc E IH|c s Nc E IH]; cbn [app]; intros R; inversion R; subst; auto; contradiction.
    + intros (a & b & Q). destruct b as [|z b] using rev_ind; [change ([92; 93] ++ []) with ([92] ++ [93]) in Q; rewrite app_assoc in Q; apply app_inj_tail in Q as [_ Q]; discriminate Q|]. rewrite !app_assoc in Q. apply app_inj_tail in Q as [Q _]. apply N. exists a, b. rewrite Q. now rewrite <- app_assoc.
Qed.
(** In a range a backslash is an ordinary character, but the validator takes it together with the closing bracket. *)
Theorem c78_bracket_refuted x : ~ In 92 x -> ~ In 93 x -> ~ In 94 x -> rfc_regex ([91] ++ x ++ [92; 93]) /\ validate_subpacket_regex ([91] ++ x ++ [92; 93]) = RegexError (zlen x + 2).
Proof.
  intros N1 N2 N3. split.
  - replace ([91] ++ x ++ [92; 93]) with (([91] ++ (x ++ [92]) ++ [93]) ++ []) by (rewrite app_nil_r; now rewrite <- !app_assoc). constructor. constructor; [|constructor]. constructor. constructor. destruct x as [|c t].
    + exists 92, []. split; [left; split; [reflexivity|lia]|intros []].
    + exists c, (t ++ [92]). split; [left; split; [reflexivity|intros ->; apply N3; left; reflexivity]|]. intros I. apply in_app_or in I. destruct I as [I|[I|[]]]; [apply N2; right; exact I|discriminate I].
  - destruct (singles x N1) as [E T]. unfold validate_subpacket_regex. cbn [app]. rewrite tokens_char by lia. rewrite (tokens_app x) by exact E. change (tokens [92; 93]) with [[92; 93]]. fold (run ([91] :: tokens x ++ [[92; 93]]) CBranch false []). rewrite run_lb.
    assert (B : tbody (tokens x)). { apply tbody_iff. intros p q Q. exfalso. apply N2. rewrite <- (tokens_concat x E), Q, concat_app. apply in_or_app. right. left. reflexivity. }
    destruct (run_body _ B [[92; 93]] false ([] ++ [91])) as (n & R & _). rewrite R, run_other, run_nil. 2:{ intros I. cbn [In] in I. repeat (destruct I as [I|I]; [discriminate I|]). contradiction. }
    rewrite (tokens_concat x E). rewrite !zlen_app. cbn [app]. change (zlen [91]) with 1. change (zlen [92; 93]) with 2. f_equal. rewrite zlen_nil. lia.
Qed.
(** A backslash before a newline is not seen at all: the text is judged, and its error located, as if it were not there; so the
    newline is not taken for an escaped character, and positions after it are one too small. *)
Theorem c78_newline_refuted a b : escaped a -> validate_subpacket_regex (a ++ [92; 10] ++ b) = validate_subpacket_regex (a ++ [10] ++ b) /\
  (~ In 92 a -> (forall c, In c a -> ~ In c special) -> validate_subpacket_regex (a ++ [92; 10; 41]) = RegexError (zlen a + 1)).
Proof.
  intros E. assert (T : forall r, tokens (a ++ [92; 10] ++ r) = tokens (a ++ [10] ++ r)) by (intros r; rewrite !(tokens_app a) by exact E; reflexivity). split.
  - unfold validate_subpacket_regex. now rewrite T.
  - intros N S. unfold validate_subpacket_regex. change [92; 10; 41] with ([92; 10] ++ [41]). rewrite T. rewrite (tokens_app a) by exact E. rewrite (proj2 (singles a N)). change (tokens ([10] ++ [41])) with [[10]; [41]].
    set (ts := map (fun c => [c]) a ++ [[10]; [41]]). fold (run ts CBranch false []). subst ts.
    assert (O : forall c, In c a \/ c = 10 -> ordinary [c]).
    { intros c C I. assert (Sc : ~ In c special) by (destruct C as [C| ->]; [exact (S c C)|unfold special; cbn; lia]). apply Sc. unfold special. cbn [In] in I |- *. repeat (destruct I as [I|I]; [injection I as <-; tauto|]). contradiction. }
    assert (G : forall x c o, (forall y, In y x -> In y a) -> good c -> run (map (fun y => [y]) x ++ [[10]; [41]]) c false o = Some (false, false, o ++ x ++ [10], [[41]])).
    { induction x as [|y x IH]; intros c o Hx Gc; cbn [map app].
      - rewrite run_other by (apply O; now right). rewrite run_close. destruct c; try contradiction; reflexivity.
      - rewrite run_other by (apply O; left; apply Hx; now left). rewrite IH; [f_equal; f_equal; f_equal; now rewrite <- app_assoc|intros z Hz; apply Hx; now right|destruct c; try contradiction; exact Logic.I]. }
    rewrite G; [|auto|exact Logic.I]. cbn [app]. rewrite zlen_app. reflexivity.
Qed.
Print Assumptions c78_newline_refuted.
Example c78_newline_ex : validate_subpacket_regex ([97; 92; 10; 41]) = RegexError 2 /\ nth 2 [97; 92; 10; 41] 0 = 10.
Proof. vm_compute. auto. Qed.
Print Assumptions c78_bar_refuted. Print Assumptions c78_trailing_refuted. Print Assumptions c78_bracket_refuted.

(** <[^>]+[@.]example\.com>$ , then ^(a|[^]b]+)*\.(x|)$ *)
Definition ex_re : text := str "<[^>]+[@.]example\.com>$".
Definition ex_re2 : text := str "^(a|[^]b]+)*\.(x|)$".
Example c78_ex : validate_subpacket_regex ex_re = Accept /\ validate_subpacket_regex ex_re2 = Accept /\ validate_subpacket_regex (str "a(b*+c)") = RegexError 4 /\ validate_subpacket_regex (str "a(b[c") = RegexError 4 /\ validate_subpacket_regex (str "a[b|c]*") = Crash /\ validate_subpacket_regex (str "a)b") = RegexError 1.
Proof. vm_compute. auto 9. Qed.
Lemma ex_escaped s : (forall i, nth_error s i = Some 92 -> exists c, nth_error s (S i) = Some c /\ c <> 10 /\ c <> 92) -> escaped s.
Proof.
  remember (length s) as n eqn:Hn. assert (L : (length s <= n)%nat) by lia. clear Hn. revert s L. induction n as [|n IH]; intros s L H; (destruct s as [|c s]; [constructor|]); cbn [length] in L; [lia|]. destruct (Z.eq_dec c 92) as [->|Nc].
  - destruct (H 0%nat eq_refl) as (d & Hd & N1 & N2). destruct s as [|d' s]; [discriminate Hd|]. cbn in Hd. injection Hd as ->. apply es_pair; [exact N1|]. apply IH; [cbn [length] in L; lia|]. intros i Hi. exact (H (S (S i)) Hi).
  - constructor; [exact Nc|]. apply IH; [lia|]. intros i Hi. exact (H (S i) Hi).
Qed.
Example c78_hyp : escaped ex_re2 /\ no_escaped_bracket ex_re2 /\ regex false (str "a|[^]b]+").
Proof.
  split; [|split].
  - unfold ex_re2. cbn. repeat first [apply es_nil|apply es_char; [lia|]|apply es_pair; [lia|]].
  - intros (a & b & H). unfold ex_re2 in H. cbn in H. repeat (destruct a as [|? a]; [discriminate H|]; injection H as _ H). destruct a; discriminate H.
  - change (str "a|[^]b]+") with ([97] ++ [124] ++ (([91] ++ [94; 93; 98] ++ [93]) ++ [43]) ++ []). apply re_or.
    + change [97] with ([97] ++ []). constructor; [|constructor]. constructor. constructor. cbn. intuition lia.
    + constructor. constructor; [|constructor]. constructor; [constructor|cbn; auto|].
      * exists 93, [98]. split; [auto|]. cbn. lia.
      * intros _ x Q _ I. change ([91] ++ [94; 93; 98] ++ [93]) with ([91] ++ [94; 93; 98] ++ [93]) in Q. cbn [app] in Q. injection Q as Q. change [94; 93; 98; 93] with ([94; 93; 98] ++ [93]) in Q. apply app_inj_tail in Q as [<- _]. cbn in I. lia.
Qed.
