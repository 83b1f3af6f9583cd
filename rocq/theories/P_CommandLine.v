(** C102-C104: the command line. *)
From Coq Require Import String Permutation.
From Verif Require Import Base BaseProofs Text DumpKeys DumpOrder IoHelper CommandLine SpecCommandLine.
Open Scope Z_scope.

Lemma cmd_eqb_spec a b : cmd_eqb a b = true <-> a = b.
Proof.
  destruct a as [x|x], b as [y|y]; cbn [cmd_eqb]; try (split; discriminate).
  - rewrite zlist_eqb_spec. split; [now intros ->|]. congruence.
  - rewrite Z.eqb_eq. split; [now intros ->|]. congruence.
Qed.
Lemma in_cmd c l : existsb (cmd_eqb c) l = true <-> In c l.
Proof. rewrite existsb_exists. split; [intros (x & I & E); apply cmd_eqb_spec in E as ->; exact I|intros I; exists c; split; [exact I|now apply cmd_eqb_spec]]. Qed.
Lemma cmd_set_in c l : In c (cmd_set l) <-> In c l.
Proof.
  induction l as [|a l IH]; [reflexivity|]. cbn [cmd_set]. destruct (existsb (cmd_eqb a) l) eqn:E.
  - rewrite IH. apply in_cmd in E. cbn [In]. split; [auto|]. intros [<-|I]; assumption.
  - cbn [In]. rewrite IH. reflexivity.
Qed.
Lemma cmd_set_nodup l : NoDup (cmd_set l).
Proof.
  induction l as [|a l IH]; [constructor|]. cbn [cmd_set]. destruct (existsb (cmd_eqb a) l) eqn:E; [exact IH|]. constructor; [|exact IH]. rewrite cmd_set_in. intros I. apply in_cmd in I. congruence.
Qed.
Lemma cmd_set_same a b : same_commands a b -> Permutation (cmd_set a) (cmd_set b).
Proof. intros S. apply NoDup_Permutation; [apply cmd_set_nodup|apply cmd_set_nodup|]. intros c. now rewrite !cmd_set_in. Qed.

Lemma insert_comm x y l : insert x (insert y l) = insert y (insert x l).
Proof.
  assert (T : forall a b, (lex a b <=? 0) = false -> (lex b a <=? 0) = true) by (intros a b H; rewrite lex_opp; lia).
  assert (A : forall a b, (lex a b <=? 0) = true -> (lex b a <=? 0) = true -> a = b) by (intros a b H1 H2; rewrite lex_opp in H2; apply lex_zero; lia).
  assert (R : forall a b c, (lex a b <=? 0) = true -> (lex b c <=? 0) = true -> (lex a c <=? 0) = true) by (intros a b c H1 H2; pose proof (lex_trans a b c); lia).
  induction l as [|z l IH]; cbn [insert].
  - destruct (lex x y <=? 0) eqn:E1, (lex y x <=? 0) eqn:E2; try reflexivity; [now rewrite (A x y E1 E2)|]. pose proof (T _ _ E1). congruence.
  - destruct (lex y z <=? 0) eqn:Ey, (lex x z <=? 0) eqn:Ex; cbn [insert].
    + destruct (lex x y <=? 0) eqn:E1, (lex y x <=? 0) eqn:E2; rewrite ?Ex, ?Ey; try reflexivity; [now rewrite (A x y E1 E2)|]. pose proof (T _ _ E1). congruence.
    + rewrite Ex, Ey. destruct (lex x y <=? 0) eqn:E1; [|reflexivity]. pose proof (R x y z E1 Ey). congruence.
    + rewrite Ex, Ey. destruct (lex y x <=? 0) eqn:E1; [|reflexivity]. pose proof (R y x z E1 Ex). congruence.
    + rewrite Ex, Ey. now rewrite IH.
Qed.
Lemma sort_perm a b : Permutation a b -> sort_texts a = sort_texts b.
Proof. unfold sort_texts. induction 1 as [|x a b _ IH|x y a|a b c _ IH1 _ IH2]; cbn [fold_right]; [reflexivity|now rewrite IH|apply insert_comm|congruence]. Qed.
Lemma insert_in x l t : In t (insert x l) <-> t = x \/ In t l.
Proof. induction l as [|y l IH]; cbn [insert]; [cbn; intuition|]. destruct (lex x y <=? 0); cbn [In]; [intuition|]. rewrite IH. intuition. Qed.
Lemma sort_in l t : In t (sort_texts l) <-> In t l.
Proof. unfold sort_texts. induction l as [|x l IH]; [reflexivity|]. cbn [fold_right In]. rewrite insert_in, IH. intuition. Qed.
Lemma names_cons c l : names (c :: l) = match c, names l with Name t, Some r => Some (t :: r) | _, _ => None end.
Proof. reflexivity. Qed.
Lemma names_perm a b : Permutation a b -> match names a, names b with Some x, Some y => Permutation x y | None, None => True | _, _ => False end.
Proof.
  induction 1 as [|x a b _ IH|x y a|a b c _ IH1 _ IH2]; rewrite ?names_cons.
  - apply perm_nil.
  - destruct x as [t|t]; [|exact Logic.I]. destruct (names a), (names b); try contradiction; [now constructor|exact Logic.I].
  - destruct x, y, (names a); try exact Logic.I; try apply perm_swap.
  - destruct (names a), (names b), (names c); try contradiction; [now rewrite IH1|exact Logic.I].
Qed.
Lemma names_some l t : names l = Some t <-> l = map Name t.
Proof.
  revert t. induction l as [|c l IH]; intros t; cbn.
  - split; [intros [= <-]; reflexivity|]. destruct t; [reflexivity|discriminate].
  - destruct c as [x|x]; [|split; [discriminate|destruct t; discriminate]]. fold (names l). destruct (names l) as [u|] eqn:E.
    + split; [intros [= <-]; cbn; f_equal; now apply IH|]. destruct t as [|y t]; [discriminate|]. cbn. intros [= <- ->]. f_equal. f_equal. specialize (IH t). destruct IH as [_ IH]. specialize (IH eq_refl). congruence.
    + split; [discriminate|]. destruct t as [|y t]; [discriminate|]. cbn. intros [= <- ->]. destruct (IH t) as [_ J]. specialize (J eq_refl). discriminate.
Qed.
Lemma sorted_set_same a b : same_commands a b -> sorted_set a = sorted_set b.
Proof.
  intros S. unfold sorted_set. pose proof (names_perm _ _ (cmd_set_same a b S)) as N. destruct (names (cmd_set a)), (names (cmd_set b)); try contradiction; [now rewrite (sort_perm _ _ N)|].
  replace (existsb (fun c => match c with Name _ => true | Num _ => false end) b) with (existsb (fun c => match c with Name _ => true | Num _ => false end) a); [reflexivity|].
  apply eq_true_iff_eq. rewrite !existsb_exists. split; intros (c & I & E); exists c; split; auto; now apply S.
Qed.

(** C102. With two or more commands, neither their order nor their repetition matters. *)
Theorem c102_order shown a b : same_commands a b -> 2 <= zlen a -> 2 <= zlen b -> choose shown a = choose shown b.
Proof.
  intros S La Lb. destruct a as [|x [|x2 a]]; [cbn in La; lia|cbn in La; lia|]. destruct b as [|y [|y2 b]]; [cbn in Lb; lia|cbn in Lb; lia|]. unfold choose. now rewrite (sorted_set_same _ _ S).
Qed.
Print Assumptions c102_order.

Lemma find_key k c : find_combination k = Some c -> k = sort_texts (together c).
Proof.
  unfold find_combination. destruct (find _ _) as [x|] eqn:F; [|discriminate]. intros [= E]. apply find_some in F as (I & F). apply andb_prop in F as (F1 & F2).
  assert (K : fst x = k).
  { apply Z.eqb_eq in F1. clear I E. revert k F1 F2. generalize (fst x). induction l as [|u l IH]; intros [|v k] F1 F2; try (unfold zlen in F1; cbn in F1; lia); [reflexivity|]. cbn [combine forallb fst snd] in F2. apply andb_prop in F2 as (F2 & F3). apply zlist_eqb_spec in F2 as ->. f_equal. apply IH; [|exact F3]. rewrite !zlen_cons in F1. lia. }
  subst k. cbn in I. repeat destruct I as [<-|I]; try contradiction; cbn [snd] in E; subst c; reflexivity.
Qed.
Lemma key_find c : find_combination (sort_texts (together c)) = Some c.
Proof. destruct c; reflexivity. Qed.

(** A combined class is chosen if and only if exactly the commands of a documented combination are given. *)
Theorem c102_combination_iff shown l c : 2 <= zlen l -> choose shown l = Chosen (Combined c) <-> same_commands l (map Name (together c)).
Proof.
  intros L. destruct l as [|x [|y l]]; [cbn in L; lia|cbn in L; lia|]. set (a := x :: y :: l) in *. assert (E : choose shown a = match sorted_set a with Err e => Failed e | Ok k => match k with Some k => match find_combination k with Some c => Chosen (Combined c) | None => UsageError end | None => UsageError end end) by reflexivity. rewrite E. clear E. split.
  - unfold sorted_set. destruct (names (cmd_set a)) as [t|] eqn:N; [|destruct (existsb _ a); discriminate]. destruct (find_combination (sort_texts t)) as [d|] eqn:F; [|discriminate]. intros [= ->]. apply find_key in F. apply names_some in N.
    intros u. rewrite <- cmd_set_in, N, !in_map_iff. split; intros (v & V1 & V2); exists v; (split; [exact V1|]); apply sort_in; [rewrite <- F|rewrite F]; now apply sort_in.
  - intros S. rewrite (sorted_set_same _ _ S). destruct c; reflexivity.
Qed.
Print Assumptions c102_combination_iff.
Example c102_ex shown : same_commands [Name (str "sign"); Name (str "encrypt"); Name (str "sign")] (map Name (together EncryptAndSign)) /\
  choose shown [Name (str "sign"); Name (str "encrypt"); Name (str "sign")] = Chosen (Combined EncryptAndSign) /\ choose shown [Name (str "sign"); Name (str "verify")] = UsageError.
Proof. split; [intros c; cbn; tauto|split; reflexivity]. Qed.

(** A command given twice is refused, also --fingerprint, of which gpg documents that it may be repeated. *)
Theorem c102_repeated_refuted shown t n : choose shown (repeat (Name t) (S (S n))) = UsageError.
Proof.
  destruct (choose shown (repeat (Name t) (S (S n)))) as [c| |e] eqn:E; [|reflexivity|].
  - exfalso. assert (L : 2 <= zlen (repeat (Name t) (S (S n)))) by (rewrite zlen_repeat; lia).
    destruct c as [m|c].
    + cbn [repeat choose] in E. destruct (sorted_set _) as [k|]; [|discriminate]. destruct k; [|discriminate]. destruct (find_combination l); discriminate.
    + apply (c102_combination_iff shown _ c L) in E. assert (Q : forall d, In d (map Name (together c)) -> d = Name t) by (intros d I; apply E in I; now apply repeat_spec in I).
      destruct c; cbn in Q; pose proof (Q _ (or_introl eq_refl)) as Q1; pose proof (Q _ (or_intror (or_introl eq_refl))) as Q2; congruence.
  - exfalso. cbn [repeat choose] in E. unfold sorted_set in E. destruct (names (cmd_set (Name t :: Name t :: repeat (Name t) n))) as [k|] eqn:N.
    + destruct (find_combination (sort_texts k)); discriminate.
    + assert (Q : cmd_set (Name t :: Name t :: repeat (Name t) n) = [Name t]).
      { apply Permutation_length_1_inv. apply NoDup_Permutation; [constructor; [easy|constructor]|apply cmd_set_nodup|]. intros c. rewrite cmd_set_in. cbn [In]. split; [intros [<-|[]]; now left|]. intros [<-|[<-|I]]; [now left|now left|]. apply repeat_spec in I as ->. now left. }
      rewrite Q in N. discriminate N.
Qed.
Print Assumptions c102_repeated_refuted.

(** The parser of the program cannot be built: two options have the same name. So the program ends with that exception, whatever the arguments. *)
Theorem c102_no_parser_refuted : make_argparser = Err (PgpError 92).
Proof. vm_compute. reflexivity. Qed.
Print Assumptions c102_no_parser_refuted.
Theorem c102_program_refuted {V} shown num parse helpers module_new module_run :
  @main V shown num (do _ <- make_argparser;; parse) helpers module_new module_run = (None, Raised (PgpError 92)).
Proof. rewrite c102_no_parser_refuted. reflexivity. Qed.
Print Assumptions c102_program_refuted.

(** [shown] is the decimal numeral of a number *)
Lemma no_module shown c : (forall n, Forall (fun x => x = 45 \/ 48 <= x <= 57) (shown n)) -> In c COMMANDS -> import_command shown c = Err (PgpError 94).
Proof.
  intros D I. unfold import_command. destruct c as [t|n].
  - unfold COMMANDS in I. cbn [In] in I. repeat destruct I as [I|I]; try contradiction; try discriminate I; injection I as <-; vm_compute; reflexivity.
  - clear I. destruct (existsb (zlist_eqb (package ++ 46 :: shown n)) MODULES) eqn:E; [|reflexivity]. exfalso. apply existsb_exists in E as (m & Im & E). apply zlist_eqb_spec in E. subst m.
    assert (H : forall x, In (package ++ 46 :: x) MODULES -> In 103 x).
    { intros x Ix. unfold MODULES in Ix. apply in_map_iff in Ix as (s & Es & Is). assert (X : x = skipn 13 (str s)) by (rewrite Es; reflexivity). subst x. clear Es.
      cbn [In] in Is. repeat destruct Is as [<-|Is]; try contradiction; (vm_compute; tauto). }
    apply H in Im. pose proof (D n) as F. rewrite Forall_forall in F. apply F in Im. lia.
Qed.
Lemma combos_fail {V} c (v : V) args params : c = FingerprintCheckSigs \/ c = FingerprintListSigs -> combination_new c args (put (str "show_fingerprints") v params) = Err TypeError \/ map fst (put (str "show_fingerprints") v params) = [str "show_fingerprints"].
Proof.
  intros C. set (p := put (str "show_fingerprints") v params). assert (P : exists q, p = q ++ [(str "show_fingerprints", v)] /\ Forall (fun x => fst x <> str "show_fingerprints") q).
  { eexists. split; [reflexivity|]. apply Forall_forall. intros x I. apply filter_In in I as (_ & I). intros E. rewrite E, zlist_eqb_refl in I. discriminate. }
  destruct P as (q & Ep & F). rewrite Ep. destruct q as [|[k w] q]; [right; reflexivity|]. left. apply Forall_inv in F. cbn [fst] in F.
  assert (B : binds (CSig [str "show_fingerprints"] 1 false false) (zlen args - 1) (str "show_fingerprints" :: filter (fun k => negb (zlist_eqb k (str "show_fingerprints"))) (map fst (((k, w) :: q) ++ [(str "show_fingerprints", v)]))) = false).
  { unfold binds. cbn [g_varargs g_names g_keywords g_defaults app map fst filter forallb orb]. rewrite (zlist_eqb_neq k (str "show_fingerprints") F). cbn [negb forallb]. unfold mem at 3. cbn [existsb]. rewrite (zlist_eqb_neq k (str "show_fingerprints") F). rewrite ?andb_false_r, ?andb_false_l. reflexivity. }
  unfold combination_new. destruct (make_it_so (combination_sig c) args _) as [[a kw]|e] eqn:M.
  - unfold make_it_so in M. destruct (binds (combination_sig c) _ _) eqn:BB; [|discriminate M]. destruct C as [->| ->]; cbn [combination_sig g_varargs g_keywords] in M; (assert (M2 : (a, kw) = (args, ((k, w) :: q) ++ [(str "show_fingerprints", v)])) by congruence); rewrite M2; unfold bind; cbv zeta; change (fst (args, ((k, w) :: q) ++ [(str "show_fingerprints", v)])) with args; change (snd (args, ((k, w) :: q) ++ [(str "show_fingerprints", v)])) with (((k, w) :: q) ++ [(str "show_fingerprints", v)]); rewrite B; reflexivity.
  - unfold make_it_so in M. destruct (binds (combination_sig c) _ _) eqn:BB in M; [discriminate M|]. injection M as <-. reflexivity.
Qed.
(** Whatever parser, helpers and command classes are passed to main: no command of the program ever runs, except the three combinations whose
    classes do nothing. *)
Theorem c102_nothing_done_refuted {V} shown num parse helpers module_new module_run c e : (forall n, Forall (fun x => x = 45 \/ 48 <= x <= 57) (shown n)) ->
  (forall a, parse = Ok a -> match q_command a with SList l => Forall (fun x => In x COMMANDS) l | SNone => True | SText t => 2 <= zlen t end) ->
  @main V shown num parse helpers module_new module_run = (Some c, e) -> does_nothing c /\ e = Exit 0.
Proof.
  intros D HC. unfold main. destruct parse as [a|x]; [|discriminate]. specialize (HC a eq_refl). destruct (helpers a) as [[[[[[h1 h2] h3] h4] h5] h6]|x]; [|discriminate]. cbv zeta.
  destruct (choose shown (commands_of (q_command a))) as [k| |x] eqn:Ck; try discriminate.
  assert (K : exists d, k = Combined d).
  { destruct k as [m|d]; [|eauto]. exfalso. destruct (commands_of (q_command a)) as [|x [|y l]] eqn:E; [discriminate Ck| |].
    - destruct (q_command a) as [l| |t]; cbn [commands_of] in E; [subst l|discriminate E|].
      + cbn [choose] in Ck. rewrite (no_module shown x D (Forall_inv HC)) in Ck. discriminate Ck.
      + destruct t as [|u [|w t]]; [discriminate E|cbn in HC; lia|discriminate E].
    - cbn [choose] in Ck. destruct (sorted_set (x :: y :: l)) as [z|]; [|discriminate Ck]. destruct z; [|discriminate Ck]. destruct (find_combination l0); discriminate Ck. }
  destruct K as (d & ->).
  match goal with |- context [combination_new d ?x ?y] => set (p := y); set (ar := x) end.
  destruct (combination_new d ar p) as [u|x] eqn:N; cbn [bind]; [|discriminate]. destruct (q_multifile a); [discriminate|]. intros [= <- <-]. split; [|reflexivity].
  assert (X : ~ (d = FingerprintCheckSigs \/ d = FingerprintListSigs)).
  { intros X. destruct (combos_fail d (num (show_fingerprints (commands_of (q_command a)))) ar (put (str "trustdb_helper") h6 (put (str "keyring_helper") h5
            (put (str "keyserver_helper") h4 (put (str "io_helper") h3 (put (str "formatter") h2 (put (str "algorithm_helper") h1 (q_params a))))))) X) as [Y|Y]; [fold p in Y; congruence|].
    apply (f_equal (@List.length _)) in Y. rewrite map_length in Y. unfold put at 1 in Y. rewrite app_length in Y. cbn [List.length] in Y. unfold put at 1 in Y. rewrite filter_app, app_length in Y. cbn in Y. lia. }
  unfold does_nothing. destruct d; auto; exfalso; apply X; auto.
Qed.
Print Assumptions c102_nothing_done_refuted.
(** Encrypting and signing a file: the status is success, and nothing was done. *)
Theorem c102_success_refuted {V} shown num a helpers h module_new module_run : q_command a = SList [Name (str "encrypt"); Name (str "sign")] -> q_multifile a = false -> helpers a = Ok h ->
  @main V shown num (Ok a) helpers module_new module_run = (Some (Combined EncryptAndSign), Exit 0).
Proof.
  intros C M H. unfold main. rewrite H. destruct h as [[[[[h1 h2] h3] h4] h5] h6]. cbv zeta. rewrite C, M.
  assert (E : choose shown (commands_of (SList [Name (str "encrypt"); Name (str "sign")])) = Chosen (Combined EncryptAndSign)) by reflexivity. rewrite E.
  unfold combination_new, make_it_so. cbn [combination_sig g_varargs g_keywords g_names]. match goal with |- context [filter ?f ?p] => assert (Z : filter f p = []) by (clear; induction p; [reflexivity|assumption]); rewrite Z end. reflexivity.
Qed.
Print Assumptions c102_success_refuted.
(** Nothing runs on several files either: the commands that support it are refused, the others raise. *)
Theorem c102_multifile_refuted {V} shown num a helpers module_new module_run : q_multifile a = true -> fst (@main V shown num (Ok a) helpers module_new module_run) = None.
Proof.
  intros M. unfold main. destruct (helpers a) as [[[[[[h1 h2] h3] h4] h5] h6]|x]; [|reflexivity]. cbv zeta. destruct (choose shown _) as [k| |x]; try reflexivity. match goal with |- context [match ?r with Ok _ => _ | Err _ => _ end] => destruct r as [b|x]; [|reflexivity] end. rewrite M. destruct b; reflexivity.
Qed.
Print Assumptions c102_multifile_refuted.
Definition c102_parsed : @parsed Z := Parsed (SList [Name (str "encrypt"); Name (str "sign")]) [7] false [(str "armor", 1)].
Example c102_main_ex : (forall n, Forall (fun x => x = 45 \/ 48 <= x <= 57) ((fun _ : Z => [51; 57]) n)) /\ Forall (fun x => In x COMMANDS) [Name (str "encrypt"); Name (str "sign")] /\
  main (fun _ => [51; 57]) (fun n => n) (Ok c102_parsed) (fun _ => Ok (1, 2, 3, 4, 5, 6)) (fun _ _ _ => Ok false) (fun _ _ => Ok tt) = (Some (Combined EncryptAndSign), Exit 0) /\
  main (fun _ => [51; 57]) (fun n => n) (Ok (Parsed (SList [Name (str "sign")]) [7] false [])) (fun _ => Ok (1, 2, 3, 4, 5, 6)) (fun _ _ _ => Ok false) (fun _ _ => Ok tt) = (None, Raised (PgpError 94)).
Proof. split; [intros n; repeat constructor; lia|]. split; [repeat (apply Forall_cons; [cbn; tauto|]); apply Forall_nil|]. split; vm_compute; reflexivity. Qed.

(** Every constructor gets exactly the parameters it names, and it is called whenever those without a default are there. *)
Theorem c102_parameters {V} names defaults (args : list V) params : 0 <= defaults <= zlen names ->
  make_it_so (CSig names defaults false false) args params =
    if forallb (fun k => existsb (zlist_eqb k) (map fst params)) (firstn (Z.to_nat (zlen names - defaults)) names) then Ok ([], filter (fun x => existsb (zlist_eqb (fst x)) names) params) else Err TypeError.
Proof.
  intros L. unfold make_it_so. cbn [g_varargs g_keywords g_names]. unfold binds. cbn [g_varargs g_keywords g_names g_defaults orb]. change (zlen (@nil V)) with 0. cbn [Z.to_nat firstn skipn existsb negb andb].
  replace (0 <=? zlen names) with true by (pose proof (zlen_nonneg names); lia). cbn [andb].
  assert (A : forallb (fun k => mem k names) (map fst (filter (fun x => mem (fst x) names) params)) = true).
  { apply forallb_forall. intros k I. apply in_map_iff in I as (x & <- & I). apply filter_In in I as (_ & I). exact I. }
  rewrite A. cbn [andb]. replace (List.length names - Z.to_nat defaults)%nat with (Z.to_nat (zlen names - defaults)) by (unfold zlen in *; lia).
  assert (B : forall l, incl l names -> forallb (fun k => mem k (map fst (filter (fun x => mem (fst x) names) params))) l = forallb (fun k => existsb (zlist_eqb k) (map fst params)) l).
  { induction l as [|k l IH]; intros I; [reflexivity|]. cbn [forallb]. rewrite IH by (intros z J; apply I; now right). f_equal. apply eq_true_iff_eq. unfold mem. rewrite !existsb_exists. split; intros (z & J & E); exists z; (split; [|exact E]); apply in_map_iff in J as (y & <- & J); apply in_map.
    - now apply filter_In in J.
    - apply filter_In. split; [exact J|]. apply existsb_exists. exists k. split; [apply I; now left|]. apply zlist_eqb_spec in E. apply zlist_eqb_spec. congruence. }
  rewrite B; [reflexivity|]. intros z J. rewrite <- (firstn_skipn (Z.to_nat (zlen names - defaults)) names). apply in_or_app. now left.
Qed.
Print Assumptions c102_parameters.
Example c102_parameters_ex : make_it_so (CSig [str "a"; str "b"] 1 false false) [9] [(str "c", 1); (str "a", 2)] = Ok ([], [(str "a", 2)]) /\ make_it_so (CSig [str "a"; str "b"] 0 false false) [9] [(str "c", 1); (str "a", 2)] = Err TypeError.
Proof. split; vm_compute; reflexivity. Qed.

(** A usage error never leads to an exit status: the usage is written, then the exception is a NameError. *)
Theorem c102_usage_error_refuted usage message : parser_error usage message = (usage, Err (PgpError 93)).
Proof. reflexivity. Qed.
Print Assumptions c102_usage_error_refuted.

(** C103. Arguments given as octets are decoded, in order, with the encoding in force; arguments given as text are dropped. *)
Theorem c103_arguments_partial decode use_default default l :
  decode_arg_strings decode use_default default l =
    mapM (decode (if use_default then default else str "utf8")) (flat_map (fun a => match a with AText _ => [] | ABytes b => [b] end) l).
Proof.
  unfold decode_arg_strings. induction l as [|a l IH]; [reflexivity|]. cbn [mapM flat_map]. destruct a as [t|b]; cbn [app bind].
  - rewrite <- IH. destruct (mapM _ l); reflexivity.
  - cbn [mapM]. destruct (decode _ b) as [t|e]; [|reflexivity]. cbn [bind]. rewrite <- IH. destruct (mapM _ l); reflexivity.
Qed.
Print Assumptions c103_arguments_partial.
Theorem c103_texts_lost_refuted decode use_default default (l : list text) : decode_arg_strings decode use_default default (map AText l) = Ok [].
Proof. rewrite c103_arguments_partial. induction l as [|t l IH]; [reflexivity|exact IH]. Qed.
Print Assumptions c103_texts_lost_refuted.
(** No list of arguments is ever parsed, whatever the options are. *)
Theorem c103_never_parsed_refuted {N} (base : list arg -> res (N * list arg)) args r : parse_known_args base args <> Ok r.
Proof. unfold parse_known_args. destruct (base args); discriminate. Qed.
Print Assumptions c103_never_parsed_refuted.
Example c103_ex : decode_arg_strings (fun e b => Ok (e ++ b)) false (str "ascii") [ABytes [1]; AText (str "x"); ABytes [2]] = Ok [str "utf8" ++ [1]; str "utf8" ++ [2]].
Proof. vm_compute. reflexivity. Qed.

(** C104. The sign commands never succeed. *)
Theorem c104_never_signs_refuted {K S} decode (sign : K -> literal -> res S) can_write now kind fs key compression armor mf eyes out filename :
  exists e, snd (sign_command decode sign can_write now kind fs key compression armor mf eyes out filename) = Err e.
Proof.
  unfold sign_command. destruct (file_to_literal_message _ _ _ _ _ _ _ _) as [m|e]; [|eauto]. destruct key as [k|]; [|cbn; eauto]. destruct (sign k m) as [s|e]; [|eauto].
  cbv zeta. destruct (match make_output_filename armor filename with Some o => Some o | None => out end) as [o|]; destruct kind; try (cbn; eauto; fail).
  all: try (destruct compression; try (cbn; eauto; fail)). all: destruct (truthy _); [|cbn; eauto]; try destruct (can_write o); cbn; eauto.
Qed.
Print Assumptions c104_never_signs_refuted.
(** A failing command leaves every file as it is, except that the output file can be emptied. *)
Theorem c104_files_partial {K S} decode (sign : K -> literal -> res S) can_write now kind fs key compression (armor : bool) mf eyes out (f g : text) :
  let fs' := fst (sign_command decode sign can_write now kind fs key compression armor mf eyes out (Some f)) in
  fs' g = fs g \/ g = f ++ 46 :: (if armor then str "asc" else str "gpg") /\ fs' g = Some ([], now).
Proof.
  cbv zeta. unfold sign_command. destruct (file_to_literal_message _ _ _ _ _ _ _ _) as [m|e]; [|now left]. destruct key as [k|]; [|now left]. destruct (sign k m) as [s|e]; [|now left].
  cbn [make_output_filename]. set (o := f ++ 46 :: (if armor then str "asc" else str "gpg")). assert (T : fst (if truthy (Some o) then if can_write o then (fun x => if zlist_eqb x o then Some ([], now) else fs x, @Err unit AttributeError) else (fs, Err (PgpError 91)) else (fs, Err AttributeError)) g = fs g \/
    g = o /\ fst (if truthy (Some o) then if can_write o then (fun x => if zlist_eqb x o then Some ([], now) else fs x, @Err unit AttributeError) else (fs, Err (PgpError 91)) else (fs, Err AttributeError)) g = Some ([], now)).
  { destruct (truthy (Some o)); [|now left]. destruct (can_write o); [|now left]. cbn [fst]. destruct (zlist_eqb g o) eqn:E; [right|now left]. apply zlist_eqb_spec in E. now split. }
  destruct kind; [destruct compression; [exact T|now left|now left]|exact T|now left].
Qed.
Print Assumptions c104_files_partial.
(** With the library's own keyring helper there is no key, and nothing changes. *)
Theorem c104_no_key {K S} decode (sign : K -> literal -> res S) can_write now kind fs compression armor mf eyes out filename :
  fst (sign_command decode sign can_write now kind fs None compression armor mf eyes out filename) = fs.
Proof. unfold sign_command. destruct (file_to_literal_message _ _ _ _ _ _ _ _); reflexivity. Qed.
Print Assumptions c104_no_key.
(** Clear-signing with a key, and signing without compression, destroy what the output file held. *)
Theorem c104_output_emptied_refuted {K S} decode (sign : K -> literal -> res S) can_write now kind fs k compression (armor : bool) mf eyes out (f : text) d m s :
  fs f = Some d -> kind = Clearsign \/ kind = Sign /\ compression = 0 -> file_to_literal_message decode fs mf eyes false (Some f) true None = Ok m -> sign k m = Ok s ->
  can_write (f ++ 46 :: (if armor then str "asc" else str "gpg")) = true ->
  fst (sign_command decode sign can_write now kind fs (Some k) compression armor mf eyes out (Some f)) (f ++ 46 :: (if armor then str "asc" else str "gpg")) = Some ([], now).
Proof.
  intros F Kd M Sg W. unfold sign_command. rewrite M, Sg. cbn [make_output_filename]. set (o := f ++ 46 :: (if armor then str "asc" else str "gpg")) in *.
  assert (T : truthy (Some o) = true) by (unfold o; destruct f; reflexivity). rewrite W, T. destruct Kd as [-> |[-> ->]]; cbn [fst]; now rewrite zlist_eqb_refl.
Qed.
Print Assumptions c104_output_emptied_refuted.
Example c104_ex : let fs := fun f => if zlist_eqb f (str "a") then Some ([1; 2], 5) else if zlist_eqb f (str "a.gpg") then Some ([9], 6) else None in
  let r := sign_command (fun (_ : text) (b : bytes) => Ok b) (fun (_ : unit) (_ : literal) => Ok tt) (fun _ : text => true) 8 Sign fs (Some tt) 0 false None false None (Some (str "a")) in
  fst r (str "a.gpg") = Some ([], 8) /\ fst r (str "a") = Some ([1; 2], 5) /\ snd r = Err AttributeError.
Proof. cbv zeta. repeat split. Qed.
