(** C90-C92: the helpers of the gpg command. *)
From Coq Require Import String.
From Verif Require Import Base BaseProofs Text Commands SpecCommands CommandsProofs.
Open Scope Z_scope.

(** ** C90: the choice of algorithms *)
(** Without an explicit cipher, the one chosen is the first of the personal preferences (of the default list if there are none) that is not disabled;
    the preferences given are left without the disabled ones. *)
Theorem c90_first_not_disabled : forall d a d' p h, new_helper d a = (d', p, Ok h) -> g_cipher a = None ->
  exists disabled, g_disabled a = Some disabled /\ first_not_in disabled (match g_personal a with Some (x :: t) => x :: t | _ => d end) (h_cipher h).
Proof.
  intros d a d' p h H Hc. unfold new_helper in H. destruct (g_disabled a) as [out|]; [|discriminate H]. exists out. split; [reflexivity|]. rewrite Hc in H.
  destruct (g_personal a) as [l|].
  - rewrite disable_some in H. destruct (g_disabled_pub a); [|discriminate H]. destruct l as [|x t]; cbv iota beta in H.
    + destruct (get (dropped out d) 0) as [c|] eqn:G; [|discriminate H]. cbn [bind] in H. apply first_of in G.
      destruct (match g_digest a with Some g => Ok g | None => get (or_list (g_personal_digest a) DEFAULT_DIGESTS) 0 end); [|discriminate H]. cbn [bind] in H.
      destruct (match g_compress a with Some g => Ok g | None => get (or_list (g_personal_compress a) DEFAULT_COMPRESSION) 0 end); [|discriminate H]. cbn [bind] in H. injection H as _ _ <-. exact G.
    + destruct (get (dropped out (x :: t)) 0) as [c|] eqn:G; [|discriminate H]. cbn [bind] in H. apply first_of in G.
      destruct (match g_digest a with Some g => Ok g | None => get (or_list (g_personal_digest a) DEFAULT_DIGESTS) 0 end); [|discriminate H]. cbn [bind] in H.
      destruct (match g_compress a with Some g => Ok g | None => get (or_list (g_personal_compress a) DEFAULT_COMPRESSION) 0 end); [|discriminate H]. cbn [bind] in H. injection H as _ _ <-. exact G.
  - destruct out as [|x out]; [|discriminate H]. cbn [disable] in H. destruct (g_disabled_pub a); [|discriminate H].
    destruct (get d 0) as [c|] eqn:G; [|discriminate H]. cbn [bind] in H. assert (N : dropped [] d = d) by (clear; induction d as [|c l IH]; [reflexivity|cbn; now f_equal]). rewrite <- N in G. apply first_of in G.
    destruct (match g_digest a with Some g => Ok g | None => get (or_list (g_personal_digest a) DEFAULT_DIGESTS) 0 end); [|discriminate H]. cbn [bind] in H.
    destruct (match g_compress a with Some g => Ok g | None => get (or_list (g_personal_compress a) DEFAULT_COMPRESSION) 0 end); [|discriminate H]. cbn [bind] in H. injection H as _ _ <-. exact G.
Qed.
Print Assumptions c90_first_not_disabled.
(** With preferences of one's own, the history does not matter: the same object or exception, and the module's list is unchanged. The list of
    preferences that was passed is changed: it loses the disabled ones. *)
Theorem c90_own_preferences : forall d1 d2 a x t, g_personal a = Some (x :: t) ->
  fst (fst (new_helper d1 a)) = d1 /\ snd (new_helper d1 a) = snd (new_helper d2 a) /\
  (forall disabled, g_disabled a = Some disabled -> exists l, snd (fst (new_helper d1 a)) = Some l /\ without disabled l (x :: t)).
Proof.
  intros d1 d2 a x t H. unfold new_helper. rewrite H. destruct (g_disabled a) as [out|]; [|split; [reflexivity|]; split; [reflexivity|]; intros o Q; discriminate Q]. rewrite !disable_some. cbn [fst snd].
  split; [reflexivity|]. split; [reflexivity|]. intros o Q. injection Q as <-. eexists. split; [reflexivity|]. apply dropped_without.
Qed.
Print Assumptions c90_own_preferences.
(** Refuted: a helper without preferences depends on the helpers made before it in the same process: what one of those disabled is disabled for
    good, and once all of the list is, no such helper can be made any more. *)
Theorem c90_history_refuted : forall before a after b disabled c, g_personal a = Some [] -> g_disabled a = Some disabled -> In c disabled ->
  (g_personal b = None \/ g_personal b = Some []) -> g_cipher b = None ->
  let d := default_after DEFAULT_CIPHERS (before ++ a :: after) in
  (forall d' p h, new_helper d b = (d', p, Ok h) -> h_cipher h <> c) /\
  (incl DEFAULT_CIPHERS disabled -> g_disabled b = Some [] -> g_disabled_pub b <> None -> snd (new_helper d b) = Err IndexError).
Proof.
  intros before a after b out c Ha Hd Hi Hb Hc d.
  assert (N : forall x, In x out -> ~ In x d).
  { intros x I J. unfold d in J. rewrite default_app in J. change (a :: after) with ([a] ++ after) in J. rewrite default_app in J. apply default_incl in J. cbn [default_after fold_left] in J. unfold new_helper in J. rewrite Ha, Hd, disable_some in J. cbn [fst] in J. unfold dropped in J. apply filter_In in J as [_ J]. rewrite (proj2 (is_in_spec x out) I) in J. discriminate J. }
  split.
  - intros d' p h H E. destruct (c90_first_not_disabled d b d' p h H Hc) as (o & _ & pre & post & S & _). apply (N c Hi). rewrite <- E. destruct Hb as [Hb|Hb]; rewrite Hb in S; rewrite S; apply in_or_app; right; now left.
  - intros Hall Hbd Hbp. assert (D : d = []). { destruct d as [|x t] eqn:Q; [reflexivity|]. exfalso. apply (N x); [|now left]. apply Hall. eapply (default_incl (before ++ a :: after)). fold d. rewrite Q. now left. }
    unfold new_helper. rewrite Hbd, Hc. destruct (g_disabled_pub b); [|easy]. destruct Hb as [Hb|Hb]; rewrite Hb; [cbn [disable]|rewrite disable_some]; rewrite D; reflexivity.
Qed.
Print Assumptions c90_history_refuted.
(** Both lists of what is disabled must be given (an option that is not used is None): otherwise TypeError. *)
Theorem c90_lists_needed : forall d a, (g_disabled a = None -> new_helper d a = (d, g_personal a, Err TypeError)) /\
  (g_disabled a = Some [] -> g_disabled_pub a = None -> new_helper d a = (d, g_personal a, Err TypeError)).
Proof.
  intros d a. split; [intros Q; unfold new_helper; rewrite Q; reflexivity|]. intros Q1 Q2. unfold new_helper. rewrite Q1, Q2. destruct (g_personal a) as [[|x t]|]; reflexivity.
Qed.
Print Assumptions c90_lists_needed.
(** Refuted: a disabled cipher is used if it is asked for; and without a list of preferences (the default of the command line is None) nothing can be
    disabled: TypeError, after the module's list has lost the first of the disabled ones. *)
Theorem c90_disabled_refuted : forall d a c disabled, g_disabled a = Some disabled ->
  (g_cipher a = Some c -> forall d' p h, new_helper d a = (d', p, Ok h) -> h_cipher h = c) /\
  (forall x t, g_personal a = None -> disabled = x :: t -> snd (new_helper d a) = Err TypeError /\ without [x] (fst (fst (new_helper d a))) d).
Proof.
  intros d a c out Hd. split.
  - intros Hc d' p h H. unfold new_helper in H. rewrite Hd, Hc in H. destruct (disable _ out d (g_personal a)) as [[d0 p0] [e|]]; [discriminate H|]. destruct (g_disabled_pub a); [|discriminate H]. cbn [bind] in H.
    destruct (match g_digest a with Some g => Ok g | None => get (or_list (g_personal_digest a) DEFAULT_DIGESTS) 0 end); [|discriminate H]. cbn [bind] in H.
    destruct (match g_compress a with Some g => Ok g | None => get (or_list (g_personal_compress a) DEFAULT_COMPRESSION) 0 end); [|discriminate H]. cbn [bind] in H. injection H as _ _ <-. reflexivity.
  - intros x t Hp ->. unfold new_helper. rewrite Hd, Hp. cbn [disable fst snd]. split; [reflexivity|]. assert (E : drop x d = dropped [x] d).
    { rewrite <- (drop_dropped x [] d). generalize (drop x d). clear. intros l. induction l as [|c l IH]; [reflexivity|]. cbn. now f_equal. }
    rewrite E. apply dropped_without.
Qed.
Print Assumptions c90_disabled_refuted.
(** The numbers of the algorithms are those of the RFCs. Unknown names of ciphers, and of compression algorithms, give 0; of digests None. *)
Theorem c90_codes : forall v,
  (forall n, In (v, n) rfc_ciphers -> cipher_code v = n) /\ ((forall n, ~ In (v, n) rfc_ciphers) -> cipher_code v = 0) /\
  (forall n, In (v, n) rfc_digests <-> digest_code v = Some n) /\
  (forall n, In (v, n) rfc_compressions -> compression_code v = n) /\ ((forall n, ~ In (v, n) rfc_compressions) -> compression_code v = 0).
Proof.
  assert (Nm : forall v s, is_name v s = true -> v = str s) by (intros v s H; now apply zlist_eqb_spec). intros v.
  split; [|split; [|split; [|split]]].
  - intros n I. unfold rfc_ciphers in I. cbn [In] in I. repeat (destruct I as [I|I]; [injection I as <- <-; reflexivity|]). contradiction.
  - intros H. unfold cipher_code. repeat match goal with |- context [is_name v ?s] => destruct (is_name v s) eqn:?; [exfalso; match goal with E : is_name v s = true |- _ => apply Nm in E; subst v; eapply H; unfold rfc_ciphers; cbn [In]; tauto end|] end. reflexivity.
  - intros n. split.
    + intros I. unfold rfc_digests in I. cbn [In] in I. repeat (destruct I as [I|I]; [injection I as <- <-; reflexivity|]). contradiction.
    + unfold digest_code. intros H. repeat match type of H with context [is_name v ?s] => destruct (is_name v s) eqn:?; [injection H as <-; match goal with E : is_name v s = true |- _ => apply Nm in E; subst v; unfold rfc_digests; cbn [In]; tauto end|] end. discriminate H.
  - intros n I. unfold rfc_compressions in I. cbn [In] in I. repeat (destruct I as [I|I]; [injection I as <- <-; reflexivity|]). contradiction.
  - intros H. unfold compression_code. repeat match goal with |- context [is_name v ?s] => destruct (is_name v s) eqn:?; [exfalso; match goal with E : is_name v s = true |- _ => apply Nm in E; subst v; eapply H; unfold rfc_compressions; cbn [In]; tauto end|] end. reflexivity.
Qed.
Print Assumptions c90_codes.
(** Refuted: only the first preference is ever offered; an unknown name (also one in capitals) is plaintext, number 0; two of the digests of the
    default list, and bzip2 as the manual spells it, have no number. *)
Theorem c90_offers_refuted : forall h, h_cipher h <> [] ->
  get_preferred_ciphers_for_encryption h = Ok [cipher_code (h_cipher h)] /\
  ((forall n, ~ In (h_cipher h, n) rfc_ciphers) -> get_preferred_ciphers_for_encryption h = Ok [0]) /\
  cipher_code (str "AES256") = 0 /\ map digest_code DEFAULT_DIGESTS = [Some 10; Some 8; Some 3; None; None; Some 1] /\ compression_code (str "bzip2") = 0.
Proof.
  intros h N. assert (E : get_preferred_ciphers_for_encryption h = Ok [cipher_code (h_cipher h)]) by (unfold get_preferred_ciphers_for_encryption; destruct (h_cipher h); [easy|reflexivity]).
  split; [exact E|]. split; [intros H; rewrite E; now rewrite (proj1 (proj2 (c90_codes (h_cipher h))) H)|]. split; [reflexivity|]. split; reflexivity.
Qed.
Print Assumptions c90_offers_refuted.
(** The level of compression: -z sets it for every algorithm, otherwise there is one for zip and zlib and one for bz2; other algorithms have level 0. *)
Theorem c90_level : forall d a d' p h n, new_helper d a = (d', p, Ok h) ->
  (In (h_compress h, n) rfc_compressions -> get_compression_level h = match g_level a with Some l => l | None => if n =? 3 then g_bz a else g_z a end) /\
  ((forall n, ~ In (h_compress h, n) rfc_compressions) -> get_compression_level h = 0).
Proof.
  intros d a d' p h n H. assert (L : h_z h = match g_level a with Some l => l | None => g_z a end /\ h_bz h = match g_level a with Some l => l | None => g_bz a end).
  { unfold new_helper in H. destruct (g_disabled a) as [out|]; [|discriminate H]. destruct (disable _ out d (g_personal a)) as [[d0 p0] [e|]]; [discriminate H|]. destruct (g_disabled_pub a); [|discriminate H].
    match type of H with (_, _, bind ?x _) = _ => destruct x; [|discriminate H] end. cbn [bind] in H. match type of H with (_, _, bind ?x _) = _ => destruct x; [|discriminate H] end. cbn [bind] in H. match type of H with (_, _, bind ?x _) = _ => destruct x; [|discriminate H] end. cbn [bind] in H.
    injection H as _ _ <-. split; reflexivity. }
  destruct L as [L1 L2]. destruct (c90_codes (h_compress h)) as (_ & _ & _ & C1 & C2). split.
  - intros I. unfold get_compression_level. rewrite (C1 n I). unfold rfc_compressions in I. cbn [In] in I. rewrite L1, L2. repeat (destruct I as [I|I]; [injection I as _ <-; cbv [Z.eqb Pos.eqb orb]; destruct (g_level a); reflexivity|]). contradiction.
  - intros N. unfold get_compression_level. rewrite (C2 N). reflexivity.
Qed.
Print Assumptions c90_level.
Definition ex_args (p : option (list text)) (dis : list text) (c : option text) : aargs := AArgs p None None (Some dis) (Some []) c None None None 6 9 None.
Example c90_ex : exists h, new_helper DEFAULT_CIPHERS (ex_args (Some (map str ["twofish"; "aes"; "3des"]%string)) [str "twofish"] None) = (DEFAULT_CIPHERS, Some (map str ["aes"; "3des"]%string), Ok h) /\
  h_cipher h = str "aes" /\ get_preferred_ciphers_for_encryption h = Ok [7] /\ get_compression_level h = 6.
Proof. eexists. split; [vm_compute; reflexivity|]. vm_compute. auto. Qed.
Example c90_history_ex : exists h, snd (new_helper (default_after DEFAULT_CIPHERS [ex_args (Some []) [str "aes256"] None]) (ex_args None [] None)) = Ok h /\ h_cipher h = str "camellia256".
Proof. eexists. split; [vm_compute; reflexivity|reflexivity]. Qed.

(** ** C91: recipients *)
(** Without groups, the recipients are those given, in order, then those of encrypt-to unless that is switched off; every one of the former has been
    checked. *)
Theorem c91_without_groups : forall check rs hs ts hts no_to grps ungroups no_groups, grps = [] \/ no_groups = true ->
  exists h, new_recipients rs hs ts hts no_to grps ungroups no_groups = Ok h /\
    ((forall r, In r rs -> check r = Ok tt) -> get_recipients check h = Ok (rs ++ if no_to then [] else ts)) /\
    ((forall r, In r hs -> check r = Ok tt) -> get_hidden_recipients check h = Ok (hs ++ if no_to then [] else hts)) /\
    (forall l, get_recipients check h = Ok l -> forall r, In r rs -> check r = Ok tt).
Proof.
  intros check rs hs ts hts no_to grps ungroups no_groups Hg. assert (G : (if no_groups then [] else grps) = []) by (destruct Hg as [-> | ->]; [now destruct no_groups|reflexivity]).
  unfold new_recipients. rewrite G. cbn [read_groups bind filter]. eexists. split; [reflexivity|].
  assert (X : forall l, expand_all [] l = Ok l) by (induction l as [|r l IH]; [reflexivity|cbn [expand_all find_group]; now rewrite IH]).
  assert (C : forall l, (forall r, In r l -> check r = Ok tt) -> check_all check l = Ok tt). { induction l as [|r l IH]; intros H; [reflexivity|]. cbn [check_all]. rewrite (H r) by now left. cbn [bind]. apply IH. intros r' I. apply H. now right. }
  assert (C2 : forall l, check_all check l = Ok tt -> forall r, In r l -> check r = Ok tt). { induction l as [|r l IH]; intros H r' I; [destruct I|]. cbn [check_all] in H. destruct (check r) as [[]|] eqn:E; [|discriminate H]. destruct I as [<-|I]; [exact E|now apply IH]. }
  unfold get_recipients, get_hidden_recipients, get_list. cbn [e_groups e_recipients e_hidden e_to e_hidden_to]. rewrite !X. cbn [bind]. split; [|split].
  - intros H. rewrite (C rs H). cbn [bind]. reflexivity.
  - intros H. rewrite (C hs H). cbn [bind]. reflexivity.
  - intros l H. destruct (check_all check rs) as [[]|] eqn:E; [|discriminate H]. now apply C2.
Qed.
Print Assumptions c91_without_groups.
(** Refuted: with groups, the recipients that were given are lost, whatever they are: those of the last group take their place. *)
Theorem c91_groups_replace_recipients_refuted : forall check rs rs' hs ts hts no_to before n members ungroups h,
  new_recipients rs hs ts hts no_to (before ++ [n ++ 61 :: members]) ungroups false = Ok h -> ~ In 61 n ->
  separated members (e_recipients h) /\ new_recipients rs' hs ts hts no_to (before ++ [n ++ 61 :: members]) ungroups false = Ok h /\
  (forall l, get_recipients check h = Ok l -> exists more, l = e_recipients h ++ more).
Proof.
  intros check rs rs' hs ts hts no_to before n members ungroups h H Hn.
  assert (R : forall g r0 x y, read_groups (before ++ [n ++ 61 :: members]) g r0 = Ok (x, y) -> y = words members /\ forall r1, read_groups (before ++ [n ++ 61 :: members]) g r1 = Ok (x, y)).
  { clear H. induction before as [|v before IH]; intros g r0 x y H; cbn [app read_groups] in *.
    - destruct (split_group (n ++ 61 :: members)) as [[a b]|] eqn:S; [|discriminate H]. pose proof S as S'. apply split_group_ok in S as (E & N1 & N2). assert (Q : a = n /\ b = members).
      { pose proof (split_eq n members Hn) as P1. rewrite E in P1. rewrite (split_eq a b N1) in P1. injection P1 as -> ->. auto. }
      destruct Q as [-> ->]. cbn [bind] in H. injection H as <- <-. split; [reflexivity|]. intros r1. reflexivity.
    - destruct (split_group v) as [[a b]|] eqn:S; [|discriminate H]. cbn [bind] in *. apply IH in H as [-> H]. split; [reflexivity|]. intros r1. apply H. }
  unfold new_recipients in *. destruct (read_groups (before ++ [n ++ 61 :: members]) [] rs) as [[g r]|] eqn:E; [|discriminate H]. destruct (R _ _ _ _ E) as [-> R2]. cbn [bind] in H. injection H as <-. cbn [e_recipients e_groups e_to]. split; [apply words_separated|]. split; [rewrite (R2 rs'); reflexivity|].
  intros l. unfold get_recipients, get_list. cbn [e_groups e_recipients e_to]. intros H. match type of H with bind ?x _ = _ => destruct x as [a|] eqn:Q; [|discriminate H] end. cbn [bind] in H.
  match type of H with bind ?x _ = _ => destruct x; [|discriminate H] end. cbn [bind] in H. match type of H with bind ?x _ = _ => destruct x as [b|]; [|discriminate H] end. cbn [bind] in H. injection H as <-. exists b. f_equal.
  revert Q. generalize (words members). clear. intros l. revert a. induction l as [|r l IH]; intros a Q; cbn [expand_all] in Q; [injection Q as <-; reflexivity|].
  destruct (find_group (filter (fun x => negb (is_in (fst x) ungroups)) g) r); [discriminate Q|]. destruct (expand_all _ l) as [x|] eqn:F; [|discriminate Q]. cbn [bind] in Q. injection Q as <-. f_equal. now apply IH.
Qed.
Print Assumptions c91_groups_replace_recipients_refuted.
(** The group of a name holds the members of all its --group options, in order, unless it is ungrouped. *)
Definition members_of (n : text) (vals : list text) : list text :=
  flat_map (fun v => match split_once [61] v with Some (m, r) => if zlist_eqb m n then words r else [] | None => [] end) vals.
Theorem c91_group_members : forall rs hs ts hts no_to grps ungroups h n, new_recipients rs hs ts hts no_to grps ungroups false = Ok h ->
  match find_group (e_groups h) n with
  | Some l => ~ In n ungroups /\ l = members_of n grps
  | None => In n ungroups \/ forall r, ~ In (n ++ 61 :: r) grps \/ In 61 n
  end.
Proof.
  intros rs hs ts hts no_to grps ungroups h n H. unfold new_recipients in H. destruct (read_groups grps [] rs) as [[g r]|] eqn:E; [|discriminate H]. cbn [bind] in H. injection H as <-. cbn [e_groups].
  assert (X : forall g0 m l, find_group (extend_group g0 m l) n = if zlist_eqb m n then Some (match find_group g0 n with Some k => k ++ l | None => l end) else find_group g0 n).
  { clear. induction g0 as [|[a k] g0 IH]; intros m l; cbn [extend_group find_group].
    - destruct (zlist_eqb m n); reflexivity.
    - destruct (zlist_eqb a m) eqn:A; cbn [find_group].
      + apply zlist_eqb_spec in A. subst a. destruct (zlist_eqb m n); reflexivity.
      + destruct (zlist_eqb a n) eqn:B; [|apply IH]. apply zlist_eqb_spec in B. subst a. destruct (zlist_eqb m n) eqn:C; [|reflexivity]. apply zlist_eqb_spec in C. subst m. rewrite zlist_eqb_refl in A. discriminate A. }
  assert (Y : forall vals g0 r0 x y, read_groups vals g0 r0 = Ok (x, y) ->
    find_group x n = match find_group g0 n with Some k => Some (k ++ members_of n vals) | None => if existsb (fun v => match split_once [61] v with Some (m, _) => zlist_eqb m n | None => false end) vals then Some (members_of n vals) else None end).
  { clear - X. induction vals as [|v vals IH]; intros g0 r0 x y H; cbn [read_groups] in H.
    - injection H as <- <-. destruct (find_group g0 n) as [k|]; [cbn; now rewrite app_nil_r|reflexivity].
    - unfold split_group in H. cbn [existsb members_of flat_map]. destruct (split_once [61] v) as [[m q]|] eqn:S; [|discriminate H]. destruct (split_once [61] q); [discriminate H|]. cbn [bind] in H. rewrite (IH _ _ _ _ H), X. destruct (zlist_eqb m n); cbn [orb].
      + destruct (find_group g0 n); [now rewrite <- app_assoc|reflexivity].
      + destruct (find_group g0 n); reflexivity. }
  assert (F : forall g0, find_group (filter (fun x => negb (is_in (fst x) ungroups)) g0) n = if is_in n ungroups then None else find_group g0 n).
  { clear. induction g0 as [|[a k] g0 IH]; cbn [filter find_group fst]; [destruct (is_in n ungroups); reflexivity|]. destruct (is_in a ungroups) eqn:A; cbn [negb find_group]; rewrite IH.
    - destruct (zlist_eqb a n) eqn:B; [|reflexivity]. apply zlist_eqb_spec in B. subst a. now rewrite A.
    - destruct (zlist_eqb a n) eqn:B; [|reflexivity]. apply zlist_eqb_spec in B. subst a. now rewrite A. }
  rewrite F, (Y _ _ _ _ _ E). cbn [find_group]. destruct (is_in n ungroups) eqn:U; [left|].
  - unfold is_in in U. apply existsb_exists in U as (z & I & Z1). apply zlist_eqb_spec in Z1. now subst z.
  - destruct (existsb _ grps) eqn:G.
    + split; [|reflexivity]. intros I. assert (is_in n ungroups = true); [|congruence]. apply existsb_exists. exists n. split; [exact I|apply zlist_eqb_refl].
    + right. intros q. destruct (in_dec Z.eq_dec 61 n) as [J|J]; [now right|left]. intros I. assert (existsb (fun v => match split_once [61] v with Some (m, _) => zlist_eqb m n | None => false end) grps = true); [|congruence].
      apply existsb_exists. exists (n ++ 61 :: q). split; [exact I|]. rewrite (split_eq n q J). apply zlist_eqb_refl.
Qed.
Print Assumptions c91_group_members.
Example c91_group_ex : exists h, new_recipients [] [] [] [] false (map str ["g=a b"; "k=c"; "g=d"]%string) [str "k"] false = Ok h /\ find_group (e_groups h) (str "g") = Some (map str ["a"; "b"; "d"]%string) /\ find_group (e_groups h) (str "k") = None.
Proof. eexists. split; [vm_compute; reflexivity|split; vm_compute; reflexivity]. Qed.
(** Refuted: a recipient (or encrypt-to) that is the name of a group always fails, and with the trust database helper that comes with the package so
    does any recipient. *)
Theorem c91_unusable_refuted : forall check h r members,
  (In r (e_recipients h) -> find_group (e_groups h) r = Some members -> get_recipients check h = Err AttributeError) /\
  (e_recipients h <> [] -> get_recipients shipped_check h = Err AttributeError).
Proof.
  intros check h r members. assert (A : forall g l e, expand_all g l = Err e -> e = AttributeError) by (intros g l; induction l as [|y l IH]; intros e H; cbn [expand_all] in H; [discriminate H|]; destruct (find_group g y); [injection H as <-; reflexivity|]; destruct (expand_all g l) as [z|e2]; [discriminate H|]; cbn [bind] in H; injection H as <-; now apply IH).
  split.
  - intros I F. unfold get_recipients, get_list. assert (E : expand_all (e_groups h) (e_recipients h) = Err AttributeError); [|now rewrite E].
    revert I. generalize (e_recipients h). induction l as [|y l IH]; intros I; [destruct I|]. cbn [expand_all]. destruct I as [<-|I]; [now rewrite F|]. destruct (find_group (e_groups h) y); [reflexivity|]. now rewrite (IH I).
  - intros N. unfold get_recipients, get_list. destruct (expand_all (e_groups h) (e_recipients h)) as [a|e] eqn:E.
    + cbn [bind]. destruct (e_recipients h) as [|y l]; [easy|]. cbn [expand_all] in E. destruct (find_group (e_groups h) y); [discriminate E|]. destruct (expand_all (e_groups h) l); [|discriminate E]. cbn [bind] in E. injection E as <-. reflexivity.
    + cbn [bind]. f_equal. exact (A _ _ _ E).
Qed.
Print Assumptions c91_unusable_refuted.
(** What is a group: a name and members with one = between them; anything else is an exception. *)
Theorem c91_group_syntax : forall v, (exists n r, split_group v = Ok (n, r) /\ v = n ++ 61 :: r /\ ~ In 61 n /\ ~ In 61 r) \/
  ((forall n r, v = n ++ 61 :: r -> In 61 n \/ In 61 r) /\ forall rs hs ts hts no_to more ungroups, exists e, new_recipients rs hs ts hts no_to (v :: more) ungroups false = Err e /\ (~ In 61 v -> e = AttributeError) /\ (In 61 v -> e = ValueError)).
Proof.
  intros v. destruct (split_group v) as [[n r]|e] eqn:E; [left; exists n, r; split; [reflexivity|]; now apply split_group_ok|]. right. split.
  - intros n r H. destruct (in_dec Z.eq_dec 61 n) as [I|I]; [now left|]. right. destruct (in_dec Z.eq_dec 61 r) as [J|J]; [exact J|]. exfalso. rewrite (proj2 (split_group_ok v n r)) in E; [discriminate E|auto].
  - intros rs hs ts hts no_to more ungroups. exists e. split; [unfold new_recipients; cbn [read_groups]; rewrite E; reflexivity|]. unfold split_group in E. destruct (split_once [61] v) as [[a b]|] eqn:S.
    + destruct (split_once [61] b); [|discriminate E]. injection E as <-. apply split_eq_inv in S as [-> _]. split; [|reflexivity]. intros N. exfalso. apply N. apply in_or_app. right. now left.
    + injection E as <-. split; [reflexivity|]. intros I. exfalso. apply in_split in I as (p & q & ->). assert (G : exists p' q', p ++ 61 :: q = p' ++ 61 :: q' /\ ~ In 61 p').
      { clear. induction p as [|c p IH]; [exists [], q; split; [reflexivity|intros []]|]. destruct (Z.eq_dec c 61) as [->|N]; [exists [], (p ++ 61 :: q); split; [reflexivity|intros []]|]. destruct IH as (p' & q' & E & I). exists (c :: p'), q'. cbn [app]. rewrite E. split; [reflexivity|]. intros [J|J]; [congruence|contradiction]. }
      destruct G as (p' & q' & G1 & G2). rewrite G1, split_eq in S by exact G2. discriminate S.
Qed.
Print Assumptions c91_group_syntax.
(** The key used for a recipient is not revoked, may encrypt communications, and belongs to a key that is not revoked: the first such subkey, otherwise
    the key itself. (If there is none the result is None, which is not an error.) *)
Theorem c91_key_choice : forall k subs x, find_recipient_public_key (Some (k, subs)) = Ok (Some x) ->
  k_revoked k = false /\ k_revoked x = false /\ k_comms x = true /\
  ((exists pre post, subs = pre ++ x :: post /\ forall s, In s pre -> k_revoked s = true \/ k_comms s = false) \/ (x = k /\ forall s, In s subs -> k_revoked s = true \/ k_comms s = false)).
Proof.
  intros k subs x. unfold find_recipient_public_key. destruct (k_revoked k) eqn:R; [discriminate|]. destruct (find (fun s => negb (k_revoked s) && k_comms s) subs) as [s|] eqn:F.
  - intros H. injection H as <-. split; [reflexivity|]. pose proof (find_some _ _ F) as [_ G]. apply andb_prop in G as [G1 G2]. split; [now destruct (k_revoked s)|]. split; [exact G2|]. left. clear -F. induction subs as [|y subs IH]; [discriminate F|]. cbn [find] in F. destruct (negb (k_revoked y) && k_comms y) eqn:E.
    + injection F as <-. exists [], subs. split; [reflexivity|intros z []].
    + destruct (IH F) as (pre & post & -> & P). exists (y :: pre), post. split; [reflexivity|]. intros z [<-|I]; [|now apply P]. destruct (k_revoked y); [now left|right]. exact E.
  - destruct (k_comms k) eqn:C; [|discriminate]. intros H. injection H as <-. split; [reflexivity|]. split; [exact R|]. split; [exact C|]. right. split; [reflexivity|]. intros s I. pose proof (find_none _ _ F s I) as G. cbn beta in G. destruct (k_revoked s); [now left|right; exact G].
Qed.
Print Assumptions c91_key_choice.
Theorem c91_no_key : forall k subs, (find_recipient_public_key None = Err AttributeError) /\ (k_revoked k = true -> find_recipient_public_key (Some (k, subs)) = Err AttributeError) /\
  (k_revoked k = false -> k_comms k = false -> (forall s, In s subs -> k_revoked s = true \/ k_comms s = false) -> find_recipient_public_key (Some (k, subs)) = Ok None).
Proof.
  intros k subs. split; [reflexivity|]. unfold find_recipient_public_key. split; [intros ->; reflexivity|]. intros -> C H. destruct (find (fun s => negb (k_revoked s) && k_comms s) subs) as [s|] eqn:F; [|now rewrite C].
  apply find_some in F as [I G]. apply andb_prop in G as [G1 G2]. destruct (H s I) as [X|X]; rewrite X in *; discriminate.
Qed.
Print Assumptions c91_no_key.
(** The cipher is the first candidate that every recipient, named or hidden, prefers, and there is one as soon as it exists. throw-keys hides every
    recipient and loses none. Integrity protection is on if forced, else off if disabled, else on exactly if every recipient supports it. *)
Theorem c91_cipher_choice : forall preferred forced disabled throw rs hs c named hidden mdc,
  choose_encryption preferred forced disabled throw rs hs = Ok (c, named, hidden, mdc) <->
  named = (if throw then [] else rs) /\ hidden = (if throw then hs ++ rs else hs) /\
  (exists pre post, preferred = pre ++ c :: post /\ (forall k, In k rs \/ In k hs -> In c (k_prefs k)) /\ (forall x, In x pre -> exists k, (In k rs \/ In k hs) /\ ~ In x (k_prefs k))) /\
  (mdc = true <-> forced = true \/ (disabled = false /\ forall k, In k rs \/ In k hs -> k_mdc k = true)).
Proof.
  intros preferred forced disabled throw rs hs c named hidden mdc. unfold choose_encryption. set (all := (if throw then [] else rs) ++ (if throw then hs ++ rs else hs)).
  assert (A : forall k, In k all <-> In k rs \/ In k hs). { intros k. unfold all. destruct throw; cbn [app]; rewrite in_app_iff; tauto. }
  assert (M : (if forced then true else if disabled then false else forallb k_mdc all) = true <-> forced = true \/ (disabled = false /\ forall k, In k rs \/ In k hs -> k_mdc k = true)).
  { destruct forced; [tauto|]. destruct disabled; [split; [discriminate|intros [X|[X _]]; discriminate]|]. rewrite forallb_forall. split; [intros H; right; split; [reflexivity|]; intros k I; apply H; now apply A|]. intros [X|[_ X]]; [discriminate X|]. intros k I. apply X. now apply A. }
  assert (B : forall x y : bool, (x = true <-> y = true) -> x = y) by (intros [|] [|] [H1 H2]; try reflexivity; [now rewrite H1|now rewrite H2]).
  split.
  - intros H. destruct preferred as [|c0 cs]; [discriminate H|]. destruct (first_acceptable (c0 :: cs) all) as [c1|] eqn:F; [|discriminate H]. injection H as <- <- <- <-. split; [reflexivity|]. split; [reflexivity|]. split; [|exact M].
    apply acceptable_iff in F as (pre & post & E & F1 & F2). exists pre, post. split; [exact E|]. split; [intros k I; apply F1; now apply A|]. intros x I. destruct (F2 x I) as (k & J & N). exists k. split; [now apply A|exact N].
  - intros (-> & -> & (pre & post & E & F1 & F2) & Hm). assert (F : first_acceptable preferred all = Some c). { apply acceptable_iff. exists pre, post. split; [exact E|]. split; [intros k I; apply F1; now apply A|]. intros x I. destruct (F2 x I) as (k & J & N). exists k. split; [now apply A|exact N]. }
    rewrite F. destruct preferred as [|c0 cs]; [destruct pre; discriminate E|]. f_equal. f_equal. apply B. rewrite Hm. exact M.
Qed.
Print Assumptions c91_cipher_choice.
Example c91_ex : exists h, new_recipients [str "alice"] [] [str "me"] [] false [] [] false = Ok h /\ get_recipients (fun _ => Ok tt) h = Ok [str "alice"; str "me"].
Proof. eexists. split; [vm_compute; reflexivity|]. vm_compute. reflexivity. Qed.
Example c91_groups_ex : exists h, new_recipients [str "alice"] [] [] [] false [str "staff=bob carol"; str "board=dave"] [] false = Ok h /\ get_recipients (fun _ => Ok tt) h = Ok [str "dave"].
Proof. eexists. split; [vm_compute; reflexivity|]. vm_compute. reflexivity. Qed.
Example c91_choice_ex : choose_encryption [9; 7] false false true [EKey false true [9; 7] true] [EKey false true [7; 2] false] = Ok (7, [], [EKey false true [7; 2] false; EKey false true [9; 7] true], false).
Proof. vm_compute. reflexivity. Qed.

(** ** C92: the limit on the output *)
(** Output within max-output is written completely and its size returned; otherwise the call fails, and what has been written is a beginning of the
    output that exceeds the limit by at most 1024 octets. *)
Theorem c92_limit : forall limit data, 0 < limit ->
  (zlen data <= limit -> write_output (Some limit) data = (data, Ok (zlen data))) /\
  (limit < zlen data -> exists written rest, data = written ++ rest /\ write_output (Some limit) data = (written, Err AttributeError) /\ limit < zlen written <= limit + 1024).
Proof.
  intros limit data Hl. unfold write_output. replace (limit =? 0) with false by lia. destruct (write_loop_spec limit (S (List.length data)) data 0) as [A B]; [lia|lia|lia|]. split.
  - intros H. rewrite A by lia. reflexivity.
  - intros H. destruct B as (w & r & E & W & L); [lia|]. exists w, r. split; [exact E|]. split; [exact W|]. lia.
Qed.
Print Assumptions c92_limit.
(** Refuted: the limit is not a limit (up to 1024 octets more are written), and without one nothing is ever written completely if it is longer than
    1024 octets: the call always fails. *)
Theorem c92_no_limit_refuted : forall data, write_output None data = (slice data 0 1024, Err UnboundLocalError) /\ write_output (Some 0) data = (slice data 0 1024, Err UnboundLocalError).
Proof. intros data. split; reflexivity. Qed.
Print Assumptions c92_no_limit_refuted.
Theorem c92_limit_exceeded_refuted : forall limit data, 0 < limit < 1024 -> 1024 <= zlen data -> exists written, write_output (Some limit) data = (written, Err AttributeError) /\ zlen written = 1024.
Proof.
  intros limit data Hl Hd. exists (slice data 0 1024). assert (L : zlen (slice data 0 1024) = 1024) by (rewrite chunk_len; lia). split; [|exact L]. unfold write_output. replace (limit =? 0) with false by lia. cbn [write_loop]. rewrite L. replace (limit <? 0 + 1024) with true by lia. reflexivity.
Qed.
Print Assumptions c92_limit_exceeded_refuted.
Example c92_ex : write_output (Some 5) [1; 2; 3] = ([1; 2; 3], Ok 3) /\ snd (write_output (Some 5) (repeat 7 2000)) = Err AttributeError.
Proof. split; [vm_compute; reflexivity|vm_compute; reflexivity]. Qed.
