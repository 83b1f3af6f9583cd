(** C93: setting the name, the e-mail address or the comment of a user id changes that part and leaves the other two. *)
From Verif Require Import Base BaseProofs Text TextProofs UserId SpecUserId UserIdProofs UserIdForms UserIdSet SpecUserIdSet UserIdSetProofs.

(** ** What is written is read back, exactly when the comment does not occur in the name. *)
Theorem c93_reads_back he quote cd gd (name address comment : text) :
  writable_name name -> writable_address address -> comment_text comment ->
  exists uid, make_user_id he name address comment = Ok uid /\
    (parse_user_id quote (S cd) (S gd) uid = Ok (name, address, comment) <-> fit name comment).
Proof.
  intros Hn Ha Hc. destruct (made_reads he quote (S cd) gd name address comment Hn Ha Hc ltac:(right; lia)) as (uid & M & P). exists uid. split; [exact M|]. rewrite P. clear M P.
  pose proof (name_stripped name Hn) as St. unfold fit. destruct comment as [|x co] eqn:Ec; [rewrite St; tauto|]. rewrite <- Ec in *. assert (Nc : comment <> []) by congruence.
  assert (Em : match name with [] => [] | _ => replace comment [] name end = replace comment [] name) by (now destruct name). rewrite Em. clear Em. split.
  - intros E. right. intros O. pose proof (replace_lt comment name Nc O) as Lt. pose proof (strip_len (replace comment [] name)) as Le.
    apply (f_equal (fun r => match r with Ok (n, _, _) => length n | Err _ => 0%nat end)) in E. cbv beta iota in E. lia.
  - intros [E|O]; [congruence|]. now rewrite (replace_none comment [] name Nc O), St.
Qed.
Print Assumptions c93_reads_back.

(** ** The setters. The user id may be spelled in any way: what counts is what is read from it. *)
Lemma getters quote cd gd uid n a c : parse_user_id quote cd gd uid = Ok (n, a, c) ->
  user_name quote cd gd uid = Ok n /\ user_email quote cd gd uid = Ok a /\ user_comment quote cd gd uid = Ok c.
Proof. intros E. unfold user_name, user_email, user_comment. rewrite E. auto. Qed.
Theorem c93_set_name he quote cd gd (uid name address comment new : text) :
  parse_user_id quote (S cd) (S gd) uid = Ok (name, address, comment) -> writable_parts (new, address, comment) ->
  exists uid', set_user_name he quote (S cd) (S gd) uid new = Ok uid' /\ parse_user_id quote (S cd) (S gd) uid' = Ok (new, address, comment).
Proof.
  intros P (Hn & Ha & Hc & F). destruct (getters _ _ _ _ _ _ _ P) as (_ & G2 & G3). unfold set_user_name. rewrite G2, G3. cbn [bind].
  destruct (c93_reads_back he quote cd gd new address comment Hn Ha Hc) as (uid' & M & R). exists uid'. split; [exact M|]. now apply (proj2 R).
Qed.
Print Assumptions c93_set_name.
Theorem c93_set_email he quote cd gd (uid name address comment new : text) :
  parse_user_id quote (S cd) (S gd) uid = Ok (name, address, comment) -> writable_parts (name, new, comment) ->
  exists uid', set_user_email he quote (S cd) (S gd) uid new = Ok uid' /\ parse_user_id quote (S cd) (S gd) uid' = Ok (name, new, comment).
Proof.
  intros P (Hn & Ha & Hc & F). destruct (getters _ _ _ _ _ _ _ P) as (G1 & _ & G3). unfold set_user_email. rewrite G1, G3. cbn [bind].
  destruct (c93_reads_back he quote cd gd name new comment Hn Ha Hc) as (uid' & M & R). exists uid'. split; [exact M|]. now apply (proj2 R).
Qed.
Print Assumptions c93_set_email.
Theorem c93_set_comment he quote cd gd (uid name address comment new : text) :
  parse_user_id quote (S cd) (S gd) uid = Ok (name, address, comment) -> writable_parts (name, address, new) ->
  exists uid', set_user_comment he quote (S cd) (S gd) uid new = Ok uid' /\ parse_user_id quote (S cd) (S gd) uid' = Ok (name, address, new).
Proof.
  intros P (Hn & Ha & Hc & F). destruct (getters _ _ _ _ _ _ _ P) as (G1 & G2 & _). unfold set_user_comment. rewrite G1, G2. cbn [bind].
  destruct (c93_reads_back he quote cd gd name address new Hn Ha Hc) as (uid' & M & R). exists uid'. split; [exact M|]. now apply (proj2 R).
Qed.
Print Assumptions c93_set_comment.

(** Any history of edits: the three parts read in the end are the ones last written. *)
Definition set_part he quote cd gd (uid : text) (e : edit) : res text :=
  match e with
  | Rename n => set_user_name he quote cd gd uid n
  | Readdress a => set_user_email he quote cd gd uid a
  | Recomment c => set_user_comment he quote cd gd uid c
  end.
Fixpoint set_parts he quote cd gd (uid : text) (history : list edit) : res text :=
  match history with [] => Ok uid | e :: r => do uid' <- set_part he quote cd gd uid e;; set_parts he quote cd gd uid' r end.
Theorem c93_history he quote cd gd (history : list edit) (uid : text) (p : parts) :
  parse_user_id quote (S cd) (S gd) uid = Ok p -> all_writable p history ->
  exists uid', set_parts he quote (S cd) (S gd) uid history = Ok uid' /\ parse_user_id quote (S cd) (S gd) uid' = Ok (fold_left edited history p).
Proof.
  revert uid p. induction history as [|e history IH]; intros uid p P W; [exists uid; auto|]. destruct W as [We Wr]. destruct p as [[n a] c].
  assert (S1 : exists uid1, set_part he quote (S cd) (S gd) uid e = Ok uid1 /\ parse_user_id quote (S cd) (S gd) uid1 = Ok (edited (n, a, c) e)).
  { destruct e as [x|x|x]; cbn [set_part edited] in *; [eapply c93_set_name|eapply c93_set_email|eapply c93_set_comment]; eassumption. }
  destruct S1 as (uid1 & E1 & P1). cbn [set_parts fold_left]. rewrite E1. cbn [bind]. now apply IH.
Qed.
Print Assumptions c93_history.

(** An address that is not ASCII is refused, whatever the user id was; the attribute is not assigned. *)
Theorem c93_foreign_address he quote cd gd (uid : text) (p : parts) (new : text) :
  parse_user_id quote cd gd uid = Ok p -> ~ ascii new -> set_user_email he quote cd gd uid new = Err UnicodeError.
Proof.
  intros P A. destruct p as [[n a] c]. destruct (getters _ _ _ _ _ _ _ P) as (G1 & _ & G3). unfold set_user_email, make_user_id, formataddr. rewrite G1, G3. cbn [bind].
  destruct (is_ascii new) eqn:I; [|reflexivity]. exfalso. apply A. now apply ascii_iff.
Qed.
Print Assumptions c93_foreign_address.

(** ** What goes wrong. *)
(** Refuted: a comment that occurs in the name eats it: the name read back is another one, for every such name and comment. *)
Theorem c93_comment_in_name_refuted he quote cd gd (uid name address comment new : text) :
  parse_user_id quote (S cd) (S gd) uid = Ok (name, address, comment) ->
  writable_name name -> writable_address address -> comment_text new -> new <> [] -> occurs new name ->
  exists uid' name', set_user_comment he quote (S cd) (S gd) uid new = Ok uid' /\ parse_user_id quote (S cd) (S gd) uid' = Ok (name', address, new) /\ name' <> name.
Proof.
  intros P Hn Ha Hc N O. destruct (getters _ _ _ _ _ _ _ P) as (G1 & G2 & _). unfold set_user_comment. rewrite G1, G2. cbn [bind].
  destruct (made_reads he quote (S cd) gd name address new Hn Ha Hc ltac:(right; lia)) as (uid' & M & R). eexists. eexists. split; [exact M|]. split; [exact R|].
  destruct (c93_reads_back he quote cd gd name address new Hn Ha Hc) as (u2 & M2 & B). rewrite M in M2. assert (u2 = uid') by congruence. subst u2.
  intros E. rewrite E in R. apply (proj1 B) in R. destruct R as [R|R]; [exact (N R)|exact (R O)].
Qed.
Print Assumptions c93_comment_in_name_refuted.

(** Refuted: a name that is not ASCII is stored as a MIME encoded word (any function that yields such words) and read back as that word. *)
Theorem c93_foreign_name_refuted (he : text -> text) quote cd gd (uid name address comment new : text) :
  (forall n, plain (he n) /\ ascii (he n)) ->
  parse_user_id quote (S cd) (S gd) uid = Ok (name, address, comment) -> writable_address address -> comment_text comment -> ~ ascii new -> fit (he new) comment ->
  exists uid', set_user_name he quote (S cd) (S gd) uid new = Ok uid' /\ parse_user_id quote (S cd) (S gd) uid' = Ok (he new, address, comment) /\ he new <> new.
Proof.
  intros He P (local & domain & -> & Pl & Pd & Aa) Hc A Ft. destruct (getters _ _ _ _ _ _ _ P) as (_ & G2 & G3). unfold set_user_name. rewrite G2, G3. cbn [bind].
  unfold make_user_id, formataddr. rewrite (ascii_true _ Aa). cbn [negb]. destruct (He new) as [Hp Hs].
  assert (is_ascii new = false) as -> by (destruct (is_ascii new) eqn:I; [exfalso; apply A; now apply ascii_iff|reflexivity]). cbn [negb].
  destruct new as [|n0 ns] eqn:En; [exfalso; apply A; constructor|]. rewrite <- En in *. cbn [bind]. rewrite suffix_end. eexists. split; [reflexivity|]. split.
  - unfold parse_user_id. erewrite (address_words _ (S cd) quote gd [he new] local domain comment); [|cbn [join app]; repeat (rewrite <- app_assoc; cbn [app]); reflexivity|discriminate|now constructor|exact Pl|exact Pd|exact Hc|right; lia].
    cbn [bind]. rewrite get_cons_0. cbn [bind]. cbv zeta. rewrite join_one. cbn [join].
    assert (Es : strip (he new) = he new) by (apply (strip_join [he new]); now constructor).
    destruct comment as [|x co] eqn:Ec; [now rewrite Es|]. rewrite <- Ec in *. destruct Ft as [Ft|Ft]; [congruence|]. rewrite replace_none by (auto; congruence). now rewrite Es.
  - intros E. rewrite E in Hs. exact (A Hs).
Qed.
Print Assumptions c93_foreign_name_refuted.

(** Refuted: on a user id in the usual layout, Name (comment) <address>, giving a new address also rewrites the name: the pair of
    parentheses that C66 shows in the name read is written into the user id, inside quotes. *)
Theorem c93_usual_layout_refuted he quote cd gd (words : list text) (comment local domain new : text) :
  words <> [] -> Forall plain words -> Forall ascii words -> Forall (Forall (fun c => ~ In c marks)) words ->
  comment_text comment -> comment <> [] -> ~ occurs comment (join [32] words ++ [32]) -> plain local -> plain domain -> writable_address new ->
  set_user_email he quote (S cd) (S gd) (name_comment_addr words comment local domain) new =
    Ok ([34] ++ join [32] words ++ [32; 40; 41; 34] ++ [32; 60] ++ new ++ [62; 32; 40] ++ comment ++ [41]).
Proof.
  intros N F Aw Mw C Nc O Pl Pd (l2 & d2 & -> & _ & _ & Aa). pose proof (parse_name_comment_addr quote cd gd words comment local domain N F C Nc Pl Pd) as P.
  rewrite (replace_none comment [] _ Nc O) in P.
  assert (Ls : lstrip (join [32] words ++ [32]) = join [32] words ++ [32]).
  { pose proof (join_first words F) as J. pose proof (strip_join_nonempty words N F) as Nj. destruct (join [32] words) as [|j js]; [easy|]. cbn [app lstrip]. now rewrite J. }
  rewrite Ls in P. destruct (getters _ _ _ _ _ _ _ P) as (G1 & _ & G3). unfold set_user_email. rewrite G1, G3. cbn [bind]. unfold make_user_id, formataddr. rewrite (ascii_true _ Aa). cbn [negb].
  set (name := (join [32] words ++ [32]) ++ [40; 41]).
  assert (Nn : name <> []) by (unfold name; destruct (join [32] words); discriminate).
  assert (An : is_ascii name = true).
  { apply ascii_true. unfold name, ascii. apply Forall_app. split; [apply Forall_app; split|].
    - apply join_forall; [reflexivity|exact Aw].
    - constructor; [reflexivity|constructor].
    - constructor; [reflexivity|]. constructor; [reflexivity|constructor]. }
  assert (Sp : existsb (fun c => in_set c addr_specials) name = true). { unfold name. rewrite existsb_app. apply Bool.orb_true_iff. right. reflexivity. }
  assert (Es : escape name = name).
  { unfold name, escape. rewrite !flat_map_app. fold (escape (join [32] words)). rewrite escape_none; [reflexivity|]. apply join_forall; [intros I; cbn in I; lia|exact Mw]. }
  destruct name as [|n0 ns] eqn:En; [easy|]. rewrite <- En in *. rewrite An, Sp, Es. cbn [negb]. cbv zeta. cbn [bind]. rewrite suffix_end.
  assert (suffix comment = [32; 40] ++ comment ++ [41]) as -> by (destruct comment; [easy|reflexivity]). subst name. f_equal. cbn [app]. repeat (rewrite <- app_assoc; cbn [app]). reflexivity.
Qed.
Print Assumptions c93_usual_layout_refuted.

(** ** The hypotheses are met: the name  Bob "B." C, the address b@x and the comment dev *)
Definition ex_name : text := str "Bob " ++ [34] ++ str "B." ++ [34] ++ str " C".
Lemma ex_plain l : forallb (fun c => negb (is_space c) && negb (in_set c [40; 41; 60; 62; 64; 44; 58; 59; 34; 91; 93])) l = true -> l <> [] -> plain l.
Proof.
  intros H N. split; [exact N|]. rewrite forallb_forall in H. apply Forall_forall. intros c I. specialize (H c I). apply Bool.andb_true_iff in H as [H1 H2].
  split; [now apply Bool.negb_true_iff|]. apply Bool.negb_true_iff, Bool.not_true_iff_false in H2. intros J. apply H2. now apply in_set_in.
Qed.
Lemma ex_writable : writable_parts (ex_name, str "b@x", str "dev").
Proof.
  split; [|split; [|split]].
  - apply marked_name; [apply ascii_iff; vm_compute; reflexivity| | |vm_compute; reflexivity].
    + apply Exists_exists. exists 46. split; [vm_compute; tauto|vm_compute; tauto].
    + intros I. vm_compute in I. lia.
  - exists (str "b"), (str "x"). split; [reflexivity|]. split; [apply ex_plain; [reflexivity|discriminate]|]. split; [apply ex_plain; [reflexivity|discriminate]|]. apply ascii_iff. reflexivity.
  - unfold comment_text. apply Forall_forall. intros x I J. vm_compute in I. cbn [In] in J. lia.
  - right. intros (a & b & E). assert (I : In 100 ex_name) by (rewrite E; apply in_or_app; right; now left). vm_compute in I. lia.
Qed.
Example c93_reads_back_used : make_user_id (fun t => t) ex_name (str "b@x") (str "dev") = Ok ([34] ++ str "Bob \" ++ [34] ++ str "B.\" ++ [34] ++ str " C" ++ [34] ++ str " <b@x> (dev)") /\
  writable_parts (ex_name, str "b@x", str "dev").
Proof. split; [vm_compute; reflexivity|exact ex_writable]. Qed.
Example c93_history_used : exists uid', set_parts (fun t => t) (fun t => t) 1 1 (str "a@b.c") [Readdress (str "b@x"); Rename ex_name; Recomment (str "dev")] = Ok uid' /\
  parse_user_id (fun t => t) 1 1 uid' = Ok (ex_name, str "b@x", str "dev") /\ all_writable ([], str "a@b.c", []) [Readdress (str "b@x"); Rename ex_name; Recomment (str "dev")].
Proof.
  eexists. split; [vm_compute; reflexivity|]. split; [vm_compute; reflexivity|]. destruct ex_writable as (Hn & Ha & Hc & F).
  repeat split; try assumption; try (now left); try constructor.
Qed.
(** Bob B with the new comment Bob is read as B; and the usual layout *)
Example c93_comment_in_name_used : set_user_comment (fun t => t) (fun t => t) 1 1 (str "Bob B <b@x>") (str "Bob") = Ok (str "Bob B <b@x> (Bob)") /\
  parse_user_id (fun t => t) 1 1 (str "Bob B <b@x> (Bob)") = Ok (str "B", str "b@x", str "Bob") /\ occurs (str "Bob") (str "Bob B").
Proof. split; [vm_compute; reflexivity|]. split; [vm_compute; reflexivity|]. exists [], (str " B"). reflexivity. Qed.
Example c93_usual_layout_used : set_user_email (fun t => t) (fun t => t) 1 1 (str "Bob B (dev) <b@x>") (str "b@y") = Ok ([34] ++ str "Bob B ()" ++ [34] ++ str " <b@y> (dev)").
Proof. vm_compute. reflexivity. Qed.
Example c93_foreign_used : set_user_email (fun t => t) (fun t => t) 1 1 (str "Bob B (dev) <b@x>") [233; 64; 120] = Err UnicodeError /\
  set_user_name (fun _ => str "=?utf8?q?=C3=A9?=") (fun t => t) 1 1 (str "Bob <b@x>") [233] = Ok (str "=?utf8?q?=C3=A9?= <b@x>") /\
  plain (str "=?utf8?q?=C3=A9?=") /\ ascii (str "=?utf8?q?=C3=A9?=").
Proof. split; [vm_compute; reflexivity|]. split; [vm_compute; reflexivity|]. split; [apply ex_plain; [vm_compute; reflexivity|discriminate]|apply ascii_iff; vm_compute; reflexivity]. Qed.
