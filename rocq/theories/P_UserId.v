(** Theorems about pgp.user_id: C55 (parsing ends) and C66 (conventional user ids are split as one expects). *)
From Verif Require Import Base BaseProofs Text TextProofs UserId SpecUserId UserIdProofs UserIdForms.

(** ** C55. For every string short enough for the interpreter's recursion limit the parser ends with an address list: it never
    loops, never reads outside the string (that would be an IndexError inside getaddress), and every call advances. *)
Theorem c55_address_ends quote cd gd (user_id : text) (pos : Z) :
  zlen user_id <= Z.of_nat cd -> zlen user_id - pos < Z.of_nat gd -> 0 <= pos <= zlen user_id ->
  exists r comments next, getaddress quote user_id cd gd pos = Ok (r, comments, next) /\
    (pos < zlen user_id -> pos < next <= zlen user_id + 1) /\ (pos = zlen user_id -> next = pos).
Proof.
  intros C G P. destruct (address_ends quote user_id cd C gd pos P G) as (r & cl & p & E & B). exists r, cl, p. split; [exact E|].
  split; intros H; [replace (pos <? zlen user_id) with true in B by lia; lia|replace (pos <? zlen user_id) with false in B by lia; exact B].
Qed.
Print Assumptions c55_address_ends.

Theorem c55_address_list_ends quote cd gd (user_id : text) :
  zlen user_id <= Z.of_nat cd -> zlen user_id < Z.of_nat gd -> exists l, getaddrlist quote user_id cd gd = Ok l.
Proof.
  intros C G. unfold getaddrlist. apply (addrlist_ends quote user_id cd C gd G); [lia|]. unfold loop_fuel. pose proof (zlen_nonneg user_id). unfold zlen in *. lia.
Qed.
Print Assumptions c55_address_list_ends.

(** parse_user_id answers, or fails with an IndexError, and then only because no address was found *)
Theorem c55_parsing_ends_partial quote cd gd (user_id : text) :
  zlen user_id <= Z.of_nat cd -> zlen user_id < Z.of_nat gd ->
  (exists name email comment, parse_user_id quote cd gd user_id = Ok (name, email, comment)) \/
  (parse_user_id quote cd gd user_id = Err IndexError /\ exists comments next, getaddress quote user_id cd gd 0 = Ok ([], comments, next)).
Proof.
  intros C G. pose proof (zlen_nonneg user_id). destruct (address_ends quote user_id cd C gd 0) as (r & cl & p & E & B); [lia|lia|]. unfold parse_user_id. rewrite E. cbn [bind].
  destruct r as [|[name email] r]; [right; split; [reflexivity|eauto]|]. left. rewrite get_cons_0. cbn [bind]. eauto.
Qed.
Print Assumptions c55_parsing_ends_partial.
Example c55_used : zlen (join [32] [[65]; [66]]) <= Z.of_nat 900 /\ parse_user_id (fun t => t) 900 900 [40; 65; 41; 60; 66; 64; 67; 62] = Ok ([40; 41], [66; 64; 67], [65]).
Proof. split; vm_compute; [discriminate|reflexivity]. Qed.

(** Refuted: the empty user id, and one that is only a closing parenthesis, make parse_user_id raise an IndexError. *)
Theorem c55_no_address_refuted quote cd gd : parse_user_id quote cd (S gd) [] = Err IndexError /\ parse_user_id quote cd (S gd) [41] = Err IndexError.
Proof. split; reflexivity. Qed.
Print Assumptions c55_no_address_refuted.

(** Refuted: whatever the recursion limit, enough opening parentheses exceed it: a user id from a key server can make the parser
    fail with a RuntimeError. *)
Lemma parens_deep n : forall k p, 0 <= p -> p + Z.of_nat k < Z.of_nat n -> getcomment (repeat 40 n) k p = Err RuntimeError.
Proof.
  assert (G : forall i, 0 <= i < Z.of_nat n -> get (repeat 40 n) i = Ok 40).
  { intros i Hi. unfold get. replace (i <? 0) with false by lia. cbv zeta. rewrite zlen_repeat. replace ((i <? 0) || (Z.of_nat n <=? i)) with false by lia. rewrite nth_error_repeat by lia. reflexivity. }
  induction k as [|k IH]; intros p Hp Hn; [reflexivity|]. cbn [getcomment]. unfold getdelimited. rewrite G by lia. cbn [bind Z.eqb Pos.eqb negb].
  unfold loop_fuel. cbn [delim_loop]. rewrite zlen_repeat. replace (p + 1 <? Z.of_nat n) with true by lia. rewrite G by lia. cbn [bind]. change (in_set 40 [41; 13]) with false. cbn [andb Z.eqb Pos.eqb].
  now rewrite IH by lia.
Qed.
Theorem c55_deep_nesting_refuted quote cd gd : parse_user_id quote cd (S gd) (repeat 40 (S cd)) = Err RuntimeError.
Proof.
  unfold parse_user_id. cbn [getaddress]. unfold gotonext, loop_fuel. cbn [next_loop].
  replace (0 <? zlen (repeat 40 (S cd))) with true by (rewrite zlen_repeat; lia). cbn [repeat]. rewrite get_cons_0. cbn [bind]. change (in_set 40 FWS) with false. cbn [Z.eqb Pos.eqb].
  change (40 :: repeat 40 cd) with (repeat 40 (S cd)). rewrite parens_deep by lia. reflexivity.
Qed.
Print Assumptions c55_deep_nesting_refuted.

(** ** C66. A user id of the form  Some Name <local@domain>  is split into exactly that name, that address and no comment;
    a bare  local@domain  into an empty name and that address. *)
Theorem c66_name_and_address_partial quote cd gd (words : list text) (local domain : text) :
  words <> [] -> Forall plain words -> plain local -> plain domain ->
  parse_user_id quote cd (S gd) (name_addr words local domain) = Ok (join [32] words, local ++ [64] ++ domain, []).
Proof. apply parse_name_addr. Qed.
Print Assumptions c66_name_and_address_partial.
Theorem c66_bare_address quote cd gd (local domain : text) :
  plain local -> plain domain -> parse_user_id quote cd (S gd) (local ++ [64] ++ domain) = Ok ([], local ++ [64] ++ domain, []).
Proof. apply parse_bare. Qed.
Print Assumptions c66_bare_address.
(** With a comment the address and the comment are right. *)
Theorem c66_comment_partial quote cd gd (words : list text) (comment local domain : text) :
  words <> [] -> Forall plain words -> comment_text comment -> comment <> [] -> plain local -> plain domain ->
  exists name, parse_user_id quote (S cd) (S gd) (name_comment_addr words comment local domain) = Ok (name, local ++ [64] ++ domain, comment).
Proof. intros. eexists. now apply parse_name_comment_addr. Qed.
Print Assumptions c66_comment_partial.
(** Refuted: but the name is wrong for every such user id: it always ends in a pair of empty parentheses. *)
Theorem c66_comment_in_name_refuted quote cd gd (words : list text) (comment local domain : text) :
  words <> [] -> Forall plain words -> comment_text comment -> comment <> [] -> plain local -> plain domain ->
  exists rest, parse_user_id quote (S cd) (S gd) (name_comment_addr words comment local domain) = Ok (rest ++ [40; 41], local ++ [64] ++ domain, comment) /\
    rest ++ [40; 41] <> join [32] words.
Proof.
  intros N F C Nc Pl Pd. eexists. split; [now apply parse_name_comment_addr|]. intros E.
  assert (I : In 41 (join [32] words)) by (rewrite <- E; apply in_or_app; right; right; now left). clear - F I.
  induction F as [|w ws [N Fw] F IH]; [exact I|].
  assert (K : In 41 w -> False). { intros K. rewrite Forall_forall in Fw. destruct (Fw 41 K) as [_ X]. apply X. cbn. tauto. }
  destruct ws as [|w2 ws]; [exact (K I)|]. change (join [32] (w :: w2 :: ws)) with (w ++ [32] ++ join [32] (w2 :: ws)) in I.
  apply in_app_or in I as [I|I]; [exact (K I)|]. apply in_app_or in I as [I|I]; [|exact (IH I)]. cbn in I. destruct I as [I|[]]. discriminate I.
Qed.
Print Assumptions c66_comment_in_name_refuted.
(** the demonstration texts: Bob B, dev, bob@x.org *)
Example c66_used : Forall plain [[66; 111; 98]; [66]] /\ comment_text [100; 101; 118] /\ plain [98; 111; 98] /\ plain [120; 46; 111; 114; 103] /\
  parse_user_id (fun t => t) 1 1 (name_addr [[66; 111; 98]; [66]] [98; 111; 98] [120; 46; 111; 114; 103]) =
    Ok ([66; 111; 98; 32; 66], [98; 111; 98; 64; 120; 46; 111; 114; 103], []) /\
  parse_user_id (fun t => t) 1 1 (name_comment_addr [[66; 111; 98]; [66]] [100; 101; 118] [98; 111; 98] [120; 46; 111; 114; 103]) =
    Ok ([66; 111; 98; 32; 66; 32; 40; 41], [98; 111; 98; 64; 120; 46; 111; 114; 103], [100; 101; 118]).
Proof.
  assert (P : forall c, In c [66; 111; 98; 120; 46; 114; 103] -> plain_char c).
  { intros c I. split; [|intros J; cbn [In] in I, J; lia]. cbn [In] in I. repeat destruct I as [<-|I]; try reflexivity. contradiction. }
  assert (W : forall w, w <> [] -> incl w [66; 111; 98; 120; 46; 114; 103] -> plain w) by (intros w N I; split; [exact N|apply Forall_forall; auto]).
  repeat split.
  - constructor; [|constructor; [|constructor]]; apply W; try discriminate; intros c I; cbn [In] in *; tauto.
  - unfold comment_text. apply Forall_forall. intros x I J. cbn [In] in I, J. lia.
  - discriminate.
  - apply W; [discriminate|]. intros c I. cbn [In] in *. tauto.
  - discriminate.
  - apply W; [discriminate|]. intros c I. cbn [In] in *. tauto.
Qed.
(** Refuted: text of the name that equals the comment disappears from the name as well. *)
Example c66_name_loses_comment_refuted : parse_user_id (fun t => t) 1 1 (name_comment_addr [[66; 111; 98]] [98] [98] [120]) = Ok ([66; 111; 32; 40; 41], [98; 64; 120], [98]).
Proof. vm_compute. reflexivity. Qed.
