(** C56: reading a key server's index. *)
From Verif Require Import Base BaseProofs Text TextProofs Hkp SpecHkp HkpProofs.

(** what every text is: some lines without a pub line, then blocks (so the next theorem is about every text) *)
Theorem c56_every_text_is_a_listing : forall lines, exists pre bs, listing pre bs lines.
Proof. exact listing_exists. Qed.
Print Assumptions c56_every_text_is_a_listing.
(** The result has one entry per pub line, in order; each is built from that pub line and exactly the uid lines between it and
    the next pub line, in order. If the text has no "info:" line first, or one of three fields. *)
Theorem c56_one_entry_per_pub_partial : forall py_int unquote fts data pre bs first,
  listing pre bs (splitlines data) -> get (splitlines data) 0 = Ok first ->
  ((forall r, first <> str "info:" ++ r) \/ length (split_on 58 first) = 3%nat) ->
  forall es, Forall2 (fun b e => fst e = b_pub b /\ uids_of (b_rest b) (snd e)) bs es ->
  read_mr py_int unquote fts data = mapM (fun e => parse_result py_int unquote fts (fst e) (snd e)) es.
Proof.
  intros py_int unquote fts data pre bs first L G I es F. unfold read_mr. cbv zeta. rewrite G. cbn [bind].
  replace (if starts_with (str "info:") first then match split_on 58 first with [_; _; _] => Ok tt | _ => Err ValueError end else Ok tt) with (@Ok unit tt).
  - cbn [bind]. exact (loop_listing py_int unquote fts pre bs _ es L F).
  - unfold starts_with. destruct (strip_prefix (str "info:") first) as [r|] eqn:E; [|reflexivity]. apply strip_prefix_some in E.
    destruct I as [I|I]; [exfalso; exact (I r E)|]. destruct (split_on 58 first) as [|? [|? [|? [|? ?]]]]; try discriminate I. reflexivity.
Qed.
Print Assumptions c56_one_entry_per_pub_partial.
(** Each entry has one user id per uid line, in order, read from that line; a line that cannot be read is an error. *)
Theorem c56_user_ids_in_order : forall py_int unquote fts pub uids k, parse_result py_int unquote fts pub uids = Ok k ->
  Forall2 (fun l u => parse_uid_line py_int unquote fts l = Ok u) uids (h_uids k).
Proof.
  intros py_int unquote fts pub uids k E. unfold parse_result in E.
  repeat match type of E with match ?x with _ => _ end = _ => destruct x; try discriminate E end.
  repeat (apply bind_ok in E as (? & ? & E)). injection E as <-. cbn [h_uids].
  match goal with H : mapM _ uids = Ok ?us |- _ => revert us H; clear end. induction uids as [|l ls IH]; intros us H; cbn [mapM] in H.
  - injection H as <-. constructor.
  - apply bind_ok in H as (u & Hu & H). apply bind_ok in H as (us' & Hs & H). injection H as <-. constructor; auto.
Qed.
Print Assumptions c56_user_ids_in_order.
(** A listing of any keys with any user ids, written in the format of the draft (colons at the end of a line may be left off,
    lines of other kinds may stand anywhere), is read back to these keys and user ids. [num] and [quote] write numbers and
    user ids; int() and unquote() invert them. *)
Theorem c56_listing_round_trip : forall py_int unquote fts num quote,
  (forall n, num n <> [] /\ ~ In 58 (num n) /\ py_int (num n) = Ok n) -> (forall u, ~ In 58 (quote u) /\ unquote (quote u) = u) ->
  (forall n, fts n = Ok n) -> forall data pre bs first ks, listing pre bs (splitlines data) -> get (splitlines data) 0 = Ok first ->
  ((forall r, first <> str "info:" ++ r) \/ length (split_on 58 first) = 3%nat) -> Forall2 (block_of num quote) ks bs ->
  read_mr py_int unquote fts data = Ok ks.
Proof.
  intros py_int unquote fts num quote Hn Hq Hf data pre bs first ks L G I F. unfold read_mr. cbv zeta. rewrite G. cbn [bind].
  replace (if starts_with (str "info:") first then match split_on 58 first with [_; _; _] => Ok tt | _ => Err ValueError end else Ok tt) with (@Ok unit tt).
  - cbn [bind]. exact (listing_read py_int unquote fts num quote Hn Hq Hf pre bs _ ks L F).
  - unfold starts_with. destruct (strip_prefix (str "info:") first) as [r|] eqn:E; [|reflexivity]. apply strip_prefix_some in E.
    destruct I as [I|I]; [exfalso; exact (I r E)|]. destruct (split_on 58 first) as [|? [|? [|? [|? ?]]]]; try discriminate I. reflexivity.
Qed.
Print Assumptions c56_listing_round_trip.

(** Demonstration: two keys, the first with two user ids, colons left off, and another line between. *)
Definition demo_text : text :=
  str "info:1:2" ++ NL ++ str "pub:ABCD:1:2048:1000::r" ++ NL ++ str "uid:Alice:1000" ++ NL ++ str "sig:whatever" ++ NL ++ str "uid:A:1001:2000:e" ++ NL ++
  str "pub:EF01:17:1024:5" ++ NL.
(** int() of ASCII digits; user ids without escapes *)
Definition demo_int (t : text) : res Z := match t with [] => Err ValueError | _ => if forallb is_digit t then Ok (dec_val t) else Err ValueError end.
Example c56_used : read_mr demo_int (fun u => u) (fun n => Ok n) demo_text =
  Ok [KeyRes (str "ABCD") 1 2048 1000 None true false false [UidRes (str "Alice") 1000 None false false false; UidRes (str "A") 1001 (Some 2000) false false true];
      KeyRes (str "EF01") 17 1024 5 None false false false []].
Proof. vm_compute. reflexivity. Qed.
Example c56_used_listing : listing [str "info:1:2"]
  [Block (str "pub:ABCD:1:2048:1000::r") [str "uid:Alice:1000"; str "sig:whatever"; str "uid:A:1001:2000:e"]; Block (str "pub:EF01:17:1024:5") []] (splitlines demo_text) /\
  get (splitlines demo_text) 0 = Ok (str "info:1:2") /\ length (split_on 58 (str "info:1:2")) = 3%nat.
Proof.
  split; [|split; reflexivity]. split; [vm_compute; reflexivity|]. split.
  - intros l [<- | []] (r & H). discriminate H.
  - intros b [<- | [<- | []]]; (split; [eexists; reflexivity|]); cbn [b_rest].
    + intros l [<- | [<- | [<- | []]]] (r & H); discriminate H.
    + intros l [].
Qed.
(** Refuted: one user id without a creation date (an empty field, which the draft allows) makes the whole listing unreadable ... *)
Theorem c56_blank_date_fails_refuted : forall py_int unquote fts, (forall t, (exists n, py_int t = Ok n) -> t <> []) ->
  forall data, data = str "pub:ABCD:1:2048:1000" ++ NL ++ str "uid:Alice" ++ NL -> forall ks, read_mr py_int unquote fts data <> Ok ks.
Proof.
  intros py_int unquote fts Hi data -> ks E.
  rewrite (c56_one_entry_per_pub_partial py_int unquote fts _ [] [Block (str "pub:ABCD:1:2048:1000") [str "uid:Alice"]] (str "pub:ABCD:1:2048:1000")) with (es := [(str "pub:ABCD:1:2048:1000", [str "uid:Alice"])]) in E.
  - cbn [mapM fst snd] in E. apply bind_ok in E as (k & E & _). apply c56_user_ids_in_order in E. inversion E as [|? u ? ? P _]; subst.
    change (parse_uid_line py_int unquote fts (str "uid:Alice")) with
      (do c <- py_int [];; do c <- fts c;; do e <- opt_time py_int fts [];; Ok (UidRes (unquote (str "Alice")) c e false false false)) in P.
    apply bind_ok in P as (n & P & _). apply (Hi []); eauto.
  - split; [reflexivity|]. split; [intros l []|]. intros b [<- | []]. split; [eexists; reflexivity|]. intros l [<- | []] (r & H). discriminate H.
  - reflexivity.
  - left. intros r H. discriminate H.
  - constructor; [|constructor]. split; [reflexivity|]. cbn [b_rest snd]. apply uo_uid; [eexists; reflexivity|apply uo_nil].
Qed.
Print Assumptions c56_blank_date_fails_refuted.
(** ... and an empty answer is an IndexError rather than an empty result. *)
Theorem c56_empty_listing_refuted : forall py_int unquote fts, read_mr py_int unquote fts [] = Err IndexError.
Proof. reflexivity. Qed.
Print Assumptions c56_empty_listing_refuted.
