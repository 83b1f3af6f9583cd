From Verif Require Import Base BaseProofs Spec Text TextProofs Crc24 SpecCrc Crc24Proofs Armor SpecArmor FramingProofs UtilsProofs.

(** ** base64 *)
Lemma b64char_ok i : 0 <= i < 64 ->
  b64val (b64char i) = Some i /\ b64char i <> 61 /\ b64char i < 128 /\ is_linebreak (b64char i) = false.
Proof.
  intros Hi.
  set (f := fun i => if i <? 64 then
     match b64val (b64char i) with Some j => j =? i | None => false end && negb (b64char i =? 61) && (b64char i <? 128)
     && negb (is_linebreak (b64char i)) else true).
  assert (H : f i = true).
  { apply byte_forall; [vm_compute; reflexivity|unfold byte; lia]. }
  unfold f in H. destruct (i <? 64) eqn:E; [|lia]. rewrite !andb_true_iff in H. destruct H as (((H1 & H2) & H3) & H4).
  destruct (b64val (b64char i)) as [j|]; [|discriminate]. apply Z.eqb_eq in H1. subst j. repeat split; try lia.
  now apply negb_true_iff in H4.
Qed.
Lemma list_ind3 {A} (P : list A -> Prop) : P [] -> (forall a, P [a]) -> (forall a b, P [a; b]) ->
  (forall a b c t, P t -> P (a :: b :: c :: t)) -> forall l, P l.
Proof.
  intros H0 H1 H2 H3. fix F 1. intros [|a [|b [|c t]]]; [exact H0|apply H1|apply H2|apply H3, F].
Qed.
Ltac b64step i := 
  let H := fresh in
  destruct (b64char_ok i ltac:(lia)) as (H & ? & _);
  cbn [a2b]; destruct (b64char i =? 61) eqn:?; [lia|]; rewrite H; clear H.
Lemma a2b_encode data : wf data -> a2b (b64encode data) 0 0 0 = Ok data.
Proof.
  induction data as [|a|a b|a b c t IH] using list_ind3; intros Hw.
  - reflexivity.
  - apply wf_cons in Hw as [Ha _]. unfold byte in Ha. cbn [b64encode].
    b64step (a / 4). cbn [Z.eqb]. b64step (a mod 4 * 16). cbn [Z.eqb Pos.eqb]. cbn. f_equal. f_equal.
    lia.
  - apply wf_cons in Hw as [Ha Hw]. apply wf_cons in Hw as [Hb _]. unfold byte in *. cbn [b64encode].
    b64step (a / 4). cbn [Z.eqb]. b64step (a mod 4 * 16 + b / 16). cbn [Z.eqb Pos.eqb]. b64step (b mod 16 * 4).
    cbn [Z.eqb Pos.eqb]. cbn [a2b Z.eqb Pos.eqb]. cbn [bind Z.leb Z.compare Pos.compare Pos.compare_cont Z.add Pos.add Pos.succ]. f_equal. f_equal; [lia|]. f_equal. lia.
  - apply wf_cons in Hw as [Ha Hw]. apply wf_cons in Hw as [Hb Hw]. apply wf_cons in Hw as [Hc Hw]. unfold byte in *. cbn [b64encode].
    b64step (a / 4). cbn [Z.eqb]. b64step (a mod 4 * 16 + b / 16). cbn [Z.eqb Pos.eqb]. b64step (b mod 16 * 4 + c / 64).
    cbn [Z.eqb Pos.eqb]. b64step (c mod 64). cbn [Z.eqb Pos.eqb]. rewrite IH by easy. cbn [bind].
    f_equal. f_equal; [lia|]. f_equal; [lia|]. f_equal. lia.
Qed.
Definition b64keep (c : Z) : bool := (c =? 61) || match b64val c with Some _ => true | None => false end.
Lemma a2b_filter l : forall q lf p, a2b (filter b64keep l) q lf p = a2b l q lf p.
Proof.
  induction l as [|c l IH]; intros q lf p; [reflexivity|]. cbn [filter a2b].
  destruct (b64keep c) eqn:E.
  - cbn [a2b]. destruct (c =? 61) eqn:E1.
    + rewrite !IH. reflexivity.
    + unfold b64keep in E. rewrite E1 in E. cbn in E. destruct (b64val c); [|discriminate].
      now rewrite !IH.
  - unfold b64keep in E. apply orb_false_iff in E as [E1 E2]. rewrite E1. destruct (b64val c); [discriminate|]. apply IH.
Qed.
Lemma b64encode_chars data : wf data -> Forall (fun c => c < 128 /\ is_linebreak c = false /\ (c = 61 \/ exists i, 0 <= i < 64 /\ c = b64char i)) (b64encode data).
Proof.
  induction data as [|a|a b|a b c t IH] using list_ind3; intros Hw;
    repeat match goal with H : wf (_ :: _) |- _ => apply wf_cons in H as [? H] end; unfold byte in *; cbn [b64encode];
    repeat (apply Forall_cons; [first [ split; [lia|]; split; [reflexivity|]; now left
       | match goal with |- b64char ?i < 128 /\ _ => destruct (b64char_ok i ltac:(lia)) as (_ & ? & ? & ?); split; [easy|]; split; [easy|]; right; exists i; split; [lia|reflexivity] end]|]); try apply Forall_nil; auto.
Qed.
Lemma ascii_forallb s : Forall (fun c => c < 128) s -> forallb (fun c => c <? 128) s = true.
Proof. intros H. apply forallb_forall. rewrite Forall_forall in H. intros x Hx. apply H in Hx. lia. Qed.
Lemma b64_round data s : wf data -> Forall (fun c => c < 128) s -> filter b64keep s = b64encode data -> b64decode s = Ok data.
Proof.
  intros Hw Ha Hf. unfold b64decode. rewrite ascii_forallb by easy. rewrite <- a2b_filter, Hf. now apply a2b_encode.
Qed.
Lemma b64_round_plain data : wf data -> b64decode (b64encode data) = Ok data.
Proof.
  intros Hw. unfold b64decode. rewrite ascii_forallb; [now apply a2b_encode|].
  eapply Forall_impl; [|now apply b64encode_chars]. intros c H; apply H.
Qed.
Lemma a2b_wf_len l : forall q lf p r, (q = 0 \/ 0 <= lf < 4 ^ (4 - q)) -> 0 <= q <= 3 -> a2b l q lf p = Ok r -> wf r.
Proof.
  induction l as [|c l IH]; intros q lf p r Hlf Hq H; cbn [a2b] in H.
  - destruct (q =? 0); [injection H as <-; easy|discriminate].
  - destruct (c =? 61).
    + destruct (2 <=? q); [destruct (4 <=? _); [now injection H as <-|]|]; eapply IH; eauto.
    + destruct (b64val c) as [v|] eqn:Ev; [|eapply IH; eauto].
      assert (Hv : 0 <= v < 64).
      { unfold b64val in Ev. repeat match type of Ev with (if ?b then _ else _) = _ => destruct b eqn:? end; try discriminate; injection Ev as <-; lia. }
      destruct (q =? 0) eqn:E0; [apply (IH 1 v 0 r); [right; change (4 ^ (4 - 1)) with 64; lia|lia|exact H]|].
      destruct Hlf as [Hlf|Hlf]; [lia|].
      destruct (q =? 1) eqn:E1.
      { assert (q = 1) by lia; subst q. change (4 ^ (4 - 1)) with 64 in Hlf. inv_do H. injection H as <-. apply wf_cons. split; [unfold byte; lia|].
        eapply (IH 2); [right; change (4 ^ (4 - 2)) with 16|lia|eassumption]. lia. }
      destruct (q =? 2) eqn:E2.
      { assert (q = 2) by lia; subst q. change (4 ^ (4 - 2)) with 16 in Hlf. inv_do H. injection H as <-. apply wf_cons. split; [unfold byte; lia|].
        eapply (IH 3); [right; change (4 ^ (4 - 3)) with 4|lia|eassumption]. lia. }
      { assert (q = 3) by lia; subst q. change (4 ^ (4 - 3)) with 4 in Hlf. inv_do H. injection H as <-. apply wf_cons. split; [unfold byte; lia|].
        eapply (IH 0); [now left|lia|eassumption]. }
Qed.
Lemma b64decode_wf s r : b64decode s = Ok r -> wf r.
Proof. unfold b64decode. destruct (forallb _ s); [|discriminate]. apply a2b_wf_len; [now left|lia]. Qed.
Lemma a2b_err s : forall e q lf p, a2b s q lf p = Err e -> e = ValueError.
Proof.
  induction s as [|c s IH]; intros e q lf p H; cbn [a2b] in H.
  - destruct (q =? 0); congruence.
  - destruct (c =? 61).
    + destruct (2 <=? q); [destruct (4 <=? _); [discriminate|]|]; eapply IH; eauto.
    + destruct (b64val c); [|eapply IH; eauto].
      destruct (q =? 0); [eapply IH; eauto|].
      destruct (q =? 1); [|destruct (q =? 2)];
      match type of H with bind ?m _ = _ => destruct m eqn:Em; [discriminate|cbn in H; injection H as <-; eapply IH; eauto] end.
Qed.
Lemma b64decode_err s e : b64decode s = Err e -> e = ValueError.
Proof. unfold b64decode. destruct (forallb _ s); [|congruence]. apply a2b_err. Qed.

(** ** 72-column lines *)
Lemma b64_quad data : wf data -> forall k c, nth_error (b64encode data) (4 * k) = Some c -> c <> 61.
Proof.
  induction data as [|a|a b|a b c t IH] using list_ind3; intros Hw k c0 H;
    repeat match goal with H : wf (_ :: _) |- _ => apply wf_cons in H as [? H] end; unfold byte in *; cbn [b64encode] in H.
  - now rewrite nth_error_nil in H || (destruct (4 * k)%nat; discriminate).
  - destruct k as [|k]; [cbn in H; injection H as <-; apply b64char_ok; lia|].
    replace (4 * S k)%nat with (4 + 4 * k)%nat in H by lia. cbn [Nat.add nth_error] in H. destruct (4 * k)%nat; discriminate.
  - destruct k as [|k]; [cbn in H; injection H as <-; apply b64char_ok; lia|].
    replace (4 * S k)%nat with (4 + 4 * k)%nat in H by lia. cbn [Nat.add nth_error] in H. destruct (4 * k)%nat; discriminate.
  - destruct k as [|k]; [cbn in H; injection H as <-; apply b64char_ok; lia|].
    replace (4 * S k)%nat with (4 + 4 * k)%nat in H by lia. cbn [Nat.add nth_error] in H. eapply IH; eauto.
Qed.
Lemma chunks72_spec s : forall n i, 0 <= i ->
  concat (chunks72 n i s) = firstn (72 * n) (skipn (Z.to_nat (i * 72)) s) /\
  (forall c, In c (chunks72 n i s) -> exists k, 0 <= k /\ c = firstn 72 (skipn (Z.to_nat (72 * k)) s)).
Proof.
  induction n as [|n IH]; intros i Hi; [easy|]. cbn [chunks72 concat].
  destruct (IH (i + 1) ltac:(lia)) as [E F]. rewrite E.
  rewrite slice_firstn_skipn by lia. replace (Z.to_nat (i * 72 + 72 - i * 72)) with 72%nat by lia. split.
  - replace (Z.to_nat ((i + 1) * 72)) with (72 + Z.to_nat (i * 72))%nat by lia.
    set (u := Z.to_nat (i * 72)).
    rewrite <- (skipn_skipn 72 u). set (v := skipn u s). 
    replace (72 * S n)%nat with (72 + 72 * n)%nat by lia.
    rewrite <- (firstn_skipn 72 v) at 3. rewrite firstn_app.
    rewrite (firstn_all2 (firstn 72 v)) by (rewrite firstn_length; lia). f_equal.
    destruct (Nat.le_gt_cases (length v) 72) as [Hl|Hl].
    + rewrite (skipn_all2 v) by lia. now rewrite !firstn_nil.
    + rewrite firstn_length. f_equal. lia.
  - intros c [<-|Hc]; [|now apply F]. exists i. split; [easy|]. f_equal. f_equal. lia.
Qed.
Lemma chunks72_concat s : concat (chunks72 (Z.to_nat ((zlen s + 71) / 72)) 0 s) = s.
Proof.
  destruct (chunks72_spec s (Z.to_nat ((zlen s + 71) / 72)) 0 ltac:(lia)) as [-> _].
  change (Z.to_nat (0 * 72)) with 0%nat. rewrite skipn_O. apply firstn_all2. unfold zlen. lia.
Qed.
Lemma chunks72_in data n c : wf data -> In c (chunks72 n 0 (b64encode data)) ->
  no_break c /\ zlist_eqb (slice c 0 1) (str "=") = false.
Proof.
  intros Hw Hc. destruct (chunks72_spec (b64encode data) n 0 ltac:(lia)) as [_ F]. destruct (F c Hc) as (k & Hk & ->). split.
  - unfold no_break. apply Forall_forall. intros x Hx.
    assert (Hin : In x (b64encode data)).
    { rewrite <- (firstn_skipn (Z.to_nat (72 * k)) (b64encode data)). apply in_or_app. right.
      rewrite <- (firstn_skipn 72 (skipn _ _)). apply in_or_app. now left. }
    pose proof (b64encode_chars data Hw) as H. rewrite Forall_forall in H. apply H in Hin. apply Hin.
  - destruct (skipn (Z.to_nat (72 * k)) (b64encode data)) as [|x t] eqn:E; [reflexivity|].
    rewrite slice_firstn_skipn by lia. change (Z.to_nat (1 - 0)) with 1%nat. change (Z.to_nat 0) with 0%nat. rewrite skipn_O.
    change (firstn 72 (x :: t)) with (x :: firstn 71 t). cbn [firstn].
    apply zlist_eqb_neq. intros Hx.
    assert (x = 61) by (now injection Hx). subst x.
    eapply (b64_quad data Hw (18 * Z.to_nat k) 61); [|reflexivity].
    replace (4 * (18 * Z.to_nat k))%nat with (Z.to_nat (72 * k)) by lia.
    rewrite <- (Nat.add_0_r (Z.to_nat (72 * k))). rewrite <- nth_error_skipn'. now rewrite E.
Qed.

(** ** header line *)
Lemma numeral_digits p n : numeral p n -> dec_val p = n /\ Forall (fun c => is_digit c = true) p /\ exists c t, p = c :: t /\ c <> 48.
Proof.
  induction 1 as [d Hd|p n d Hp (IH1 & IH2 & c & t & -> & Hc) Hd].
  - split; [unfold dec_val; cbn [fold_left]; lia|]. split; [repeat constructor; unfold is_digit; lia|]. exists (48 + d), []. split; [easy|lia].
  - split; [rewrite dec_val_snoc; lia|]. split; [apply Forall_app; split; [easy|]; repeat constructor; unfold is_digit; lia|].
    exists c, (t ++ [48 + d]). easy.
Qed.
Lemma digits_numeral p : Forall (fun c => is_digit c = true) p -> forall c t, p = c :: t -> c <> 48 -> numeral p (dec_val p).
Proof.
  induction p as [|x p IH] using rev_ind; intros Hd c t E Hc; [discriminate|].
  apply Forall_app in Hd as [Hd Hx]. inversion Hx as [|? ? Hx1 _]; subst. unfold is_digit in Hx1.
  replace x with (48 + (x - 48)) by lia. rewrite dec_val_snoc. destruct p as [|y p].
  - cbn in E. injection E as -> _. cbn [app]. change (dec_val []) with 0. replace (10 * 0 + (c - 48)) with (c - 48) by lia.
    apply numeral_digit. lia.
  - apply numeral_snoc; [|lia]. eapply IH; [easy|reflexivity|]. cbn in E. congruence.
Qed.
Lemma numeral_fun p n m : numeral p n -> numeral p m -> n = m.
Proof. intros H1 H2. apply numeral_digits in H1 as [<- _]. apply numeral_digits in H2 as [<- _]. reflexivity. Qed.
Lemma dec_of_numeral n : 0 < n -> numeral (dec_of n) n.
Proof.
  intros Hn. unfold dec_of. destruct (n <? 0) eqn:E; [lia|].
  destruct (dec_digits_spec (S (Z.to_nat (Z.log2 n))) n) as [Hv Hd]; [lia|now apply dec_fuel, Z.lt_le_incl|lia|].
  destruct (dec_digits_head (S (Z.to_nat (Z.log2 n))) n) as (c & t & Ec & Hc); [lia|now apply dec_fuel, Z.lt_le_incl|].
  assert (G := digits_numeral _ Hd c t Ec Hc). now rewrite Hv in G.
Qed.
Lemma match_number_some l p r : match_number l = Some (p, r) ->
  l = p ++ r /\ numeral p (dec_val p) /\ match r with c :: _ => is_digit c = false | [] => True end.
Proof.
  unfold match_number. destruct (span_digits l) as [a b] eqn:E. apply span_digits_spec in E as (-> & Ha & Hb).
  destruct a as [|c a]; [discriminate|]. destruct (c =? 48) eqn:Ec; [discriminate|]. intros [= <- <-].
  split; [easy|]. split; [|easy]. eapply digits_numeral; [easy|reflexivity|lia].
Qed.
Lemma match_number_here p n r : numeral p n -> match r with c :: _ => is_digit c = false | [] => True end ->
  match_number (p ++ r) = Some (p, r).
Proof.
  intros Hp Hr. apply numeral_digits in Hp as (_ & Hd & c & t & -> & Hc). unfold match_number.
  rewrite span_digits_app by easy. destruct (c =? 48) eqn:E; [lia|reflexivity].
Qed.
Lemma header_match_sound l ty p t : header_match l = Some (ty, p, t) -> header_denotes l ty p t.
Proof.
  unfold header_match. intros H.
  destruct (strip_prefix (DASHES ++ str "BEGIN ") l) as [r|] eqn:E0; [|discriminate]. apply strip_prefix_some in E0. subst l.
  destruct (strip_prefix (str "PGP MESSAGE") r) as [r1|] eqn:E1.
  - apply strip_prefix_some in E1. subst r.
    destruct (strip_prefix (str ", PART ") r1) as [r2|] eqn:E2.
    + apply strip_prefix_some in E2. subst r1. destruct (match_number r2) as [[q r3]|] eqn:E3; [|discriminate].
      apply match_number_some in E3 as (-> & Hq & _).
      destruct (strip_prefix (str "/") r3) as [r4|] eqn:E4.
      * apply strip_prefix_some in E4. subst r3. destruct (match_number r4) as [[q2 r5]|] eqn:E5; [|discriminate].
        apply match_number_some in E5 as (-> & Hq2 & _). destruct (zlist_eqb r5 DASHES) eqn:E6; [|discriminate].
        apply zlist_eqb_spec in E6. subst r5. injection H as <- <- <-. exact (hd_parts q _ q2 _ Hq Hq2).
      * destruct (zlist_eqb r3 DASHES) eqn:E6; [|discriminate]. apply zlist_eqb_spec in E6. subst r3. injection H as <- <- <-.
        exact (hd_part q _ Hq).
    + destruct (zlist_eqb r1 DASHES) eqn:E6; [|discriminate]. apply zlist_eqb_spec in E6. subst r1. injection H as <- <- <-. exact hd_message.
  - destruct (zlist_eqb r (str "PGP PUBLIC KEY BLOCK" ++ DASHES)) eqn:E2; [apply zlist_eqb_spec in E2; subst r; injection H as <- <- <-; exact hd_public|].
    destruct (zlist_eqb r (str "PGP PRIVATE KEY BLOCK" ++ DASHES)) eqn:E3; [apply zlist_eqb_spec in E3; subst r; injection H as <- <- <-; exact hd_private|].
    destruct (zlist_eqb r (str "PGP SIGNATURE" ++ DASHES)) eqn:E4; [apply zlist_eqb_spec in E4; subst r; injection H as <- <- <-; exact hd_signature|discriminate].
Qed.
Lemma header_match_complete l ty p t : header_denotes l ty p t -> header_match l = Some (ty, p, t).
Proof.
  destruct 1 as [|q n Hq|q n q2 m Hq Hq2| | |]; try reflexivity.
  - unfold header_match. change (str "-----BEGIN PGP MESSAGE, PART ") with ((DASHES ++ str "BEGIN ") ++ str "PGP MESSAGE" ++ str ", PART ").
    rewrite <- (app_assoc (DASHES ++ _)), strip_prefix_app, <- app_assoc, strip_prefix_app, strip_prefix_app.
    rewrite (match_number_here q n) by easy. cbn [strip_prefix str]. 
    change (strip_prefix (str "/") (str "-----")) with (@None text). cbn iota. change (zlist_eqb (str "-----") DASHES) with true.
    destruct (numeral_digits q n Hq) as [-> _]. reflexivity.
  - unfold header_match. change (str "-----BEGIN PGP MESSAGE, PART ") with ((DASHES ++ str "BEGIN ") ++ str "PGP MESSAGE" ++ str ", PART ").
    rewrite <- (app_assoc (DASHES ++ _)), strip_prefix_app, <- app_assoc, strip_prefix_app, strip_prefix_app.
    rewrite (match_number_here q n) by easy. rewrite strip_prefix_app.
    rewrite (match_number_here q2 m) by easy. change (zlist_eqb (str "-----") DASHES) with true.
    destruct (numeral_digits q n Hq) as [-> _]. destruct (numeral_digits q2 m Hq2) as [-> _]. reflexivity.
Qed.
Lemma replace_no_first o old new l : Forall (fun c => c <> o) l -> replace (o :: old) new l = l.
Proof.
  unfold replace. induction 1 as [|c l Hc Hl IH]; [reflexivity|]. cbn [replace_acc].
  unfold starts_with. cbn [strip_prefix]. destruct (o =? c) eqn:E; [lia|]. now rewrite IH.
Qed.
Lemma digits_no_B p : Forall (fun c => is_digit c = true) p -> Forall (fun c => c <> 66) p.
Proof. apply Forall_impl. intros c H. unfold is_digit in H. lia. Qed.
Lemma tail_of_header l ty p t : header_denotes l ty p t -> tail_of l (replace (str "BEGIN") (str "END") l).
Proof.
  intros H. 
  destruct H as [|q n Hq|q n q2 m Hq Hq2| | |].
  - exists (str "PGP MESSAGE-----"). split; reflexivity.
  - exists (str "PGP MESSAGE, PART " ++ q ++ str "-----"). split; [reflexivity|].
    assert (E : forall r, replace (str "BEGIN") (str "END") (str "-----BEGIN PGP MESSAGE, PART " ++ r) =
                str "-----END PGP MESSAGE, PART " ++ replace (str "BEGIN") (str "END") r) by reflexivity.
    rewrite E. change (str "BEGIN") with (66 :: str "EGIN"). rewrite replace_no_first; [reflexivity|].
    apply Forall_app. split; [apply digits_no_B; now apply (numeral_digits q n)|]. repeat constructor; discriminate.
  - exists (str "PGP MESSAGE, PART " ++ q ++ str "/" ++ q2 ++ str "-----"). split; [reflexivity|].
    assert (E : forall r, replace (str "BEGIN") (str "END") (str "-----BEGIN PGP MESSAGE, PART " ++ r) =
                str "-----END PGP MESSAGE, PART " ++ replace (str "BEGIN") (str "END") r) by reflexivity.
    rewrite E. change (str "BEGIN") with (66 :: str "EGIN"). rewrite replace_no_first; [reflexivity|].
    apply Forall_app. split; [apply digits_no_B; now apply (numeral_digits q n)|].
    apply Forall_app. split; [repeat constructor; discriminate|].
    apply Forall_app. split; [apply digits_no_B; now apply (numeral_digits q2 m)|]. repeat constructor; discriminate.
  - exists (str "PGP PUBLIC KEY BLOCK-----"). split; reflexivity.
  - exists (str "PGP PRIVATE KEY BLOCK-----"). split; reflexivity.
  - exists (str "PGP SIGNATURE-----"). split; reflexivity.
Qed.
Lemma tail_of_fun h a b : tail_of h a -> tail_of h b -> a = b.
Proof. intros (r & E1 & ->) (s & E2 & ->). rewrite E1 in E2. apply app_inv_head in E2. now subst. Qed.
Lemma header_not_blank l ty p t : header_denotes l ty p t -> is_blank l = false.
Proof. destruct 1; reflexivity. Qed.
Lemma header_denotes_fun l ty p t ty' p' t' : header_denotes l ty p t -> header_denotes l ty' p' t' -> ty = ty' /\ p = p' /\ t = t'.
Proof. intros H1 H2. apply header_match_complete in H1, H2. rewrite H1 in H2. injection H2 as <- <- <-. easy. Qed.

(** ** header section *)
Lemma header_line_split l k v : header_line l k v <-> split_once (str ": ") l = Some (k, v).
Proof.
  unfold header_line, contains. split.
  - intros [-> H]. apply split_once_here; [easy|]. intros a b E. apply H. exists a, b. exact E.
  - intros H. apply split_once_some in H as [-> H]; [|easy]. split; [easy|]. intros (a & b & E). now apply (H a b).
Qed.
Definition set_all (h : hdrs) (kvs : list (text * text)) : hdrs := fold_left (fun h kv => set_header h (fst kv) (snd kv)) kvs h.
Lemma parse_headers_spec lines : forall h h' rest, parse_headers h lines = Ok (h', rest) <->
  exists heads blank kvs, lines = heads ++ blank :: rest /\ is_blank blank = true /\ Forall2 kv_ok heads kvs /\ h' = set_all h kvs.
Proof.
  induction lines as [|l lines IH]; intros h h' rest; cbn [parse_headers].
  - split; [discriminate|]. intros (heads & b & kvs & E & _). now destruct heads.
  - destruct (is_blank l) eqn:Eb.
    + split.
      * intros [= <- <-]. exists [], l, []. repeat split; auto.
      * intros (heads & b & kvs & E & Hb & H & ->). destruct heads as [|x heads].
        { injection E as -> ->. inversion H; subst. reflexivity. }
        { injection E as -> ->. inversion H as [|? ? ? ? [Hx _]]; subst. congruence. }
    + destruct (split_once (str ": ") l) as [[k v]|] eqn:Es.
      * rewrite IH. split.
        { intros (heads & b & kvs & -> & Hb & H & ->). exists (l :: heads), b, ((k, v) :: kvs). repeat split; auto.
          constructor; [|easy]. split; [easy|]. now apply header_line_split. }
        { intros (heads & b & kvs & E & Hb & H & ->). destruct heads as [|x heads].
          - injection E as -> ->. congruence.
          - injection E as -> ->. inversion H as [|? [k' v'] ? kvs' [_ Hk] Hrest]; subst.
            apply header_line_split in Hk. cbn [fst snd] in Hk. rewrite Es in Hk. injection Hk as -> ->.
            exists heads, b, kvs'. auto. }
      * split; [discriminate|]. intros (heads & b & kvs & E & Hb & H & ->). destruct heads as [|x heads].
        { injection E as -> ->. congruence. }
        { injection E as -> ->. inversion H as [|? [k' v'] ? kvs' [_ Hk] Hrest]; subst.
          apply header_line_split in Hk. congruence. }
Qed.
Definition orelse {A} (a b : option A) : option A := match a with Some _ => a | None => b end.
Lemma last_value_eqb k k' v t : last_value k ((k', v) :: t) = orelse (last_value k t) (if zlist_eqb k' k then Some v else None).
Proof.
  cbn [last_value]. destruct (last_value k t); [reflexivity|]. cbn. destruct (list_eq_dec Z.eq_dec k' k) as [->|Hne].
  - now rewrite zlist_eqb_refl.
  - now rewrite zlist_eqb_neq.
Qed.
Ltac fin :=
  cbn [h_version h_comment h_message_id h_hash h_charset];
  repeat match goal with |- context [zlist_eqb (str ?a) (str ?b)] => let v := eval vm_compute in (zlist_eqb (str a) (str b)) in change (zlist_eqb (str a) (str b)) with v end;
  repeat match goal with H : zlist_eqb ?k ?t = false |- _ => rewrite H end;
  repeat match goal with |- _ /\ _ => split end;
  match goal with |- context [last_value ?a ?b] => destruct (last_value a b); reflexivity end.
Lemma set_all_spec kvs : forall h,
  h_version (set_all h kvs) = orelse (last_value (str "Version") kvs) (h_version h) /\
  h_comment (set_all h kvs) = orelse (last_value (str "Comment") kvs) (h_comment h) /\
  h_message_id (set_all h kvs) = orelse (last_value (str "MessageID") kvs) (h_message_id h) /\
  h_hash (set_all h kvs) = orelse (last_value (str "Hash") kvs) (h_hash h) /\
  h_charset (set_all h kvs) = orelse (last_value (str "Charset") kvs) (h_charset h).
Proof.
  induction kvs as [|[k v] kvs IH]; intros h; [repeat split|].
  unfold set_all. cbn [fold_left]. fold (set_all (set_header h (fst (k, v)) (snd (k, v))) kvs).
  destruct (IH (set_header h (fst (k, v)) (snd (k, v)))) as (-> & -> & -> & -> & ->). rewrite !last_value_eqb. cbn [fst snd].
  unfold set_header.
  destruct (zlist_eqb k (str "Version")) eqn:E1; [apply zlist_eqb_spec in E1; subst; fin|].
  destruct (zlist_eqb k (str "Comment")) eqn:E2; [apply zlist_eqb_spec in E2; subst; fin|].
  destruct (zlist_eqb k (str "MessageID")) eqn:E3; [apply zlist_eqb_spec in E3; subst; fin|].
  destruct (zlist_eqb k (str "Hash")) eqn:E4; [apply zlist_eqb_spec in E4; subst; fin|].
  destruct (zlist_eqb k (str "Charset")) eqn:E5; [apply zlist_eqb_spec in E5; subst; fin|].
  fin.
Qed.

(** ** blank lines, data lines *)
Lemma skip_blank_spec lines hl rest : skip_blank lines = Ok (hl, rest) <->
  exists blanks, lines = blanks ++ hl :: rest /\ Forall (fun l => is_blank l = true) blanks /\ is_blank hl = false.
Proof.
  induction lines as [|l lines IH]; cbn [skip_blank].
  - split; [discriminate|]. intros (b & E & _). now destruct b.
  - destruct (is_blank l) eqn:Eb.
    + rewrite IH. split.
      * intros (b & -> & H & Hh). exists (l :: b). repeat split; auto.
      * intros (b & E & H & Hh). destruct b as [|x b].
        { injection E as -> ->. congruence. }
        { injection E as -> ->. inversion H; subst. exists b. auto. }
    + split.
      * intros [= <- <-]. exists []. auto.
      * intros (b & E & H & Hh). destruct b as [|x b].
        { injection E as -> ->. reflexivity. }
        { injection E as -> ->. inversion H; subst. congruence. }
Qed.
Lemma eq_first l : zlist_eqb (slice l 0 1) (str "=") = true <-> exists t, l = 61 :: t.
Proof.
  destruct l as [|c l]; [split; [discriminate|intros [t H]; discriminate]|].
  rewrite slice_firstn_skipn by lia. change (Z.to_nat (1 - 0)) with 1%nat. cbn [Z.to_nat skipn firstn]. rewrite zlist_eqb_spec.
  split; [intros [= ->]; eauto|intros (t & [= -> ->]); reflexivity].
Qed.
Lemma data_line_eqb l : data_line l <-> zlist_eqb (slice l 0 1) (str "=") = false.
Proof.
  unfold data_line. destruct (zlist_eqb _ _) eqn:E.
  - apply eq_first in E as (t & ->). split; [intros H; now elim (H t)|discriminate].
  - split; [easy|]. intros _ t ->. assert (H : zlist_eqb (slice (61 :: t) 0 1) (str "=") = true) by (apply eq_first; eauto). congruence.
Qed.
Lemma take_data_spec lines : forall dl s rest, take_data lines = Ok (dl, s, rest) <->
  lines = dl ++ s :: rest /\ Forall data_line dl /\ exists t, s = 61 :: t.
Proof.
  induction lines as [|l lines IH]; intros dl s rest; cbn [take_data].
  - split; [discriminate|]. intros (E & _). now destruct dl.
  - destruct (zlist_eqb (slice l 0 1) (str "=")) eqn:E.
    + split.
      * intros [= <- <- <-]. split; [easy|]. split; [constructor|]. now apply eq_first.
      * intros (El & Hd & Hs). destruct dl as [|x dl]; [now injection El as -> ->|].
        injection El as -> ->. inversion Hd as [|? ? Hx]; subst. apply data_line_eqb in Hx. congruence.
    + split.
      * intros H. destruct (take_data lines) as [[[dl' s'] r']|] eqn:Et; [|discriminate]. cbn in H. injection H as <- <- <-.
        destruct (proj1 (IH _ _ _) eq_refl) as (-> & Hd & Hs). split; [easy|]. split; [|easy]. constructor; [|easy]. now apply data_line_eqb.
      * intros (El & Hd & t & Hs). destruct dl as [|x dl].
        { injection El as -> ->. subst s. assert (H : zlist_eqb (slice (61 :: t) 0 1) (str "=") = true) by (apply eq_first; eauto). congruence. }
        { injection El as -> ->. inversion Hd; subst. assert (H : take_data (dl ++ (61 :: t) :: rest) = Ok (dl, 61 :: t, rest)) by (apply IH; eauto).
          rewrite H. reflexivity. }
Qed.
Lemma sum24 c0 c1 c2 : Z.shiftl c0 16 + Z.shiftl c1 8 + c2 = c0 * 65536 + c1 * 256 + c2.
Proof. rewrite !Z.shiftl_mul_pow2 by lia. reflexivity. Qed.
