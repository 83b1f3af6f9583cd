(** Proofs about parsing user ids: every loop advances, nothing is read outside the field. *)
From Verif Require Import Base BaseProofs Text TextProofs UserId.

Lemma in_set_in c l : in_set c l = true <-> In c l.
Proof.
  unfold in_set. rewrite existsb_exists. split; [intros (x & Hx & E); apply Z.eqb_eq in E; now subst|]. intros H. exists c. split; [exact H|apply Z.eqb_refl].
Qed.
Lemma get_in {A} (l : list A) i : 0 <= i < zlen l -> exists c, get l i = Ok c.
Proof.
  intros H. unfold get. replace (i <? 0) with false by lia. cbv zeta. replace ((i <? 0) || (zlen l <=? i)) with false by lia.
  destruct (nth_error l (Z.to_nat i)) eqn:E; [eauto|]. apply nth_error_None in E. unfold zlen in H. lia.
Qed.
Lemma in_fws_atomends c : in_set c phraseends = true -> c <> 34 -> in_set c FWS = false -> c <> 40 -> in_set c specials = true.
Proof. rewrite <- Bool.not_true_iff_false, !in_set_in. unfold phraseends, atomends, specials, FWS, LWS, CRLF. cbn [filter app negb Z.eqb Pos.eqb In]. lia. Qed.
Lemma atom_not_phrase c : in_set c phraseends = false -> in_set c atomends = false \/ c = 46.
Proof.
  rewrite <- !Bool.not_true_iff_false, !in_set_in. unfold phraseends, atomends, specials, LWS, CRLF. cbn [filter app negb Z.eqb Pos.eqb In]. lia.
Qed.
Section U.
Variable quote : text -> text.
Variable field : text.
Notation L := (zlen field).
Notation lf := (loop_fuel field).
Lemma lf_eq : Z.of_nat lf = L + 1.
Proof. unfold loop_fuel, zlen. lia. Qed.
Ltac at_pos p := let c := fresh "c" in let G := fresh "G" in destruct (get_in field p) as (c & G); [lia|]; rewrite ?G; cbn [bind].

(** an outcome that ends at a position between two bounds *)
Definition ends2 {A} (r : res (A * Z)) (lo : Z) : Prop := exists a p, r = Ok (a, p) /\ lo <= p <= L.
Definition ends3 {A B} (r : res (A * B * Z)) (lo hi : Z) : Prop := exists a b p, r = Ok (a, b, p) /\ lo <= p <= hi.

Lemma delim_ends nested ends allow (ok : forall p, 0 <= p < L -> allow = true -> get field p = Ok 40 -> ends2 (nested p) (p + 1)) :
  forall fuel sl q pos, 0 <= pos <= L -> L - pos < Z.of_nat fuel -> ends2 (delim_loop field nested ends allow fuel sl q pos) pos.
Proof.
  induction fuel as [|fuel IH]; intros sl q pos Hp F; [lia|]. cbn [delim_loop]. destruct (pos <? L) eqn:E; [|exists sl, pos; split; [reflexivity|lia]].
  at_pos pos. destruct q.
  { destruct (IH (sl ++ [c]) false (pos + 1)) as (a & p & -> & B); [lia|lia|]. exists a, p. split; [reflexivity|lia]. }
  destruct (in_set c ends); [exists sl, (pos + 1); split; [reflexivity|lia]|].
  destruct (allow && (c =? 40)) eqn:A.
  { apply andb_true_iff in A as [A1 A2]. apply Z.eqb_eq in A2. subst c. destruct (ok pos) as (t & p1 & -> & B1); [lia|exact A1|exact G|]. cbn [bind].
    destruct (IH (sl ++ t) false p1) as (a & p & -> & B); [lia|lia|]. exists a, p. split; [reflexivity|lia]. }
  destruct (c =? 92).
  { destruct (IH sl true (pos + 1)) as (a & p & -> & B); [lia|lia|]. exists a, p. split; [reflexivity|lia]. }
  destruct (IH (sl ++ [c]) false (pos + 1)) as (a & p & -> & B); [lia|lia|]. exists a, p. split; [reflexivity|lia].
Qed.
Lemma delimited_ends nested ends allow b (ok : forall p, 0 <= p < L -> allow = true -> get field p = Ok 40 -> ends2 (nested p) (p + 1)) pos :
  0 <= pos < L -> get field pos = Ok b -> ends2 (getdelimited field nested ends allow b pos) (pos + 1).
Proof.
  intros Hp G. unfold getdelimited. rewrite G. cbn [bind]. rewrite Z.eqb_refl. cbn [negb].
  apply (delim_ends nested ends allow ok); [lia|]. rewrite lf_eq. lia.
Qed.
(** nesting is bounded by what is left of the field *)
Lemma comment_ends cd : forall pos, 0 <= pos < L -> L - pos <= Z.of_nat cd -> get field pos = Ok 40 -> ends2 (getcomment field cd pos) (pos + 1).
Proof.
  induction cd as [|cd IH]; intros pos Hp C G; [lia|]. cbn [getcomment]. unfold getdelimited. rewrite G. cbn [bind Z.eqb Pos.eqb negb].
  assert (D : forall fuel sl q p, pos + 1 <= p <= L -> L - p < Z.of_nat fuel -> ends2 (delim_loop field (getcomment field cd) [41; 13] true fuel sl q p) p).
  { induction fuel as [|fuel IHf]; intros sl q p P F; [lia|]. cbn [delim_loop]. destruct (p <? L) eqn:E; [|exists sl, p; split; [reflexivity|lia]].
    destruct (get_in field p) as (c & Gc); [lia|]. rewrite Gc. cbn [bind]. destruct q.
    { destruct (IHf (sl ++ [c]) false (p + 1)) as (a & p' & -> & B); [lia|lia|]. exists a, p'. split; [reflexivity|lia]. }
    destruct (in_set c [41; 13]); [exists sl, (p + 1); split; [reflexivity|lia]|]. cbn [andb]. destruct (c =? 40) eqn:A.
    { apply Z.eqb_eq in A. subst c. destruct (IH p) as (t & p1 & -> & B1); [lia|lia|exact Gc|]. cbn [bind].
      destruct (IHf (sl ++ t) false p1) as (a & p' & -> & B); [lia|lia|]. exists a, p'. split; [reflexivity|lia]. }
    destruct (c =? 92).
    { destruct (IHf sl true (p + 1)) as (a & p' & -> & B); [lia|lia|]. exists a, p'. split; [reflexivity|lia]. }
    destruct (IHf (sl ++ [c]) false (p + 1)) as (a & p' & -> & B); [lia|lia|]. exists a, p'. split; [reflexivity|lia]. }
  apply D; [lia|]. rewrite lf_eq. lia.
Qed.
Lemma quote_ends pos : 0 <= pos < L -> get field pos = Ok 34 -> ends2 (getquote field pos) (pos + 1).
Proof. intros H G. apply delimited_ends; [intros p _ X; discriminate X|exact H|exact G]. Qed.
Lemma literal_ends pos : 0 <= pos < L -> get field pos = Ok 91 -> ends2 (getdomainliteral field pos) (pos + 1).
Proof.
  intros H G. unfold getdomainliteral. destruct (delimited_ends (no_comment) [93; 13] false 91) with (pos := pos) as (t & p & -> & B); [intros p _ X; discriminate X|exact H|exact G|].
  cbn [bind]. eexists. exists p. split; [reflexivity|exact B].
Qed.
Lemma atom_loop_ends ends : forall fuel acc pos, 0 <= pos <= L -> L - pos < Z.of_nat fuel -> ends2 (atom_loop field fuel ends acc pos) pos.
Proof.
  induction fuel as [|fuel IH]; intros acc pos Hp F; [lia|]. cbn [atom_loop]. destruct (pos <? L) eqn:E; [|exists acc, pos; split; [reflexivity|lia]].
  at_pos pos. destruct (in_set c ends); [exists acc, pos; split; [reflexivity|lia]|].
  destruct (IH (acc ++ [c]) (pos + 1)) as (a & p & -> & B); [lia|lia|]. exists a, p. split; [reflexivity|lia].
Qed.
Lemma atom_ends ends pos c : 0 <= pos < L -> get field pos = Ok c -> in_set c ends = false -> ends2 (getatom field ends pos) (pos + 1).
Proof.
  intros H G N. unfold getatom. unfold loop_fuel. cbn [atom_loop]. replace (pos <? L) with true by lia. rewrite G. cbn [bind]. rewrite N.
  apply atom_loop_ends; [lia|]. unfold zlen in *. lia.
Qed.

Variable cd : nat.
Hypothesis CD : L <= Z.of_nat cd.
Lemma next_loop_ends : forall fuel ws cl pos, 0 <= pos <= L -> L - pos < Z.of_nat fuel -> ends3 (next_loop field cd fuel ws cl pos) pos L.
Proof.
  induction fuel as [|fuel IH]; intros ws cl pos Hp F; [lia|]. cbn [next_loop]. destruct (pos <? L) eqn:E; [|exists ws, cl, pos; split; [reflexivity|lia]].
  at_pos pos. destruct (in_set c FWS).
  { destruct (IH (if in_set c CRLF then ws else ws ++ [c]) cl (pos + 1)) as (a & b & p & -> & B); [lia|lia|]. exists a, b, p. split; [reflexivity|lia]. }
  destruct (c =? 40) eqn:A; [|exists ws, cl, pos; split; [reflexivity|lia]]. apply Z.eqb_eq in A. subst c.
  destruct (comment_ends cd pos) as (t & p1 & -> & B1); [lia|lia|exact G|]. cbn [bind].
  destruct (IH ws (cl ++ [t]) p1) as (a & b & p & -> & B); [lia|lia|]. exists a, b, p. split; [reflexivity|lia].
Qed.
(** past the end (one octet at most) nothing happens *)
Lemma next_ends cl pos : 0 <= pos -> ends3 (gotonext field cd cl pos) pos (Z.max pos L).
Proof.
  intros H. unfold gotonext. destruct (Z.leb_spec pos L).
  - destruct (next_loop_ends lf [] cl pos) as (a & b & p & -> & B); [lia|rewrite lf_eq; lia|]. exists a, b, p. split; [reflexivity|lia].
  - unfold loop_fuel. cbn [next_loop]. replace (pos <? L) with false by lia. exists [], cl, pos. split; [reflexivity|lia].
Qed.
(** where it stops there is neither white space nor a comment *)
Lemma next_stops : forall fuel ws cl pos ws' cl' p, next_loop field cd fuel ws cl pos = Ok (ws', cl', p) -> p < L -> exists c, get field p = Ok c /\ in_set c FWS = false /\ c <> 40.
Proof.
  induction fuel as [|fuel IH]; intros ws cl pos ws' cl' p E Hp; [discriminate|]. cbn [next_loop] in E. destruct (pos <? L) eqn:Ep; [|injection E as <- <- <-; lia].
  apply bind_ok in E as (c & G & E). destruct (in_set c FWS) eqn:F; [eauto|]. destruct (c =? 40) eqn:A.
  - apply bind_ok in E as ([t p1] & _ & E). eauto.
  - injection E as <- <- <-. exists c. repeat split; auto. lia.
Qed.
Lemma phrase_ends : forall fuel pl cl pos, 0 <= pos <= L -> L - pos < Z.of_nat fuel -> ends3 (phrase_loop field cd fuel pl cl pos) pos L.
Proof.
  induction fuel as [|fuel IH]; intros pl cl pos Hp F; [lia|]. cbn [phrase_loop]. destruct (pos <? L) eqn:E; [|exists pl, cl, pos; split; [reflexivity|lia]].
  at_pos pos. destruct (in_set c FWS).
  { destruct (IH pl cl (pos + 1)) as (a & b & p & -> & B); [lia|lia|]. exists a, b, p. split; [reflexivity|lia]. }
  destruct (c =? 34) eqn:Q.
  { apply Z.eqb_eq in Q. subst c. destruct (quote_ends pos) as (t & p1 & -> & B1); [lia|exact G|]. cbn [bind].
    destruct (IH (pl ++ [t]) cl p1) as (a & b & p & -> & B); [lia|lia|]. exists a, b, p. split; [reflexivity|lia]. }
  destruct (c =? 40) eqn:A.
  { apply Z.eqb_eq in A. subst c. destruct (comment_ends cd pos) as (t & p1 & -> & B1); [lia|lia|exact G|]. cbn [bind].
    destruct (IH pl (cl ++ [t]) p1) as (a & b & p & -> & B); [lia|lia|]. exists a, b, p. split; [reflexivity|lia]. }
  destruct (in_set c phraseends) eqn:P; [exists pl, cl, pos; split; [reflexivity|lia]|].
  destruct (atom_ends phraseends pos c) as (t & p1 & -> & B1); [lia|exact G|exact P|]. cbn [bind].
  destruct (IH (pl ++ [t]) cl p1) as (a & b & p & -> & B); [lia|lia|]. exists a, b, p. split; [reflexivity|lia].
Qed.
(** at a character that is neither white space nor a comment: a phrase stops at once, or it advances *)
Lemma phrase_first cl pos c : 0 <= pos < L -> get field pos = Ok c -> in_set c FWS = false -> c <> 40 ->
  (in_set c phraseends = true /\ c <> 34 /\ getphraselist field cd cl pos = Ok ([], cl, pos)) \/
  ((in_set c phraseends = false \/ c = 34) /\ ends3 (getphraselist field cd cl pos) (pos + 1) L).
Proof.
  intros Hp G F A. unfold getphraselist, loop_fuel. cbn [phrase_loop]. replace (pos <? L) with true by lia. rewrite G. cbn [bind]. rewrite F.
  destruct (c =? 34) eqn:Q.
  - apply Z.eqb_eq in Q. subst c. right. split; [now right|]. destruct (quote_ends pos) as (t & p1 & -> & B1); [lia|exact G|]. cbn [bind].
    destruct (phrase_ends (length field) ([] ++ [t]) cl p1) as (a & b & p & -> & B); [lia|unfold zlen in *; lia|]. exists a, b, p. split; [reflexivity|lia].
  - replace (c =? 40) with false by lia. destruct (in_set c phraseends) eqn:P.
    + left. repeat split. lia.
    + right. split; [now left|]. destruct (atom_ends phraseends pos c) as (t & p1 & -> & B1); [lia|exact G|exact P|]. cbn [bind].
      destruct (phrase_ends (length field) ([] ++ [t]) cl p1) as (a & b & p & -> & B); [lia|unfold zlen in *; lia|]. exists a, b, p. split; [reflexivity|lia].
Qed.
Lemma phraselist_ends cl pos : 0 <= pos -> ends3 (getphraselist field cd cl pos) pos (Z.max pos L).
Proof.
  intros H. unfold getphraselist. destruct (Z.leb_spec pos L).
  - destruct (phrase_ends lf [] cl pos) as (a & b & p & -> & B); [lia|rewrite lf_eq; lia|]. exists a, b, p. split; [reflexivity|lia].
  - unfold loop_fuel. cbn [phrase_loop]. replace (pos <? L) with false by lia. exists [], cl, pos. split; [reflexivity|lia].
Qed.
Lemma domain_loop_ends : forall fuel sd cl pos, 0 <= pos <= L -> L - pos < Z.of_nat fuel -> ends3 (domain_loop field cd fuel sd cl pos) pos L.
Proof.
  induction fuel as [|fuel IH]; intros sd cl pos Hp F; [lia|]. cbn [domain_loop]. destruct (pos <? L) eqn:E; [|exists sd, cl, pos; split; [reflexivity|lia]].
  at_pos pos. destruct (in_set c LWS).
  { destruct (IH sd cl (pos + 1)) as (a & b & p & -> & B); [lia|lia|]. exists a, b, p. split; [reflexivity|lia]. }
  destruct (c =? 40) eqn:A.
  { apply Z.eqb_eq in A. subst c. destruct (comment_ends cd pos) as (t & p1 & -> & B1); [lia|lia|exact G|]. cbn [bind].
    destruct (IH sd (cl ++ [t]) p1) as (a & b & p & -> & B); [lia|lia|]. exists a, b, p. split; [reflexivity|lia]. }
  destruct (c =? 91) eqn:Q.
  { apply Z.eqb_eq in Q. subst c. destruct (literal_ends pos) as (t & p1 & -> & B1); [lia|exact G|]. cbn [bind].
    destruct (IH (sd ++ t) cl p1) as (a & b & p & -> & B); [lia|lia|]. exists a, b, p. split; [reflexivity|lia]. }
  destruct (c =? 46).
  { destruct (IH (sd ++ [46]) cl (pos + 1)) as (a & b & p & -> & B); [lia|lia|]. exists a, b, p. split; [reflexivity|lia]. }
  destruct (in_set c atomends) eqn:P; [exists sd, cl, pos; split; [reflexivity|lia]|].
  destruct (atom_ends atomends pos c) as (t & p1 & -> & B1); [lia|exact G|exact P|]. cbn [bind].
  destruct (IH (sd ++ t) cl p1) as (a & b & p & -> & B); [lia|lia|]. exists a, b, p. split; [reflexivity|lia].
Qed.
Lemma domain_ends cl pos : 0 <= pos -> ends3 (getdomain field cd cl pos) pos (Z.max pos L).
Proof.
  intros H. unfold getdomain. destruct (Z.leb_spec pos L).
  - destruct (domain_loop_ends lf [] cl pos) as (a & b & p & -> & B); [lia|rewrite lf_eq; lia|]. exists a, b, p. split; [reflexivity|lia].
  - unfold loop_fuel. cbn [domain_loop]. replace (pos <? L) with false by lia. exists [], cl, pos. split; [reflexivity|lia].
Qed.
Ltac nxt cl p := let a := fresh "w" in let b := fresh "cl" in let q := fresh "p" in let B := fresh "B" in
  destruct (next_ends cl p) as (a & b & q & -> & B); [lia|]; cbn [bind].
Lemma spec_loop_ends : forall fuel al cl pos, 0 <= pos <= L -> L - pos < Z.of_nat fuel -> ends3 (spec_loop quote field cd fuel al cl pos) pos L.
Proof.
  induction fuel as [|fuel IH]; intros al cl pos Hp F; [lia|]. cbn [spec_loop]. destruct (pos <? L) eqn:E; [|exists al, cl, pos; split; [reflexivity|lia]].
  at_pos pos. destruct (c =? 46).
  { nxt cl (pos + 1). destruct (IH ([46] :: pop_blank al) cl0 p) as (a & b & q & -> & B'); [lia|lia|]. exists a, b, q. split; [reflexivity|lia]. }
  destruct (c =? 34) eqn:Q.
  { apply Z.eqb_eq in Q. subst c. destruct (quote_ends pos) as (t & p1 & -> & B1); [lia|exact G|]. cbn [bind]. nxt cl p1.
    match goal with |- ends3 (spec_loop _ _ _ _ ?x ?y ?z) _ _ => destruct (IH x y z) as (a & b & q & -> & B'); [lia|lia|] end. exists a, b, q. split; [reflexivity|lia]. }
  destruct (in_set c atomends) eqn:P; [eexists; eexists; exists pos; split; [reflexivity|lia]|].
  destruct (atom_ends atomends pos c) as (t & p1 & -> & B1); [lia|exact G|exact P|]. cbn [bind]. nxt cl p1.
  match goal with |- ends3 (spec_loop _ _ _ _ ?x ?y ?z) _ _ => destruct (IH x y z) as (a & b & q & -> & B'); [lia|lia|] end. exists a, b, q. split; [reflexivity|lia].
Qed.
Lemma addrspec_rest al cl pos : 0 <= pos <= L -> ends3
  (if L <=? pos then Ok (concat (rev al), cl, pos)
   else do c <- get field pos;;
        if negb (c =? 64) then Ok (concat (rev al), cl, pos)
        else do (_, cl, pos) <- gotonext field cd cl (pos + 1);;
             do (d, cl, pos) <- getdomain field cd cl pos;;
             Ok (concat (rev al) ++ [64] ++ d, cl, pos)) pos L.
Proof.
  intros H. destruct (L <=? pos) eqn:E; [eexists; eexists; exists pos; split; [reflexivity|lia]|]. at_pos pos.
  destruct (negb (c =? 64)); [eexists; eexists; exists pos; split; [reflexivity|lia]|]. nxt cl (pos + 1).
  destruct (domain_ends cl0 p) as (d & cl1 & q & -> & B'); [lia|]. cbn [bind]. eexists; eexists; exists q. split; [reflexivity|lia].
Qed.
Lemma addrspec_ends cl pos : 0 <= pos <= L -> ends3 (getaddrspec quote field cd cl pos) pos L.
Proof.
  intros H. unfold getaddrspec. nxt cl pos. destruct (spec_loop_ends lf [] cl0 p) as (al & cl1 & q & -> & B'); [lia|rewrite lf_eq; lia|]. cbn [bind]. cbv zeta.
  destruct (addrspec_rest al cl1 q) as (a & b & r & E & B2); [lia|]. rewrite E. exists a, b, r. split; [reflexivity|lia].
Qed.
Lemma next_stay cl pos c : 0 <= pos < L -> get field pos = Ok c -> in_set c FWS = false -> c <> 40 -> gotonext field cd cl pos = Ok ([], cl, pos).
Proof.
  intros H G F A. unfold gotonext, loop_fuel. cbn [next_loop]. replace (pos <? L) with true by lia. rewrite G. cbn [bind]. rewrite F. replace (c =? 40) with false by lia. reflexivity.
Qed.
(** an address starting with a character that can begin one advances *)
Lemma addrspec_advances cl pos c : 0 <= pos < L -> get field pos = Ok c -> in_set c FWS = false -> c <> 40 -> (in_set c atomends = false \/ c = 46 \/ c = 34 \/ c = 64) ->
  ends3 (getaddrspec quote field cd cl pos) (pos + 1) L.
Proof.
  intros H G F A C. unfold getaddrspec. rewrite (next_stay cl pos c H G F A). cbn [bind].
  assert (S : ends3 (spec_loop quote field cd lf [] cl pos) (pos + 1) L \/ (c = 64 /\ spec_loop quote field cd lf [] cl pos = Ok ([], cl, pos))).
  { unfold loop_fuel. cbn [spec_loop]. replace (pos <? L) with true by lia. rewrite G. cbn [bind]. destruct (c =? 46) eqn:E1.
    { left. nxt cl (pos + 1). match goal with |- ends3 (spec_loop _ _ _ _ ?x ?y ?z) _ _ => destruct (spec_loop_ends (length field) x y z) as (a & b & q & -> & B'); [lia|unfold zlen in *; lia|] end. exists a, b, q. split; [reflexivity|lia]. }
    destruct (c =? 34) eqn:E2.
    { left. apply Z.eqb_eq in E2. subst c. destruct (quote_ends pos) as (t & p1 & -> & B1); [lia|exact G|]. cbn [bind]. nxt cl p1.
      match goal with |- ends3 (spec_loop _ _ _ _ ?x ?y ?z) _ _ => destruct (spec_loop_ends (length field) x y z) as (a & b & q & -> & B'); [lia|unfold zlen in *; lia|] end. exists a, b, q. split; [reflexivity|lia]. }
    destruct (in_set c atomends) eqn:E3.
    { right. split; [|reflexivity]. destruct C as [C|C]; [discriminate C|]. lia. }
    left. destruct (atom_ends atomends pos c) as (t & p1 & -> & B1); [lia|exact G|exact E3|]. cbn [bind]. nxt cl p1.
    match goal with |- ends3 (spec_loop _ _ _ _ ?x ?y ?z) _ _ => destruct (spec_loop_ends (length field) x y z) as (a & b & q & -> & B'); [lia|unfold zlen in *; lia|] end. exists a, b, q. split; [reflexivity|lia]. }
  destruct S as [(al & cl1 & q & -> & B)|[-> ->]]; cbn [bind]; cbv zeta.
  - destruct (addrspec_rest al cl1 q) as (a & b & r & E & B2); [lia|]. rewrite E. exists a, b, r. split; [reflexivity|lia].
  - replace (L <=? pos) with false by lia. rewrite G. cbn [bind Z.eqb Pos.eqb negb]. nxt cl (pos + 1).
    destruct (domain_ends cl0 p) as (d & cl1 & q & -> & B'); [lia|]. cbn [bind]. eexists; eexists; exists q. split; [reflexivity|lia].
Qed.
Lemma route_ends : forall fuel (x : bool) cl pos, 0 <= pos <= L -> 2 * (L - pos) + (if x then 1 else 0) < Z.of_nat fuel -> ends3 (route_loop quote field cd fuel x cl pos) pos (L + 1).
Proof.
  induction fuel as [|fuel IH]; intros x cl pos Hp F; [destruct x; lia|]. cbn [route_loop]. destruct (pos <? L) eqn:E; [|exists [], cl, pos; split; [reflexivity|lia]].
  destruct x.
  { destruct (domain_ends cl pos) as (d & cl1 & q & -> & B'); [lia|]. cbn [bind]. nxt cl1 q.
    destruct (IH false cl0 p) as (a & b & r & -> & B2); [lia|lia|]. exists a, b, r. split; [reflexivity|lia]. }
  at_pos pos. destruct (c =? 62); [exists [], cl, (pos + 1); split; [reflexivity|lia]|]. destruct (c =? 64).
  { nxt cl (pos + 1). destruct (IH true cl0 p) as (a & b & r & -> & B2); [lia|lia|]. exists a, b, r. split; [reflexivity|lia]. }
  destruct (c =? 58).
  { nxt cl (pos + 1). destruct (IH false cl0 p) as (a & b & r & -> & B2); [lia|lia|]. exists a, b, r. split; [reflexivity|lia]. }
  destruct (addrspec_ends cl pos) as (a & b & r & -> & B2); [lia|]. cbn [bind]. exists a, b, (r + 1). split; [reflexivity|lia].
Qed.
Lemma routeaddr_ends cl pos : 0 <= pos < L -> ends3 (getrouteaddr quote field cd cl pos) (pos + 1) (L + 1).
Proof.
  intros H. unfold getrouteaddr. nxt cl (pos + 1). destruct (route_ends (2 * lf) false cl0 p) as (a & b & r & -> & B2); [lia| |].
  - rewrite Nat2Z.inj_mul, lf_eq. lia.
  - exists a, b, r. split; [reflexivity|lia].
Qed.

Lemma get_same p c c' : get field p = Ok c -> get field p = Ok c' -> c = c'.
Proof. intros -> [= ->]. reflexivity. Qed.
(** Every address is parsed, within the field, and something is consumed unless nothing was left. *)
Lemma address_ends : forall gd pos, 0 <= pos <= L -> L - pos < Z.of_nat gd ->
  exists r cl p, getaddress quote field cd gd pos = Ok (r, cl, p) /\ (if pos <? L then pos + 1 <= p <= L + 1 else p = pos).
Proof.
  induction gd as [|gd IH]; intros pos Hp Hg; [lia|]. cbn [getaddress].
  destruct (next_ends [] pos) as (w0 & cl0 & oldpos & N0 & B0); [lia|]. rewrite N0. cbn [bind].
  (* the end of the function *)
  assert (T : forall (lo : Z) (R : res (list addr * list text * Z)), lo <= L + 1 -> (exists r cl p, R = Ok (r, cl, p) /\ lo <= p <= L + 1 /\ 0 <= p) ->
    exists r cl p, (do (r, cl, pos0) <- R;; do (_, cl1, pos1) <- gotonext field cd cl pos0;;
      do pos2 <- (if pos1 <? L then do c <- get field pos1;; Ok (if c =? 44 then pos1 + 1 else pos1) else Ok pos1);; Ok (r, cl1, pos2)) = Ok (r, cl, p) /\ lo <= p <= L + 1).
  { intros lo R Hlo (r & cl & p & -> & Bp & P0). cbn [bind]. nxt cl p. destruct (p0 <? L) eqn:E.
    - at_pos p0. eexists; eexists; eexists. split; [reflexivity|]. destruct (c =? 44); lia.
    - cbn [bind]. eexists; eexists; exists p0. split; [reflexivity|lia]. }
  destruct (Z.ltb_spec oldpos L) as [Ho|Ho].
  - (* something is left *)
    replace (pos <? L) with true by lia.
    destruct (next_stops _ _ _ _ _ _ _ N0 Ho) as (c0 & G0 & F0 & A0).
    assert (X : exists pl cl1 p1, getphraselist field cd cl0 oldpos = Ok (pl, cl1, p1) /\ oldpos <= p1 <= L /\
        ((p1 = oldpos /\ pl = [] /\ in_set c0 phraseends = true /\ c0 <> 34) \/ (oldpos < p1 /\ (in_set c0 phraseends = false \/ c0 = 34)))).
    { destruct (phrase_first cl0 oldpos c0) as [(P1 & P2 & E)|(P & a & b & p & E & B)]; try assumption; [lia| |].
      - exists [], cl0, oldpos. split; [exact E|]. split; [lia|]. left. auto.
      - exists a, b, p. split; [exact E|]. split; [lia|]. right. split; [lia|exact P]. }
    destruct X as (pl & cl1 & p1 & E1 & B1 & X). rewrite E1. cbn [bind].
    destruct (next_ends cl1 p1) as (w2 & cl2 & p2 & N2 & B2); [lia|]. rewrite N2. cbn [bind].
    assert (X2 : (p2 = oldpos /\ pl = [] /\ in_set c0 phraseends = true /\ c0 <> 34) \/ (oldpos < p2 /\ (in_set c0 phraseends = false \/ c0 = 34))).
    { destruct X as [(-> & Y1 & Y2 & Y3)|(Y1 & Y2)]; [|right; split; [lia|exact Y2]]. left.
      rewrite (next_stay cl1 oldpos c0) in N2 by (assumption || lia). injection N2 as <- <- <-. auto. }
    cbv zeta. apply (T (pos + 1)); [lia|]. destruct (L <=? p2) eqn:E2.
    { eexists; eexists; exists p2. split; [reflexivity|]. split; lia. }
    at_pos p2. destruct ((c =? 46) || (c =? 64)) eqn:E3.
    { destruct (addrspec_advances cl2 oldpos c0) as (a & b & q & Ea & Ba); try assumption; [lia| |].
      - destruct X2 as [(-> & _ & P1 & P2)|(_ & [P|P])].
        + pose proof (get_same _ _ _ G0 G). subst c. destruct (c0 =? 64) eqn:E64; [right; right; right; lia|]. right. left. lia.
        + apply atom_not_phrase in P as [P|P]; auto.
        + right. right. now left.
      - rewrite Ea. cbn [bind]. eexists; eexists; exists q. split; [reflexivity|]. split; lia. }
    destruct (c =? 58) eqn:E4.
    { assert (Gr : forall fuel rl cl q, oldpos + 1 <= q -> q <= L + 1 -> Z.max 0 (L - q) < Z.of_nat fuel -> exists r cl' p,
        (fix group (fuel : nat) (rl : list addr) (cl : list text) (pos : Z) {struct fuel} : res (list addr * list text * Z) :=
           match fuel with
           | O => Err OutOfFuel
           | S fuel0 =>
               if pos <? L then
                 do (_, cl0, pos0) <- gotonext field cd cl pos;;
                 do semi <- (if pos0 <? L then do c1 <- get field pos0;; Ok (c1 =? 59) else Ok false);;
                 if semi then Ok (rl, cl0, pos0 + 1)
                 else do (l, cl4, pos1) <- getaddress quote field cd gd pos0;; group fuel0 (rl ++ l) cl4 pos1
               else Ok (rl, cl, pos)
           end) fuel rl cl q = Ok (r, cl', p) /\ q <= p <= L + 1).
      { induction fuel as [|fuel IHf]; intros rl cl q Q1 Q2 Q3; [|].
        - cbn in Q3. exfalso. lia.
        - destruct (q <? L) eqn:Eq; [|exists rl, cl, q; split; [reflexivity|lia]].
          destruct (next_ends cl q) as (w3 & cl3 & q3 & -> & B3); [lia|]. cbn [bind].
          assert (Y : exists b, (if q3 <? L then do c1 <- get field q3;; Ok (c1 =? 59) else Ok false) = Ok b).
          { destruct (q3 <? L) eqn:E5; [|eauto]. destruct (get_in field q3) as (c3 & ->); [lia|]. cbn [bind]. eauto. }
          destruct Y as (b & ->). cbn [bind]. destruct b; [exists rl, cl3, (q3 + 1); split; [reflexivity|lia]|].
          destruct (IH q3) as (l & cl4 & q4 & -> & B4); [lia|lia|]. cbn [bind].
          destruct (q3 <? L) eqn:E6.
          + destruct (IHf (rl ++ l) cl4 q4) as (r & cl' & p & -> & B5); [lia|lia|lia|]. exists r, cl', p. split; [reflexivity|lia].
          + subst q4. destruct (IHf (rl ++ l) cl4 q3) as (r & cl' & p & -> & B5); [lia|lia|lia|]. exists r, cl', p. split; [reflexivity|lia]. }
      destruct (Gr lf [] cl2 (p2 + 1)) as (r & cl' & p & -> & Bp); [lia|lia|rewrite lf_eq; lia|]. exists r, cl', p. split; [reflexivity|lia]. }
    destruct (c =? 60) eqn:E5.
    { destruct (routeaddr_ends cl2 p2) as (a & b & q & -> & Bq); [lia|]. cbn [bind]. eexists; eexists; exists q. split; [reflexivity|]. split; lia. }
    destruct pl as [|t pl].
    { destruct X2 as [(-> & _ & P1 & P2)|(Y & _)].
      - pose proof (get_same _ _ _ G0 G). subst c. rewrite (in_fws_atomends c0) by assumption. eexists; eexists; exists (oldpos + 1). split; [reflexivity|]. split; lia.
      - eexists; eexists; eexists. split; [reflexivity|]. destruct (in_set c specials); split; lia. }
    destruct X2 as [(_ & Y & _)|(Y & _)]; [discriminate Y|]. eexists; eexists; exists p2. split; [reflexivity|]. split; lia.
  - (* nothing but white space and comments *)
    destruct (phraselist_ends cl0 oldpos) as (pl & cl1 & p1 & -> & B1); [lia|]. cbn [bind]. nxt cl1 p1. cbv zeta.
    replace (L <=? p) with true by lia. cbn [bind]. nxt cl p. replace (p0 <? L) with false by lia. cbn [bind].
    eexists; eexists; exists p0. split; [reflexivity|]. destruct (pos <? L) eqn:E; lia.
Qed.
Lemma addrlist_ends gd : L < Z.of_nat gd -> forall fuel res pos, 0 <= pos -> Z.max 0 (L - pos) < Z.of_nat fuel -> exists l, addrlist_loop quote field cd fuel gd res pos = Ok l.
Proof.
  intros Hg. induction fuel as [|fuel IH]; intros res pos Hp F; cbn [addrlist_loop]; [lia|].
  destruct (pos <? L) eqn:E; [|eauto]. destruct (address_ends gd pos) as (r & cl & p & -> & B); [lia|lia|]. rewrite E in B. cbn [bind]. apply IH; lia.
Qed.
End U.
