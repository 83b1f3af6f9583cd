(** C52. Merging two versions of a key keeps nothing. *)
From Verif Require Import Base Utils Merge.

Section S.
Context {sig skeyt : Type}.
Variables (skey : option sig -> res skeyt) (keq : skeyt -> skeyt -> bool) (isself : option sig -> res bool) (later : option sig -> option sig -> res bool).
Notation heap := (@heap sig). Notation mkey := (@mkey sig).

Lemma collect_nil ss l : collect skey keq ss [] = Ok l -> l = [].
Proof.
  revert l; induction ss as [|s t IH]; cbn [collect]; intros l H; [congruence|].
  destruct (skey s); cbn [bind appended app] in H; [|discriminate]. exact (IH _ H).
Qed.
Lemma collect_err ss e : collect skey keq ss [] = Err e -> exists s, In s ss /\ skey s = Err e.
Proof.
  induction ss as [|s t IH]; cbn [collect]; intros H; [discriminate|].
  destruct (skey s) eqn:E; cbn [bind appended app] in H.
  - destruct (IH H) as (x & I & X). exists x; split; [right; exact I|exact X].
  - injection H as <-. exists s; split; [left; reflexivity|exact E].
Qed.
Definition nils (d : @dict sig) : Prop := Forall (fun x => snd x = []) d.
Lemma nils_store d p : nils d -> nils (store d p []).
Proof.
  induction d as [|[j m] t IH]; cbn [store]; intros H; [repeat constructor|].
  pose proof (Forall_inv H); pose proof (Forall_inv_tail H). destruct (j =? p); constructor; auto. apply IH; auto.
Qed.
Lemma nils_lookup d p l : nils d -> lookup d p = Some l -> l = [].
Proof.
  induction d as [|[j m] t IH]; cbn [lookup]; intros H E; [discriminate|].
  pose proof (Forall_inv H) as X; cbn in X. destruct (j =? p); [congruence|]. exact (IH (Forall_inv_tail H) E).
Qed.
Lemma store_in d p l q : In q (map fst (@store sig d p l)) <-> In q (map fst d) \/ q = p.
Proof.
  induction d as [|[j m] t IH]; cbn [store map fst].
  - cbn. split; [intros [A|[]]; right; congruence|intros [[]|A]; left; congruence].
  - destruct (j =? p) eqn:E; cbn [map fst In].
    + apply Z.eqb_eq in E. subst j. intuition congruence.
    + rewrite IH. intuition congruence.
Qed.
Lemma gather_ok h parts : forall d d', nils d -> gather skey keq h parts d = Ok d' ->
  nils d' /\ (forall p, In p (map fst d') <-> In p (map fst d) \/ In p parts).
Proof.
  induction parts as [|p t IH]; cbn [gather]; intros d d' N H.
  - injection H as <-. split; [exact N|]. intros p; cbn. tauto.
  - assert (O : match lookup d p with Some l => l | None => [] end = []) by (destruct (lookup d p) eqn:E; [exact (nils_lookup _ _ _ N E)|reflexivity]).
    rewrite O in H. destruct (collect skey keq (h p) []) as [l|e] eqn:C; cbn [bind] in H; [|discriminate].
    rewrite (collect_nil _ _ C) in H. destruct (IH _ _ (nils_store d p N) H) as (A & B). split; [exact A|].
    intros q. rewrite B, store_in. cbn [In]. intuition congruence.
Qed.
Lemma gather_err h parts : forall d e, nils d -> gather skey keq h parts d = Err e -> exists p s, In p parts /\ In s (h p) /\ skey s = Err e.
Proof.
  induction parts as [|p t IH]; cbn [gather]; intros d e N H; [discriminate|].
  assert (O : match lookup d p with Some l => l | None => [] end = []) by (destruct (lookup d p) eqn:E; [exact (nils_lookup _ _ _ N E)|reflexivity]).
  rewrite O in H. destruct (collect skey keq (h p) []) as [l|e'] eqn:C; cbn [bind] in H.
  - rewrite (collect_nil _ _ C) in H. destruct (IH _ _ (nils_store d p N) H) as (q & s & A & B). exists q, s. split; [right; exact A|exact B].
  - injection H as <-. destruct (collect_err _ _ C) as (s & A & B). exists p, s. split; [left; reflexivity|auto].
Qed.
Lemma rewrite_nils d : nils d -> forall h, exists h', rewrite_parts isself later h d = (h', Ok tt) /\
  forall p, h' p = if existsb (Z.eqb p) (map fst d) then [None] else h p.
Proof.
  induction d as [|[j m] t IH]; intros N h; cbn [rewrite_parts].
  - exists h. split; [reflexivity|]. intros p; reflexivity.
  - pose proof (Forall_inv N) as X; cbn in X. subst m. cbn [choose].
    destruct (IH (Forall_inv_tail N) (set_sigs h j [None])) as (h' & A & B). exists h'. split; [exact A|].
    intros p. rewrite B. cbn [map fst existsb]. unfold set_sigs.
    destruct (p =? j); cbn [orb]; destruct (existsb (Z.eqb p) (map fst t)); reflexivity.
Qed.
(** what merge_sigpairs does *)
Lemma sigpairs_spec h parts : (forall p s, In p parts -> In s (h p) -> exists k, skey s = Ok k) ->
  exists h', merge_sigpairs skey keq isself later h parts = (h', Ok tt) /\ forall p, h' p = if existsb (Z.eqb p) parts then [None] else h p.
Proof.
  intros K. unfold merge_sigpairs. destruct (gather skey keq h parts []) as [d|e] eqn:G.
  - destruct (gather_ok _ _ _ _ (Forall_nil _) G) as (N & I). destruct (rewrite_nils d N h) as (h' & A & B). exists h'. split; [exact A|].
    intros p. rewrite B. replace (existsb (Z.eqb p) parts) with (existsb (Z.eqb p) (map fst d)); [reflexivity|].
    apply eq_true_iff_eq. rewrite !existsb_exists. specialize (I p). cbn in I.
    split; intros (x & X & Y); apply Z.eqb_eq in Y; subst x; exists p; split; try apply Z.eqb_refl; tauto.
  - destruct (gather_err _ _ _ _ (Forall_nil _) G) as (p & s & A & B & C). destruct (K p s A B) as (k & Y). congruence.
Qed.
End S.

(** The claim is false. Two versions of a key whose signatures can all be compared, with any user ids us, us', attributes, subkeys and
    signatures on them (all different objects), the second without a signature directly on the key: afterwards the key has no list of user ids, attributes or subkeys at
    all, every user id, attribute and subkey of both versions has the one signature None, and no error is reported. *)
Theorem c52_merge_refuted : forall (sig skeyt : Type) (skey : option sig -> res skeyt) keq isself later (h : @heap sig) nums ds us us' ats ats' sbs sbs',
  (forall p s, In p (us ++ us' ++ ats ++ ats' ++ sbs ++ sbs') -> In s (h p) -> exists k, skey s = Ok k) ->
  NoDup (us ++ us' ++ ats ++ ats' ++ sbs ++ sbs') ->
  exists h', merge skey keq isself later h (MKey nums ds (Some us) (Some ats) (Some sbs)) (MKey nums [] (Some us') (Some ats') (Some sbs'))
             = (h', MKey nums ds None None None, Ok tt) /\
    (forall p, In p (us ++ us' ++ ats ++ ats' ++ sbs ++ sbs') -> h' p = [None]) /\
    (forall p, ~ In p (us ++ us' ++ ats ++ ats' ++ sbs ++ sbs') -> h' p = h p).
Proof.
  intros sig skeyt skey keq isself later h nums ds us us' ats ats' sbs sbs' K N.
  assert (E : keys_equivalent nums nums = true).
  { unfold keys_equivalent, optz_eqb. destruct nums as [v a n e p g q y c]; cbn. rewrite !Z.eqb_refl. destruct n, e, p, g, q, y; rewrite ?Z.eqb_refl; reflexivity. }
  assert (Sp : forall h1 l1 l2, (forall p s, In p (l1 ++ l2) -> In s (h1 p) -> exists k, skey s = Ok k) ->
     exists h2, merge_lists skey keq isself later h1 (Some l1) (Some l2) = (h2, Ok None) /\ forall p, h2 p = if existsb (Z.eqb p) (l1 ++ l2) then [None] else h1 p).
  { intros h1 l1 l2 Kp. destruct (sigpairs_spec skey keq isself later h1 (l1 ++ l2) Kp) as (h2 & A & B). exists h2. split; [|exact B].
    unfold merge_lists. rewrite A. reflexivity. }
  assert (X : forall p l, existsb (Z.eqb p) l = true <-> In p l).
  { intros p l. rewrite existsb_exists. split; [intros (x & I & Q); apply Z.eqb_eq in Q; subst x; exact I|intros I; exists p; split; [exact I|apply Z.eqb_refl]]. }
  assert (Y : forall (h1 h2 : @heap sig) l p s, (forall p, h2 p = if existsb (Z.eqb p) l then [None] else h1 p) -> In s (h2 p) -> (In p l /\ s = None) \/ (~ In p l /\ In s (h1 p))).
  { intros h1 h2 l p s Hh I. rewrite Hh in I. destruct (existsb (Z.eqb p) l) eqn:Q; [left|right].
    - split; [apply X; exact Q|]. destruct I as [<-|[]]. reflexivity.
    - split; [|exact I]. intros J. apply X in J. congruence. }
  assert (D : forall a b : list Z, forall p, NoDup (a ++ b) -> In p a -> In p b -> exists k, skey None = Ok k).
  { intros a b p T I J. exfalso. clear - T I J. induction a as [|x a IH]; [contradiction|]. cbn in T. inversion T; subst.
    destruct I as [->|I]; [apply H1; apply in_or_app; right; exact J|exact (IH H2 I)]. }
  unfold merge. cbn [mk_nums mk_sigs mk_uids mk_attrs mk_subs]. rewrite E. cbn [negb].
  destruct (Sp h us us') as (h1 & A1 & B1). { intros p s I. apply K. rewrite !in_app_iff in *. tauto. }
  rewrite A1.
  destruct (Sp h1 ats ats') as (h2 & A2 & B2).
  { intros p s I J. destruct (Y _ _ _ _ _ B1 J) as [[U ->]|[U V]].
    - apply (D (us ++ us') (ats ++ ats' ++ sbs ++ sbs') p); [rewrite <- app_assoc; exact N|exact U|]. rewrite !in_app_iff in *. tauto.
    - apply (K p s); [|exact V]. rewrite !in_app_iff in *. tauto. }
  rewrite A2.
  destruct (Sp h2 sbs sbs') as (h3 & A3 & B3).
  { intros p s I J. destruct (Y _ _ _ _ _ B2 J) as [[U ->]|[U V]].
    - apply (D (us ++ us' ++ ats ++ ats') (sbs ++ sbs') p); [rewrite <- !app_assoc; exact N| |exact I]. rewrite !in_app_iff in *. tauto.
    - destruct (Y _ _ _ _ _ B1 V) as [[U' ->]|[U' V']].
      + apply (D (us ++ us') (ats ++ ats' ++ sbs ++ sbs') p); [rewrite <- app_assoc; exact N|exact U'|]. rewrite !in_app_iff in *. tauto.
      + apply (K p s); [|exact V']. rewrite !in_app_iff in *. tauto. }
  rewrite A3. exists h3. split; [reflexivity|].
  assert (Hf : forall p, h3 p = if existsb (Z.eqb p) (us ++ us' ++ ats ++ ats' ++ sbs ++ sbs') then [None] else h p).
  { intros p. rewrite B3, B2, B1, !existsb_app. repeat match goal with |- context [existsb ?f ?l] => destruct (existsb f l) end; reflexivity. }
  split; intros p I; rewrite Hf.
  - apply X in I. rewrite I. reflexivity.
  - destruct (existsb (Z.eqb p) (us ++ us' ++ ats ++ ats' ++ sbs ++ sbs')) eqn:Q; [|reflexivity]. apply X in Q. contradiction.
Qed.
Print Assumptions c52_merge_refuted.

(** A second version with a signature directly on the key is always refused, with an error that says nothing about the key, and nothing is
    merged. *)
Theorem c52_direct_signature_refuted : forall (sig skeyt : Type) (skey : option sig -> res skeyt) keq isself later (h : @heap sig) (key cand : @mkey sig) s t,
  mk_nums key = mk_nums cand -> mk_sigs cand = s :: t ->
  exists e, merge skey keq isself later h key cand = (h, key, Err e) /\ ((exists k, skey s = Ok k) -> e = TypeError).
Proof.
  intros sig skeyt skey keq isself later h key cand s t E Q. unfold merge. rewrite <- E, Q.
  assert (R : keys_equivalent (mk_nums key) (mk_nums key) = true).
  { unfold keys_equivalent, optz_eqb. destruct (mk_nums key) as [v a n e p g q y c]; cbn. rewrite !Z.eqb_refl. destruct n, e, p, g, q, y; rewrite ?Z.eqb_refl; reflexivity. }
  rewrite R. cbn [negb]. destruct (skey s) as [k|e]; cbn [bind]; eexists; split; try reflexivity. intros (k & H). discriminate H.
Qed.
Print Assumptions c52_direct_signature_refuted.

(** Part of the claim: a key with other numbers, another algorithm, version or creation time is not merged, and nothing is lost; nor is anything
    lost when the database has no key with this key id, or when the search fails. *)
Theorem c52_other_key_partial : forall (sig skeyt : Type) (skey : option sig -> res skeyt) keq isself later (h : @heap sig) (key cand : @mkey sig) rest,
  mk_nums key <> mk_nums cand ->
  merge_key skey keq isself later false (Ok (cand :: rest)) h key = (h, key, Ok tt) /\
  merge_key skey keq isself later false (Ok []) h key = (h, key, Ok tt) /\
  forall e, merge_key skey keq isself later false (Err e) h key = (h, key, Err e).
Proof.
  intros sig skeyt skey keq isself later h key cand rest N. split; [|split; reflexivity]. cbn. unfold merge.
  destruct (keys_equivalent (mk_nums key) (mk_nums cand)) eqn:E; [exfalso|reflexivity]. apply N.
  unfold keys_equivalent in E. rewrite !andb_true_iff in E.
  assert (O : forall a b, optz_eqb a b = true -> a = b).
  { intros [a|] [b|] H; cbn in H; try discriminate; [apply Z.eqb_eq in H; congruence|reflexivity]. }
  destruct (mk_nums key), (mk_nums cand); cbn in E.
  destruct E as ((((((((A & B) & C) & D) & F) & G) & I) & J) & K). apply Z.eqb_eq in A, B, K. apply O in C, D, F, G, I, J. congruence.
Qed.
Print Assumptions c52_other_key_partial.

(** A key is merged with what the database finds first: all that it had is lost if that is another version of it, or the very same version. *)
Theorem c52_merge_key_refuted : forall (sig skeyt : Type) (skey : option sig -> res skeyt) keq isself later (h : @heap sig) nums ds us us' rest,
  NoDup (us ++ us') -> (forall p s, In p (us ++ us') -> In s (h p) -> exists k, skey s = Ok k) ->
  exists h', merge_key skey keq isself later false (Ok (MKey nums [] (Some us') (Some []) (Some []) :: rest)) h (MKey nums ds (Some us) (Some []) (Some []))
             = (h', MKey nums ds None None None, Ok tt) /\ forall p, In p (us ++ us') -> h' p = [None].
Proof.
  intros sig skeyt skey keq isself later h nums ds us us' rest N K. cbn [merge_key].
  destruct (c52_merge_refuted sig skeyt skey keq isself later h nums ds us us' [] [] [] []) as (h' & A & B & _).
  - rewrite !app_nil_r. exact K.
  - rewrite !app_nil_r. exact N.
  - exists h'. split; [exact A|]. rewrite !app_nil_r in B. exact B.
Qed.
Print Assumptions c52_merge_key_refuted.

(** Once merged, a key cannot be merged again. *)
Theorem c52_again_refuted : forall (sig skeyt : Type) (skey : option sig -> res skeyt) keq isself later (h : @heap sig) nums ds a s us' ats' sbs',
  merge skey keq isself later h (MKey nums ds None a s) (MKey nums [] us' ats' sbs') = (h, MKey nums ds None a s, Err TypeError).
Proof.
  intros. unfold merge. cbn [mk_nums mk_sigs mk_uids mk_attrs mk_subs].
  assert (R : keys_equivalent nums nums = true).
  { unfold keys_equivalent, optz_eqb. destruct nums as [v al n e p g q y c]; cbn. rewrite !Z.eqb_refl. destruct n, e, p, g, q, y; rewrite ?Z.eqb_refl; reflexivity. }
  rewrite R. reflexivity.
Qed.
Print Assumptions c52_again_refuted.

(** Two versions of a key with one user id each, objects 1 and 2, with the signatures 10, 11 and 10: *)
Definition ex_nums := KNums 4 1 (Some 3233) (Some 17) None None None None 0.
Definition ex_heap : @heap Z := fun i => if i =? 1 then [Some 10; Some 11] else if i =? 2 then [Some 10] else [].
Definition ex_skey (s : option Z) : res Z := match s with Some k => Ok k | None => Err AttributeError end.
Example ex_hyps : (forall p s, In p ([1] ++ [2]) -> In s (ex_heap p) -> exists k, ex_skey s = Ok k) /\ NoDup ([1] ++ [2]).
Proof.
  split.
  - intros p s [<-|[<-|[]]]; cbn; intros I; repeat destruct I as [<-|I]; try contradiction; cbn; eexists; reflexivity.
  - repeat constructor; cbn; intuition congruence.
Qed.
Example ex_merge : let '(h, k, r) := merge ex_skey Z.eqb (fun _ => Ok false) (fun _ _ => Ok false) ex_heap (MKey ex_nums [] (Some [1]) (Some []) (Some [])) (MKey ex_nums [] (Some [2]) (Some []) (Some [])) in
  (h 1, h 2, mk_uids k, r) = ([None], [None], None, Ok tt).
Proof. reflexivity. Qed.
Example ex_other : mk_nums (MKey (sig:=Z) ex_nums [] None None None) <> mk_nums (MKey (sig:=Z) (KNums 4 1 (Some 3233) (Some 17) None None None None 1) [] None None None).
Proof. cbn. discriminate. Qed.
