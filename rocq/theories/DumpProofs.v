From Verif Require Import Base BaseProofs Utils TransKey DumpKeys SpecDump.

Inductive st := S0 | S1 | S2 | Sb | Sa | Sr.
Definition is_cert (x : dpkt) := (d_raw x =? 2) && is_one (d_sig x) [16; 17; 18; 19].
Definition dfa1 (v : Z) (s : st) (x : dpkt) : option st :=
  let t := d_raw x in let g := d_sig x in
  match s with
  | Sb => if (t =? 2) && (g =? 24) then Some Sa else None
  | _ =>
      if (t =? 2) && ((g =? 31) || (g =? 32)) then match s with S0 => Some S0 | _ => None end
      else if (t =? 2) && (g =? 40) then match s with Sa => Some Sr | _ => None end
      else if is_cert x then match s with S1 => Some S1 | S2 => Some S2 | _ => None end
      else if t =? 13 then match s with S0 | S1 => Some S1 | _ => None end
      else if t =? 17 then match s with S0 | S1 | S2 => Some S2 | _ => None end
      else if t =? 14 then if 4 <=? v then Some Sb else None
      else None
  end.
Fixpoint dfa (v : Z) (s : st) (l : list dpkt) : bool :=
  match l with
  | [] => match s with Sb => false | _ => true end
  | x :: t => match dfa1 v s x with Some s' => dfa v s' t | None => false end
  end.

Definition last_is (pre : list dpkt) (P : dpkt -> Prop) : Prop := exists l y, pre = l ++ [y] /\ P y.
Definition nonsig (pre : list dpkt) (t : Z) : Prop := exists q l, filter (fun p => negb (d_raw p =? 2)) (rev pre) = q :: l /\ d_raw q = t.
Definition inst (s : st) (pre : list dpkt) : Prop :=
  match s with
  | S0 => only_raw [6; 2] pre = true /\ nonsig pre 6 /\ last_is pre (fun y => d_raw y <> 14 /\ ~ (d_raw y = 2 /\ d_sig y = 24))
  | S1 => only_raw [6; 2] pre = false /\ only_raw [6; 2; 13] pre = true /\ nonsig pre 13 /\ last_is pre (fun y => d_raw y <> 14 /\ ~ (d_raw y = 2 /\ d_sig y = 24))
  | S2 => only_raw [6; 2] pre = false /\ only_raw [6; 2; 13] pre = false /\ only_raw [6; 2; 13; 17] pre = true /\ nonsig pre 17 /\ last_is pre (fun y => d_raw y <> 14 /\ ~ (d_raw y = 2 /\ d_sig y = 24))
  | Sb => only_raw [6; 2] pre = false /\ only_raw [6; 2; 13] pre = false /\ only_raw [6; 2; 13; 17] pre = false /\ nonsig pre 14 /\ last_is pre (fun y => d_raw y = 14)
  | Sa => only_raw [6; 2] pre = false /\ only_raw [6; 2; 13] pre = false /\ only_raw [6; 2; 13; 17] pre = false /\ nonsig pre 14 /\ last_is pre (fun y => d_raw y = 2 /\ d_sig y = 24)
  | Sr => only_raw [6; 2] pre = false /\ only_raw [6; 2; 13] pre = false /\ only_raw [6; 2; 13; 17] pre = false /\ nonsig pre 14 /\ last_is pre (fun y => d_raw y = 2 /\ d_sig y <> 24)
  end.
Lemma only_snoc l pre x : only_raw l (pre ++ [x]) = only_raw l pre && is_one (d_raw x) l.
Proof. unfold only_raw. rewrite forallb_app. cbn [forallb]. now rewrite andb_true_r. Qed.
Lemma nonsig_keep pre x t : d_raw x = 2 -> nonsig pre t -> nonsig (pre ++ [x]) t.
Proof. intros H (q & l & E & T). exists q, l. split; [|exact T]. rewrite rev_app_distr. cbn [rev app filter]. now rewrite H. Qed.
Lemma nonsig_new pre x t : d_raw x = t -> t <> 2 -> nonsig (pre ++ [x]) t.
Proof. intros H N. exists x. eexists. split; [|exact H]. rewrite rev_app_distr. cbn [rev app filter]. replace (d_raw x =? 2) with false by lia. reflexivity. Qed.
Lemma last_new pre x (P : dpkt -> Prop) : P x -> last_is (pre ++ [x]) P.
Proof. intros H. exists pre, x. auto. Qed.
Lemma is_one_in t l : is_one t l = true <-> In t l.
Proof. unfold is_one. rewrite existsb_exists. split; [intros (x & I & E); apply Z.eqb_eq in E; now subst|intros I; exists t; split; [exact I|apply Z.eqb_refl]]. Qed.
Ltac ones := repeat match goal with |- context [is_one ?a ?l] => let E := fresh in destruct (is_one a l) eqn:E; cbn [is_one existsb] in E end; try reflexivity; exfalso; lia.
Lemma inst_next v s pre x s' : dfa1 v s x = Some s' -> inst s pre -> inst s' (pre ++ [x]).
Proof.
  intros H I. unfold dfa1 in H. cbv zeta in H.
  destruct ((d_raw x =? 2) && (d_sig x =? 24)) eqn:E0.
  { assert (T : d_raw x = 2) by lia. assert (G : d_sig x = 24) by lia. unfold is_cert in H. rewrite T, G in H. cbn in H. destruct s; try discriminate H. injection H as <-. cbn [inst] in *. rewrite !only_snoc, T.
    destruct I as (A & B & C & D & _). rewrite A, B, C. repeat split; [now apply nonsig_keep|apply last_new; auto]. }
  assert (Hb : s <> Sb) by (intros ->; discriminate H).
  destruct ((d_raw x =? 2) && ((d_sig x =? 31) || (d_sig x =? 32))) eqn:E1.
  { assert (T : d_raw x = 2) by lia. destruct s; try discriminate H; try congruence. injection H as <-. cbn [inst] in *. rewrite !only_snoc, T. destruct I as (A & B & _). rewrite A. repeat split; [now apply nonsig_keep|apply last_new; lia]. }
  destruct ((d_raw x =? 2) && (d_sig x =? 40)) eqn:E2.
  { assert (T : d_raw x = 2) by lia. destruct s; try discriminate H; try congruence. injection H as <-. cbn [inst] in *. rewrite !only_snoc, T. destruct I as (A & B & C & D & _). rewrite A, B, C. repeat split; [now apply nonsig_keep|apply last_new; lia]. }
  unfold is_cert in H. destruct ((d_raw x =? 2) && is_one (d_sig x) [16; 17; 18; 19]) eqn:E3.
  { assert (T : d_raw x = 2) by lia. destruct s; try discriminate H; try congruence; injection H as <-; cbn [inst] in *; rewrite !only_snoc, T.
    - destruct I as (A & B & C & _). rewrite A, B. repeat split; [now apply nonsig_keep|apply last_new; lia].
    - destruct I as (A & B & C & D & _). rewrite A, B, C. repeat split; [now apply nonsig_keep|apply last_new; lia]. }
  destruct (d_raw x =? 13) eqn:E4.
  { assert (T : d_raw x = 13) by lia. destruct s; try discriminate H; try congruence; injection H as <-; cbn [inst] in *; rewrite !only_snoc, T.
    - destruct I as (A & _). assert (B : only_raw [6; 2; 13] pre = true). { unfold only_raw in *. rewrite forallb_forall in *. intros q Q. specialize (A q Q). apply is_one_in in A. apply is_one_in. cbn in *. intuition. }
      rewrite A, B. repeat split; [now apply nonsig_new|apply last_new; lia].
    - destruct I as (A & B & _). rewrite A, B. repeat split; [now apply nonsig_new|apply last_new; lia]. }
  destruct (d_raw x =? 17) eqn:E5.
  { assert (T : d_raw x = 17) by lia. assert (B : s = S0 \/ s = S1 \/ s = S2) by (destruct s; try discriminate H; try congruence; auto). assert (s' = S2) as -> by (destruct B as [-> | [-> | ->]]; congruence). cbn [inst]. rewrite !only_snoc, T.
    assert (C : only_raw [6; 2; 13; 17] pre = true).
    { destruct B as [-> | [-> | ->]]; cbn [inst] in I; [destruct I as (A & _)|destruct I as (_ & A & _)|destruct I as (_ & _ & A & _); exact A]; unfold only_raw in *; rewrite forallb_forall in *; intros q Q; specialize (A q Q); apply is_one_in in A; apply is_one_in; cbn in *; intuition. }
    rewrite C. cbn [is_one existsb Z.eqb Pos.eqb orb]. rewrite !andb_false_r. repeat split; [now apply nonsig_new|apply last_new; lia]. }
  destruct (d_raw x =? 14) eqn:E6.
  { assert (T : d_raw x = 14) by lia. assert (s' = Sb) as -> by (destruct (4 <=? v); destruct s; congruence). cbn [inst]. rewrite !only_snoc, T. cbn [is_one existsb Z.eqb Pos.eqb orb]. rewrite !andb_false_r. repeat split; [now apply nonsig_new|now apply last_new]. }
  destruct s; congruence.
Qed.
Lemma check_ok b e : check b e = Ok tt <-> b = true.
Proof. destruct b; cbn; split; congruence. Qed.
Lemma rev_last pre (P : dpkt -> Prop) : last_is pre P -> exists y l, rev pre = y :: l /\ P y.
Proof. intros (l & y & -> & H). exists y, (rev l). rewrite rev_app_distr. auto. Qed.
Lemma inst_parts s pre : inst s pre -> (exists q l, filter (fun p => negb (d_raw p =? 2)) (rev pre) = q :: l /\ d_raw q = match s with S0 => 6 | S1 => 13 | S2 => 17 | _ => 14 end) /\
  (exists y l, rev pre = y :: l /\ match s with S0 | S1 | S2 => d_raw y <> 14 /\ ~ (d_raw y = 2 /\ d_sig y = 24) | Sb => d_raw y = 14 | Sa => d_raw y = 2 /\ d_sig y = 24 | Sr => d_raw y = 2 /\ d_sig y <> 24 end) /\ pre <> [] /\
  only_raw [6; 2] pre = match s with S0 => true | _ => false end /\
  only_raw [6; 2; 13] pre = match s with S0 | S1 => true | _ => false end /\ only_raw [6; 2; 13; 17] pre = match s with S0 | S1 | S2 => true | _ => false end.
Proof.
  assert (W : forall l l', incl l l' -> only_raw l pre = true -> only_raw l' pre = true).
  { intros l l' Hi A. unfold only_raw in *. rewrite forallb_forall in *. intros q Q. specialize (A q Q). apply is_one_in in A. apply is_one_in. auto. }
  assert (Q : forall P, last_is pre P -> pre <> []) by (intros P (l & y & -> & _); destruct l; discriminate).
  intros H. destruct s; cbn [inst] in H.
  - destruct H as (A & B & C). split; [exact B|]. split; [exact (rev_last _ _ C)|]. split; [exact (Q _ C)|]. repeat split; [exact A| |]; (eapply W; [|exact A]; intros a; cbn; tauto).
  - destruct H as (A0 & A & B & C). split; [exact B|]. split; [exact (rev_last _ _ C)|]. split; [exact (Q _ C)|]. repeat split; [exact A0|exact A|]. eapply W; [|exact A]; intros a; cbn; tauto.
  - destruct H as (A0 & A & A1 & B & C). split; [exact B|]. split; [exact (rev_last _ _ C)|]. split; [exact (Q _ C)|]. auto.
  - destruct H as (A0 & A & A1 & B & C). split; [exact B|]. split; [exact (rev_last _ _ C)|]. split; [exact (Q _ C)|]. auto.
  - destruct H as (A0 & A & A1 & B & C). split; [exact B|]. split; [exact (rev_last _ _ C)|]. split; [exact (Q _ C)|]. auto.
  - destruct H as (A0 & A & A1 & B & C). split; [exact B|]. split; [exact (rev_last _ _ C)|]. split; [exact (Q _ C)|]. auto.
Qed.
Definition bind_next (next : option dpkt) : bool := match next with Some n => (d_raw n =? 2) && (d_sig n =? 24) | None => false end.
Lemma step_dfa v s pre x next : inst s pre -> (s = Sb -> d_raw x = 2 /\ d_sig x = 24) ->
  dump_step v pre x next = Ok tt <-> exists s', dfa1 v s x = Some s' /\ (s' = Sb -> bind_next next = true).
Proof.
  intros I Hb. destruct (inst_parts s pre I) as ((q & ql & Eq & Tq) & (y & yl & Ey & Ty) & Hn & O1 & O2 & O3). unfold dump_step. cbv zeta. rewrite Eq, Ey, O1, O2, O3.
  destruct (d_raw x =? 6) eqn:T6.
  { assert (Z0 : zlen pre =? 0 = false) by (destruct pre; [congruence|rewrite zlen_cons; pose proof (zlen_nonneg pre); lia]). rewrite Z0. split; [discriminate|]. intros (s' & D & _). exfalso. unfold dfa1, is_cert in D. cbv zeta in D. replace (d_raw x) with 6 in D by lia. destruct s; discriminate D. }
  destruct (d_raw x =? 2) eqn:T2.
  { assert (T : d_raw x = 2) by lia. unfold dfa1, is_cert. cbv zeta. rewrite T. cbn [Z.eqb Pos.eqb andb].
    destruct (d_sig x =? 31) eqn:G31.
    { assert (G : d_sig x = 31) by lia. rewrite G. cbn [Z.eqb Pos.eqb orb]. rewrite check_ok. destruct s; split; try discriminate; try (intros (s' & D & _); discriminate D); intros _; eexists; split; try reflexivity; discriminate. }
    destruct (d_sig x =? 24) eqn:G24.
    { assert (G : d_sig x = 24) by lia. rewrite G. cbn [Z.eqb Pos.eqb orb is_one existsb]. rewrite check_ok. destruct s; split; try discriminate; try (intros (s' & D & _); discriminate D); try (intros X; exfalso; lia).
      - intros _. eexists. split; [reflexivity|discriminate].
      - intros _. lia. }
    assert (Nb : s <> Sb) by (intros E; specialize (Hb E); lia).
    destruct (d_sig x =? 32) eqn:G32.
    { cbn [orb]. rewrite check_ok. destruct s; split; try discriminate; try congruence; try (intros (s' & D & _); discriminate D); intros _; eexists; split; try reflexivity; discriminate. }
    cbn [orb]. destruct (d_sig x =? 40) eqn:G40.
    { rewrite check_ok. destruct s; split; try congruence; try (intros (s' & D & _); discriminate D); try (intros X; exfalso; lia).
      - intros _. eexists. split; [reflexivity|discriminate].
      - intros _. lia. }
    destruct (is_one (d_sig x) [16; 17; 18; 19]) eqn:Gc.
    { rewrite check_ok, is_one_in, Tq. destruct s; split; try congruence; try (intros (s' & D & _); discriminate D); try (intros X; exfalso; cbn in X; lia); intros _; first [eexists; split; [reflexivity|discriminate]|cbn; tauto]. }
    split; [discriminate|]. intros (s' & D & _). destruct s; try discriminate D; congruence. }
  assert (Nb : s <> Sb) by (intros E; specialize (Hb E); lia). unfold dfa1, is_cert. cbv zeta. rewrite T2. cbn [andb].
  destruct (d_raw x =? 13) eqn:T13.
  { rewrite check_ok. destruct s; split; try discriminate; try congruence; try (intros (s' & D & _); discriminate D); intros _; eexists; split; try reflexivity; discriminate. }
  destruct (d_raw x =? 17) eqn:T17.
  { rewrite check_ok. destruct s; split; try discriminate; try congruence; try (intros (s' & D & _); discriminate D); intros _; eexists; split; try reflexivity; discriminate. }
  destruct (d_raw x =? 14) eqn:T14.
  { assert (X : forall s', (match s with Sb => None | _ => if 4 <=? v then Some Sb else None end = Some s') <-> 4 <= v /\ s' = Sb).
    { intros s'. destruct (4 <=? v) eqn:V; split; try (intros [? ->]; first [lia|destruct s; congruence]); intros D; destruct s; try congruence; split; try lia; congruence. }
    assert (Y : (match (match s with Sb => None | _ => if 4 <=? v then Some Sb else None end) with None => True | Some s' => s' = Sb end)) by (destruct s; try exact Logic.I; destruct (4 <=? v); exact Logic.I || reflexivity).
    unfold bind_next. destruct (v <? 4) eqn:V.
    - split; [discriminate|]. intros (s' & D & _). replace (4 <=? v) with false in D by lia. destruct s; discriminate D.
    - replace (4 <=? v) with true by lia. destruct next as [n|].
      + rewrite check_ok. split; [intros B; exists Sb; split; [destruct s; congruence|auto]|]. intros (s' & D & B). apply B. destruct s; congruence.
      + split; [discriminate|]. intros (s' & D & B). specialize (B ltac:(destruct s; congruence)). discriminate B. }
  split; [discriminate|]. intros (s' & D & _). destruct s; try discriminate D.
Qed.
Lemma validate_dfa v rest : forall s pre, inst s pre -> (s = Sb -> exists x t, rest = x :: t /\ d_raw x = 2 /\ d_sig x = 24) -> dump_validate_from v pre rest = Ok tt <-> dfa v s rest = true.
Proof.
  induction rest as [|x t IH]; intros s pre I Hb.
  - cbn [dump_validate_from dfa]. split; [|reflexivity]. intros _. destruct s; try reflexivity. destruct (Hb eq_refl) as (? & ? & X & _). discriminate X.
  - cbn [dump_validate_from dfa]. assert (Hb' : s = Sb -> d_raw x = 2 /\ d_sig x = 24). { intros E. destruct (Hb E) as (x' & t' & X & Y). injection X as -> ->. exact Y. }
    pose proof (step_dfa v s pre x (hd_error t) I Hb') as P. destruct (dfa1 v s x) as [s'|] eqn:D.
    + assert (Hn : s' = Sb -> (exists x t', t = x :: t' /\ d_raw x = 2 /\ d_sig x = 24) \/ bind_next (hd_error t) = false).
      { intros _. destruct t as [|n t']; [right; reflexivity|]. cbn [hd_error bind_next]. destruct ((d_raw n =? 2) && (d_sig n =? 24)) eqn:B; [left|now right]. exists n, t'. split; [reflexivity|lia]. }
      split.
      * intros H. apply bind_ok in H as (u & H1 & H2). destruct u. pose proof (proj1 P H1) as (s'' & D' & B). injection D' as <-. apply (IH s' (pre ++ [x])); [eapply inst_next; eauto| |exact H2]. intros E. destruct (Hn E) as [X|X]; [exact X|]. rewrite (B E) in X. discriminate X.
      * intros H. pose proof (inst_next v s pre x s' D I) as I'. assert (Dec : s' = Sb \/ s' <> Sb) by (destruct s'; auto; right; discriminate). destruct Dec as [-> | Ns];
          [|rewrite (proj2 P) by (exists s'; split; [reflexivity|intros E; congruence]); cbn [bind]; apply (IH s' (pre ++ [x]) I'); [congruence|exact H]].
        destruct (Hn eq_refl) as [X|X].
        -- assert (B : bind_next (hd_error t) = true) by (destruct X as (n & t' & -> & X1 & X2); cbn; rewrite X1, X2; reflexivity). rewrite (proj2 P) by (eexists; split; [reflexivity|auto]). cbn [bind]. apply (IH Sb (pre ++ [x]) I'); [intros _; exact X|exact H].
        -- destruct t as [|n t']; [discriminate H|]. cbn [dfa dfa1] in H. cbn [hd_error bind_next] in X. rewrite X in H. discriminate H.
    + split; [|discriminate]. intros H. apply bind_ok in H as (u & H1 & _). destruct u. apply P in H1 as (s' & D' & _). discriminate D'.
Qed.
(** ** the automaton and the grammar *)
Definition certs (cs : list dpkt) : Prop := Forall (fun c => is_sig c [0x10; 0x11; 0x12; 0x13]) cs.
Definition Lr (v : Z) (rest : list dpkt) : Prop := exists subs, rest = concat subs /\ Forall bound_subkey subs /\ (subs <> [] -> 4 <= v).
Definition La (v : Z) (rest : list dpkt) : Prop := Lr v rest \/ exists y t, rest = y :: t /\ is_sig y [0x28] /\ Lr v t.
Definition Luas (v : Z) (rest : list dpkt) : Prop := exists uas r, rest = concat uas ++ r /\ Forall (certified 17) uas /\ Lr v r.
Definition Lus (v : Z) (rest : list dpkt) : Prop := exists us r, rest = concat us ++ r /\ Forall (certified 13) us /\ Luas v r.
Definition L (v : Z) (s : st) (rest : list dpkt) : Prop :=
  match s with
  | S0 => exists ds r, rest = ds ++ r /\ Forall (fun s => is_sig s [0x1F; 0x20]) ds /\ Lus v r
  | S1 => exists cs r, rest = cs ++ r /\ certs cs /\ Lus v r
  | S2 => exists cs r, rest = cs ++ r /\ certs cs /\ Luas v r
  | Sb => exists b t, rest = b :: t /\ is_sig b [0x18] /\ La v t
  | Sa => La v rest
  | Sr => Lr v rest
  end.
Lemma Lr_Luas v r : Lr v r -> Luas v r. Proof. intros H. exists [], r. split; [reflexivity|]. split; [constructor|exact H]. Qed.
Lemma Luas_Lus v r : Luas v r -> Lus v r. Proof. intros H. exists [], r. split; [reflexivity|]. split; [constructor|exact H]. Qed.
Lemma Lr_nil v : Lr v []. Proof. exists []. split; [reflexivity|]. split; [constructor|congruence]. Qed.
Lemma La_Lr v x b t : d_raw x = 14 -> 4 <= v -> is_sig b [0x18] -> La v t -> Lr v (x :: b :: t).
Proof.
  intros Hx Hv Hb [(subs & -> & F & G) | (y & t' & -> & Hy & subs & -> & F & G)].
  - exists ([x; b] :: subs). split; [reflexivity|]. split; [constructor; [|exact F]|auto]. exists x, b, []. auto.
  - exists ([x; b; y] :: subs). split; [reflexivity|]. split; [constructor; [|exact F]|auto]. exists x, b, [y]. split; [reflexivity|]. split; [exact Hx|]. split; [exact Hb|]. right. exists y. split; [reflexivity|exact Hy].
Qed.
Lemma sub_in v x t : d_raw x = 14 -> 4 <= v -> L v Sb t -> Lr v (x :: t).
Proof. intros Hx Hv (b & t' & -> & Hb & H). now apply La_Lr. Qed.
Lemma uas_in v x t : d_raw x = 17 -> L v S2 t -> Luas v (x :: t).
Proof. intros Hx (cs & r & -> & C & uas & r' & -> & F & H). exists ((x :: cs) :: uas), r'. cbn [concat]. split; [now rewrite <- app_assoc|]. split; [constructor; [exists x, cs; auto|exact F]|exact H]. Qed.
Lemma us_in v x t : d_raw x = 13 -> L v S1 t -> Lus v (x :: t).
Proof. intros Hx (cs & r & -> & C & us & r' & -> & F & H). exists ((x :: cs) :: us), r'. cbn [concat]. split; [now rewrite <- app_assoc|]. split; [constructor; [exists x, cs; auto|exact F]|exact H]. Qed.
Lemma dfa_L v rest : forall s, dfa v s rest = true -> L v s rest.
Proof.
  induction rest as [|x t IH]; intros s H.
  - pose proof (Lr_nil v) as Q. pose proof (Lr_Luas v [] Q) as Q2. pose proof (Luas_Lus v [] Q2) as Q3. destruct s; cbn [L dfa] in *; try discriminate H; [exists [], []|exists [], []|exists [], []|left; exact Q|exact Q]; (split; [reflexivity|]; split; [constructor|assumption]).
  - cbn [dfa] in H. destruct (dfa1 v s x) as [s'|] eqn:D; [|discriminate H]. specialize (IH s' H). unfold dfa1, is_cert in D. cbv zeta in D.
    destruct s; cbn [L].
    + destruct ((d_raw x =? 2) && ((d_sig x =? 31) || (d_sig x =? 32))) eqn:E1.
      { injection D as <-. destruct IH as (ds & r & -> & F & G). exists (x :: ds), r. split; [reflexivity|]. split; [constructor; [split; [lia|cbn; lia]|exact F]|exact G]. }
      destruct ((d_raw x =? 2) && (d_sig x =? 40)); [discriminate D|]. destruct ((d_raw x =? 2) && is_one (d_sig x) [16; 17; 18; 19]); [discriminate D|].
      exists [], (x :: t). split; [reflexivity|]. split; [constructor|].
      destruct (d_raw x =? 13) eqn:E13; [injection D as <-; apply us_in; [lia|exact IH]|]. destruct (d_raw x =? 17) eqn:E17; [injection D as <-; apply Luas_Lus, uas_in; [lia|exact IH]|].
      destruct (d_raw x =? 14) eqn:E14; [|discriminate D]. destruct (4 <=? v) eqn:V; [|discriminate D]. injection D as <-. apply Luas_Lus, Lr_Luas, sub_in; [lia|lia|exact IH].
    + destruct ((d_raw x =? 2) && ((d_sig x =? 31) || (d_sig x =? 32))) eqn:E1; [discriminate D|]. destruct ((d_raw x =? 2) && (d_sig x =? 40)); [discriminate D|].
      destruct ((d_raw x =? 2) && is_one (d_sig x) [16; 17; 18; 19]) eqn:E3.
      { injection D as <-. destruct IH as (cs & r & -> & F & G). exists (x :: cs), r. split; [reflexivity|]. split; [constructor; [split; [lia|]|exact F]|exact G]. apply andb_true_iff in E3 as [_ E3]. now apply is_one_in in E3. }
      exists [], (x :: t). split; [reflexivity|]. split; [constructor|].
      destruct (d_raw x =? 13) eqn:E13; [injection D as <-; apply us_in; [lia|exact IH]|]. destruct (d_raw x =? 17) eqn:E17; [injection D as <-; apply Luas_Lus, uas_in; [lia|exact IH]|].
      destruct (d_raw x =? 14) eqn:E14; [|discriminate D]. destruct (4 <=? v) eqn:V; [|discriminate D]. injection D as <-. apply Luas_Lus, Lr_Luas, sub_in; [lia|lia|exact IH].
    + destruct ((d_raw x =? 2) && ((d_sig x =? 31) || (d_sig x =? 32))) eqn:E1; [discriminate D|]. destruct ((d_raw x =? 2) && (d_sig x =? 40)); [discriminate D|].
      destruct ((d_raw x =? 2) && is_one (d_sig x) [16; 17; 18; 19]) eqn:E3.
      { injection D as <-. destruct IH as (cs & r & -> & F & G). exists (x :: cs), r. split; [reflexivity|]. split; [constructor; [split; [lia|]|exact F]|exact G]. apply andb_true_iff in E3 as [_ E3]. now apply is_one_in in E3. }
      exists [], (x :: t). split; [reflexivity|]. split; [constructor|].
      destruct (d_raw x =? 13) eqn:E13; [discriminate D|]. destruct (d_raw x =? 17) eqn:E17; [injection D as <-; apply uas_in; [lia|exact IH]|].
      destruct (d_raw x =? 14) eqn:E14; [|discriminate D]. destruct (4 <=? v) eqn:V; [|discriminate D]. injection D as <-. apply Lr_Luas, sub_in; [lia|lia|exact IH].
    + destruct ((d_raw x =? 2) && (d_sig x =? 24)) eqn:E; [|discriminate D]. injection D as <-. exists x, t. split; [reflexivity|]. split; [split; [lia|cbn; lia]|exact IH].
    + destruct ((d_raw x =? 2) && ((d_sig x =? 31) || (d_sig x =? 32))) eqn:E1; [discriminate D|]. destruct ((d_raw x =? 2) && (d_sig x =? 40)) eqn:E2.
      { injection D as <-. right. exists x, t. split; [reflexivity|]. split; [split; [lia|cbn; lia]|exact IH]. }
      destruct ((d_raw x =? 2) && is_one (d_sig x) [16; 17; 18; 19]) eqn:E3; [discriminate D|]. destruct (d_raw x =? 13) eqn:E13; [discriminate D|]. destruct (d_raw x =? 17) eqn:E17; [discriminate D|].
      destruct (d_raw x =? 14) eqn:E14; [|discriminate D]. destruct (4 <=? v) eqn:V; [|discriminate D]. injection D as <-. left. apply sub_in; [lia|lia|exact IH].
    + destruct ((d_raw x =? 2) && ((d_sig x =? 31) || (d_sig x =? 32))) eqn:E1; [discriminate D|]. destruct ((d_raw x =? 2) && (d_sig x =? 40)) eqn:E2; [discriminate D|].
      destruct ((d_raw x =? 2) && is_one (d_sig x) [16; 17; 18; 19]) eqn:E3; [discriminate D|]. destruct (d_raw x =? 13) eqn:E13; [discriminate D|]. destruct (d_raw x =? 17) eqn:E17; [discriminate D|].
      destruct (d_raw x =? 14) eqn:E14; [|discriminate D]. destruct (4 <=? v) eqn:V; [|discriminate D]. injection D as <-. apply sub_in; [lia|lia|exact IH].
Qed.
(** the other direction: each part of the grammar drives the automaton *)
Ltac go1 := cbn [dfa]; unfold dfa1, is_cert; cbv zeta.
Lemma run_subs v subs s : s <> Sb -> Forall bound_subkey subs -> (subs <> [] -> 4 <= v) -> dfa v s (concat subs) = true.
Proof.
  intros Hs F. revert s Hs. induction F as [|g subs (x & b & r & -> & Hx & [B1 B2] & Hr) _ IH]; intros s Hs Hv; [destruct s; try reflexivity; congruence|]. specialize (Hv ltac:(discriminate)).
  assert (V : 4 <=? v = true) by lia. cbn [concat app]. cbn in B2. destruct B2 as [B2|[]].
  assert (D1 : dfa1 v s x = Some Sb) by (unfold dfa1, is_cert; cbv zeta; rewrite Hx, V; destruct s; try reflexivity; congruence).
  assert (D2 : dfa1 v Sb b = Some Sa) by (unfold dfa1; cbv zeta; rewrite B1, <- B2; reflexivity).
  cbn [dfa]. rewrite D1, D2. destruct Hr as [-> | (y & -> & Y1 & Y2)].
  - apply IH; [discriminate|auto].
  - cbn in Y2. destruct Y2 as [Y2|[]]. assert (D3 : dfa1 v Sa y = Some Sr) by (unfold dfa1; cbv zeta; rewrite Y1, <- Y2; reflexivity). cbn [app dfa]. rewrite D3. apply IH; [discriminate|auto].
Qed.
Lemma run_certs v s cs r : s = S1 \/ s = S2 -> certs cs -> dfa v s (cs ++ r) = dfa v s r.
Proof.
  intros Hs. induction 1 as [|c cs [C1 C2] _ IH]; [reflexivity|]. cbn [app dfa].
  assert (D : dfa1 v s c = Some s). { unfold dfa1, is_cert. cbv zeta. rewrite C1. cbn in C2. destruct C2 as [<- | [<- | [<- | [<- | []]]]]; destruct Hs as [-> | ->]; reflexivity. }
  rewrite D. exact IH.
Qed.
Lemma run_uas v uas r s : s = S0 \/ s = S1 \/ s = S2 -> Forall (certified 17) uas -> (forall s, s <> Sb -> dfa v s r = true) -> dfa v s (concat uas ++ r) = true.
Proof.
  intros Hs F Hr. revert s Hs. induction F as [|g uas (x & cs & -> & Hx & Hc) _ IH]; intros s Hs; [cbn; apply Hr; destruct Hs as [-> | [-> | ->]]; discriminate|]. cbn [concat app dfa]. rewrite <- app_assoc.
  assert (D : dfa1 v s x = Some S2). { unfold dfa1, is_cert. cbv zeta. rewrite Hx. destruct Hs as [-> | [-> | ->]]; reflexivity. }
  rewrite D, run_certs by auto. apply IH. auto.
Qed.
Lemma run_us v us r s : s = S0 \/ s = S1 -> Forall (certified 13) us -> (forall s, s = S0 \/ s = S1 \/ s = S2 -> dfa v s r = true) -> dfa v s (concat us ++ r) = true.
Proof.
  intros Hs F Hr. revert s Hs. induction F as [|g uas (x & cs & -> & Hx & Hc) _ IH]; intros s Hs; [cbn; apply Hr; tauto|]. cbn [concat app dfa]. rewrite <- app_assoc.
  assert (D : dfa1 v s x = Some S1). { unfold dfa1, is_cert. cbv zeta. rewrite Hx. destruct Hs as [-> | ->]; reflexivity. }
  rewrite D, run_certs by auto. apply IH. auto.
Qed.
Lemma L0_dfa v rest : L v S0 rest -> dfa v S0 rest = true.
Proof.
  intros (ds & r & -> & F & us & r1 & -> & Fu & uas & r2 & -> & Fa & subs & -> & Fs & V).
  assert (X : dfa v S0 (ds ++ concat us ++ concat uas ++ concat subs) = dfa v S0 (concat us ++ concat uas ++ concat subs)).
  { induction F as [|d ds [D1 D2] _ IH]; [reflexivity|]. cbn [app dfa]. assert (D : dfa1 v S0 d = Some S0). { unfold dfa1. cbv zeta. rewrite D1. cbn in D2. destruct D2 as [<- | [<- | []]]; reflexivity. } rewrite D. exact IH. }
  rewrite X. apply run_us; [auto|exact Fu|]. intros s Hs. apply run_uas; [exact Hs|exact Fa|]. intros s' Hs'. now apply run_subs.
Qed.
Lemma dump_grammar l : dump_validate l = Ok tt <-> dump_key l.
Proof.
  destruct l as [|k rest]; [split; [discriminate|intros (? & ? & ? & ? & ? & X & _); discriminate X]|]. unfold dump_validate. destruct (d_raw k =? 6) eqn:E.
  - cbn [negb dump_validate_from]. assert (St : dump_step (d_version k) [] k (hd_error rest) = Ok tt) by (unfold dump_step; cbv zeta; rewrite E; reflexivity). rewrite St. cbn [bind app].
    assert (I : inst S0 [k]). { cbn [inst]. assert (T : d_raw k = 6) by lia. split; [unfold only_raw; cbn; rewrite T; reflexivity|]. split; [exists k, []; cbn; rewrite T; auto|]. exists [], k. split; [reflexivity|]. lia. }
    rewrite (validate_dfa (d_version k) rest S0 [k] I) by discriminate. split.
    + intros H. apply dfa_L in H. destruct H as (ds & r & -> & F & us & r1 & -> & Fu & uas & r2 & -> & Fa & subs & -> & Fs & V). exists k, ds, us, uas, subs. repeat split; auto. lia.
    + intros (k' & ds & us & uas & subs & X & _ & F & Fu & Fa & Fs & V). injection X as <- ->. apply L0_dfa. exists ds. eexists. split; [reflexivity|]. split; [exact F|]. exists us. eexists. split; [reflexivity|]. split; [exact Fu|]. exists uas. eexists. split; [reflexivity|]. split; [exact Fa|]. exists subs. auto.
  - cbn [negb]. split; [discriminate|]. intros (k' & ds & us & uas & subs & X & T & _). injection X as <- _. lia.
Qed.
(** errors *)
Lemma step_err v pre x next e : pre <> [] -> (exists q l, filter (fun p => negb (d_raw p =? 2)) (rev pre) = q :: l) -> dump_step v pre x next = Err e ->
  e = InvalidKeyPacketOrder \/ e = InvalidKeyPacketType \/ (e = IndexError /\ next = None /\ d_raw x = 14).
Proof.
  intros Hn (q & l & Eq) H. unfold dump_step in H. cbv zeta in H. rewrite Eq in H. destruct (rev pre) as [|y yl] eqn:Er; [discriminate Eq|].
  unfold check in H. repeat match type of H with (if ?b then _ else _) = _ => destruct b eqn:?; [try discriminate H; try (injection H as <-; auto)|try discriminate H; try (injection H as <-; auto)] end; try (injection H as <-; auto).
  destruct next; [|injection H as <-; right; right; repeat split; lia]. destruct ((d_raw d =? 2) && (d_sig d =? 24)); [discriminate H|]. injection H as <-. auto.
Qed.

Lemma validate_err v rest : forall pre e, pre <> [] -> (exists q l, filter (fun p => negb (d_raw p =? 2)) (rev pre) = q :: l) -> dump_validate_from v pre rest = Err e ->
  e = InvalidKeyPacketOrder \/ e = InvalidKeyPacketType \/ (e = IndexError /\ exists t x, rest = t ++ [x] /\ d_raw x = 14).
Proof.
  induction rest as [|x t IH]; intros pre e Hn Hq H; [discriminate H|]. cbn [dump_validate_from] in H. destruct (dump_step v pre x (hd_error t)) as [u|e'] eqn:S.
  - cbn [bind] in H. destruct (IH (pre ++ [x]) e) as [E|[E|(E & t' & x' & -> & T)]]; auto.
    + destruct pre; discriminate.
    + destruct Hq as (q & l & E). rewrite rev_app_distr. cbn [rev app filter]. destruct (negb (d_raw x =? 2)); eauto.
    + right. right. split; [exact E|]. exists (x :: t'), x'. auto.
  - cbn [bind] in H. injection H as <-. destruct (step_err _ _ _ _ _ Hn Hq S) as [E|[E|(E & N & T)]]; auto. right. right. split; [exact E|]. destruct t; [|discriminate N]. exists [], x. auto.
Qed.
Lemma dump_errors l e : dump_validate l = Err e -> e = InvalidKeyPacketOrder \/ e = InvalidKeyPacketType \/ (e = IndexError /\ (l = [] \/ exists t x, l = t ++ [x] /\ d_raw x = 14)).
Proof.
  destruct l as [|k rest]; unfold dump_validate; [intros E; injection E as <-; auto|]. destruct (d_raw k =? 6) eqn:E; cbn [negb]; [|intros H; injection H as <-; auto].
  cbn [dump_validate_from]. assert (St : dump_step (d_version k) [] k (hd_error rest) = Ok tt) by (unfold dump_step; cbv zeta; rewrite E; reflexivity). rewrite St. cbn [bind app]. intros H.
  assert (Hq : exists q l, filter (fun p => negb (d_raw p =? 2)) (rev [k]) = q :: l) by (cbn [rev app filter]; replace (d_raw k =? 2) with false by lia; cbn; eauto).
  destruct (validate_err (d_version k) rest [k] e ltac:(discriminate) Hq H) as [?|[?|(? & t & x & -> & T)]]; auto.
  right. right. split; [assumption|]. right. exists (k :: t), x. auto.
Qed.

(** ** the stream *)
Lemma skip_len evs : forall cur n q m r, skip cur n evs = (q, m, r) -> (length r <= length evs)%nat.
Proof.
  induction evs as [|[p|e] t IH]; intros cur n q m r H; cbn [skip] in H.
  - destruct cur as [c|]; [destruct (d_raw c =? 6)|]; injection H as _ _ <-; auto.
  - destruct cur as [c|]; [destruct (d_raw c =? 6); [injection H as _ _ <-; cbn; lia|]|]; apply IH in H; cbn; lia.
  - destruct (skip None 1 t) as [[q' m'] r'] eqn:S. apply IH in S. destruct cur as [c|]; [destruct (d_raw c =? 6)|]; injection H as _ _ <-; cbn; lia.
Qed.
Section S.
Context {K : Type}.
Variables (pk : list dpkt -> res K) (va : list dpkt -> res unit).
Notation ps := (parse_stream pk va).
Lemma fuel_ok f1 : forall f2 kp p evs, (length evs < f1)%nat -> (length evs < f2)%nat -> ps f1 kp p evs = ps f2 kp p evs.
Proof.
  induction f1 as [|f1 IH]; intros f2 kp p evs H1 H2; [lia|]. destruct f2 as [|f2]; [lia|]. cbn [parse_stream]. destruct evs as [|[q|e] t]; [reflexivity| |]; cbn [length] in *.
  - rewrite (IH f2 [] q t) by lia. rewrite (IH f2 (kp ++ [p]) q t) by lia. reflexivity.
  - destruct (skip_to_next_key t) as [[[q|] m] r] eqn:S; [|reflexivity]. apply skip_len in S. apply IH; lia.
Qed.
Lemma run_plain t : forall f kp p r, (length t + length r < f)%nat -> Forall (fun p => d_raw p <> 6) t ->
  exists kp' p', kp' ++ [p'] = kp ++ p :: t /\ ps f kp p (map Pk t ++ r) = ps f kp' p' r.
Proof.
  induction t as [|x t IH]; intros f kp p r L F; [exists kp, p; auto|]. pose proof (Forall_inv F) as Hx. apply Forall_inv_tail in F.
  cbn [length] in L. destruct f as [|f]; [lia|]. destruct (IH f (kp ++ [p]) x r) as (kp' & p' & E & Q); [lia|exact F|]. exists kp', p'. split; [rewrite E, <- app_assoc; reflexivity|].
  rewrite <- (fuel_ok f (S f) kp' p' r) by lia. rewrite <- Q. cbn [map app parse_stream]. cbn beta in Hx. replace (d_raw x =? 6) with false by lia. reflexivity.
Qed.
Definition fin := finish pk va.
(** one whole group and what follows *)
Lemma run_last k t f : (length t < f)%nat -> Forall (fun p => d_raw p <> 6) t -> ps f [] k (map Pk t) = match fin (k :: t) with Ok x => ([x], None) | Err e => ([], Some e) end.
Proof.
  intros L F. destruct (run_plain t f [] k [] ltac:(cbn; lia) F) as (kp' & p' & E & Q). rewrite app_nil_r in Q. rewrite Q. destruct f as [|f]; [lia|]. cbn [parse_stream]. rewrite E. reflexivity.
Qed.
Lemma run_next k t k2 r f : (S (length t + length r) < f)%nat -> Forall (fun p => d_raw p <> 6) t -> d_raw k2 = 6 ->
  ps f [] k (map Pk t ++ Pk k2 :: r) = match fin (k :: t) with Ok x => let '(ks, e) := ps f [] k2 r in (x :: ks, e) | Err e => ([], Some e) end.
Proof.
  intros L F H. destruct (run_plain t f [] k (Pk k2 :: r) ltac:(cbn; lia) F) as (kp' & p' & E & Q). rewrite Q. destruct f as [|f]; [lia|]. cbn [parse_stream]. rewrite H. cbn [Z.eqb Pos.eqb]. rewrite E. cbn [app]. fold fin.
  destruct (fin (k :: t)); [|reflexivity]. rewrite (fuel_ok f (S f)) by lia. reflexivity.
Qed.
(** from the second group on: the outcome of a stream that starts with a key packet *)
Definition from (evs : list event) : list K * option exn := parse pk va evs.
Lemma from_last g : key_group g -> from (map Pk g) = match fin g with Ok x => ([x], None) | Err e => ([], Some e) end.
Proof. intros (k & t & -> & H & F). unfold from, parse. cbn [map]. rewrite run_last; [reflexivity|rewrite map_length; lia|exact F]. Qed.
Lemma from_next g evs : key_group g -> starts evs -> from (map Pk g ++ evs) = match fin g with Ok x => let '(ks, e) := from evs in (x :: ks, e) | Err e => ([], Some e) end.
Proof.
  intros (k & t & -> & H & F) (k2 & r & -> & H2). unfold from, parse. cbn [map app]. rewrite run_next; [|rewrite app_length, map_length; cbn; lia|exact F|exact H2].
  destruct (fin (k :: t)); [|reflexivity]. rewrite (fuel_ok _ (S (length r))); [reflexivity|rewrite app_length, map_length; cbn; lia|lia].
Qed.
Lemma groups_start gs evs : Forall key_group gs -> starts evs -> starts (map Pk (concat gs) ++ evs).
Proof. intros F S. destruct F as [|g gs (k & t & -> & H & _) _]; [exact S|]. cbn [concat app map]. exists k. eexists. split; [reflexivity|exact H]. Qed.
Lemma from_groups gs ks evs : Forall key_group gs -> Forall2 (fun g k => fin g = Ok k) gs ks -> starts evs ->
  from (map Pk (concat gs) ++ evs) = (ks ++ fst (from evs), snd (from evs)).
Proof.
  intros F F2 S. induction F2 as [|g k gs ks Hg _ IH]; [cbn; destruct (from evs); reflexivity|]. pose proof (Forall_inv F) as G. apply Forall_inv_tail in F. cbn [concat]. rewrite map_app, <- app_assoc.
  rewrite from_next; [|exact G|now apply groups_start]. rewrite Hg, IH by assumption. reflexivity.
Qed.
Lemma clean gs ks : Forall key_group gs -> Forall2 (fun g k => fin g = Ok k) gs ks -> from (map Pk (concat gs)) = (ks, None).
Proof.
  intros F F2. destruct (rev gs) as [|g gs'] eqn:R.
  { assert (gs = []) as -> by (rewrite <- (rev_involutive gs), R; reflexivity). inversion F2. reflexivity. }
  assert (gs = rev gs' ++ [g]) as -> by (rewrite <- (rev_involutive gs), R; reflexivity). apply Forall2_app_inv_l in F2 as (k1 & k2 & F1 & F2 & ->).
  inversion F2 as [|? y ? l Hg Hl]; subst. inversion Hl; subst. apply Forall_app in F as [Fa Fg]. pose proof (Forall_inv Fg) as G.
  rewrite concat_app, map_app. cbn [concat]. rewrite app_nil_r. rewrite from_groups with (ks := k1); [|exact Fa|exact F1|destruct G as (k & t & -> & H & _); exists k; eexists; split; [reflexivity|exact H]].
  rewrite from_last, Hg by exact G. reflexivity.
Qed.
Lemma stops gs ks g e tail : Forall key_group gs -> Forall2 (fun g k => fin g = Ok k) gs ks -> key_group g -> fin g = Err e -> tail = [] \/ starts tail ->
  from (map Pk (concat gs) ++ map Pk g ++ tail) = (ks, Some e).
Proof.
  intros F F2 G Hg T. rewrite from_groups with (ks := ks); [|exact F|exact F2|destruct G as (k & t & -> & H & _); exists k; eexists; split; [reflexivity|exact H]].
  destruct T as [-> | T]; [rewrite app_nil_r, from_last, Hg by exact G|rewrite from_next, Hg by assumption]; cbn; now rewrite app_nil_r.
Qed.
(** a fault *)
Lemma ps_bad f kp p e t : ps (S f) kp p (Bad e :: t) = match skip_to_next_key t with (None, _, _) => ([], None) | (Some p, _, r) => ps f [p] p r end.
Proof. reflexivity. Qed.
Lemma fault k t e r f : (S (length t + length r) < f)%nat -> Forall (fun p => d_raw p <> 6) t ->
  ps f [] k (map Pk t ++ Bad e :: r) = match skip_to_next_key r with (None, _, _) => ([], None) | (Some p, _, r') => ps f [p] p r' end.
Proof.
  intros L F. destruct (run_plain t f [] k (Bad e :: r) ltac:(cbn; lia) F) as (kp' & p' & E & Q). rewrite Q. destruct f as [|f]; [lia|]. rewrite ps_bad.
  destruct (skip_to_next_key r) as [[[p|] m] r'] eqn:S; [|reflexivity]. apply skip_len in S. apply fuel_ok; lia.
Qed.
Lemma from_fault g e r : key_group g -> from (map Pk g ++ Bad e :: r) = match skip_to_next_key r with (None, _, _) => ([], None) | (Some p, _, r') => ps (S (S (length r'))) [p] p r' end.
Proof.
  intros (k & t & -> & H & F). unfold from, parse. cbn [map app]. rewrite fault; [|rewrite app_length, map_length; cbn; lia|exact F].
  destruct (skip_to_next_key r) as [[[p|] m] r'] eqn:S; [|reflexivity]. apply skip_len in S. apply fuel_ok; rewrite ?app_length, ?map_length; cbn; lia.
Qed.
(** after a fault the next key begins with its first packet twice *)
Lemma after_fault p t tail f : (length t + length tail < f)%nat -> Forall (fun p => d_raw p <> 6) t -> tail = [] \/ starts tail -> forall e, fin (p :: p :: t) = Err e ->
  ps f [p] p (map Pk t ++ tail) = ([], Some e).
Proof.
  intros L F T e E. destruct (run_plain t f [p] p tail L F) as (kp' & p' & X & Q). rewrite Q. destruct f as [|f]; [lia|]. cbn [parse_stream]. cbn [app] in X.
  destruct T as [-> | (k2 & r & -> & H2)].
  - rewrite X. fold fin. rewrite E. reflexivity.
  - rewrite H2. cbn [Z.eqb Pos.eqb]. rewrite X. fold fin. rewrite E. reflexivity.
Qed.
End S.
(** what skip finds *)
Lemma skip_some evs : forall cur n p r, Forall no_key evs -> match cur with Some c => d_raw c <> 6 | None => True end -> d_raw p = 6 -> exists m, skip cur n (evs ++ Pk p :: r) = (Some p, m, r).
Proof.
  induction evs as [|[q|e] t IH]; intros cur n p r F Hc Hp.
  - cbn [app skip]. assert (X : forall n, skip (Some p) n r = (Some p, n, r)) by (intros n'; destruct r as [|[?|?] ?]; cbn [skip]; rewrite Hp; reflexivity). destruct cur as [c|]; [replace (d_raw c =? 6) with false by lia|]; rewrite X; eauto.
  - pose proof (Forall_inv F) as Hq. apply Forall_inv_tail in F. cbn [app skip]. destruct cur as [c|]; [replace (d_raw c =? 6) with false by lia|]; apply IH; auto.
  - apply Forall_inv_tail in F. cbn [app skip]. destruct (IH None 1 p r F Logic.I Hp) as (m & E). rewrite E. destruct cur as [c|]; [replace (d_raw c =? 6) with false by lia|]; eauto.
Qed.
Lemma skip_none evs : forall cur n, Forall no_key evs -> match cur with Some c => d_raw c <> 6 | None => True end -> exists m, skip cur n evs = (None, m, []).
Proof.
  induction evs as [|[q|e] t IH]; intros cur n F Hc.
  - cbn [skip]. destruct cur as [c|]; [replace (d_raw c =? 6) with false by lia|]; eauto.
  - pose proof (Forall_inv F) as Hq. apply Forall_inv_tail in F. cbn [skip]. destruct cur as [c|]; [replace (d_raw c =? 6) with false by lia|]; apply IH; auto.
  - apply Forall_inv_tail in F. cbn [skip]. destruct (IH None 1 F Logic.I) as (m & E). rewrite E. destruct cur as [c|]; [replace (d_raw c =? 6) with false by lia|]; eauto.
Qed.
(** the number skipped: packets of other types found before the key *)
Lemma skip_count l : forall c n p r, Forall (fun q => d_raw q <> 6) l -> d_raw p = 6 -> d_raw c <> 6 -> skip (Some c) n (map Pk l ++ Pk p :: r) = (Some p, n + zlen l + 1, r).
Proof.
  induction l as [|q l IH]; intros c n p r F Hp Hc.
  - cbn [map app skip]. replace (d_raw c =? 6) with false by lia. change (zlen (@nil dpkt)) with 0. replace (n + 0 + 1) with (n + 1) by lia. destruct r as [|[?|?] ?]; cbn [skip]; rewrite Hp; reflexivity.
  - pose proof (Forall_inv F) as Hq. apply Forall_inv_tail in F. cbn [map app skip]. replace (d_raw c =? 6) with false by lia. rewrite IH by assumption. rewrite zlen_cons. f_equal. f_equal. lia.
Qed.

