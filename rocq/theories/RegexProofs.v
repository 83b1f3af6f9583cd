(** Proofs about the validator of regular expressions. *)
From Verif Require Import Base BaseProofs Text Regex SpecRegex.

(** ** the grammar on tokens *)
Definition ordinary (t : text) : Prop := ~ In t [[124]; [42]; [43]; [63]; [40]; [41]; [91]; [93]].
Definition early (x : text) : bool := zlist_eqb x [] || zlist_eqb x [94].
(** tokens that keep a range open *)
Inductive tbody : list text -> Prop :=
| tb_nil : tbody []
| tb_snoc xs t : tbody xs -> (t = [93] -> early (concat xs) = true) -> tbody (xs ++ [t]).
Inductive tre (bars : bool) : list text -> Prop :=
| tre_branch b : tbr bars b -> tre bars b
| tre_or b r : tbr bars b -> tre bars r -> tre bars (b ++ [124] :: r)
with tbr (bars : bool) : list text -> Prop :=
| tbr_nil : tbr bars []
| tbr_piece p b : tpc bars p -> tbr bars b -> tbr bars (p ++ b)
with tpc (bars : bool) : list text -> Prop :=
| tpc_atom a : tat bars a -> tpc bars a
| tpc_repeat a c : tat bars a -> In c [[42]; [43]; [63]] -> (bars = false -> forall xs, a = [91] :: xs ++ [[93]] -> ~ In [124] xs) -> tpc bars (a ++ [c])
with tat (bars : bool) : list text -> Prop :=
| tat_group r : tre bars r -> tat bars ([40] :: r ++ [[41]])
| tat_range xs : tbody xs -> early (concat xs) = false -> tat bars ([91] :: xs ++ [[93]])
| tat_one t : ordinary t -> tat bars [t].
Scheme tre_m := Minimality for tre Sort Prop with tbr_m := Minimality for tbr Sort Prop with tpc_m := Minimality for tpc Sort Prop with tat_m := Minimality for tat Sort Prop.
Combined Scheme tall from tre_m, tbr_m, tpc_m, tat_m.
Scheme re_m := Minimality for regex Sort Prop with br_m := Minimality for branch Sort Prop with pc_m := Minimality for piece Sort Prop with at_m := Minimality for atom Sort Prop.
Combined Scheme rall from re_m, br_m, pc_m, at_m.

Lemma branch_app bars b p : tbr bars b -> tpc bars p -> tbr bars (b ++ p).
Proof.
  intros B P. apply (tbr_m bars (fun _ => True) (fun b => tbr bars (b ++ p)) (fun _ => True) (fun _ => True)); auto.
  - cbn [app]. rewrite <- (app_nil_r p). constructor; [exact P|constructor].
  - intros q b' Q _ _ IH. rewrite <- app_assoc. constructor; assumption.
Qed.
Lemma regex_app bars r p : tre bars r -> tpc bars p -> tre bars (r ++ p).
Proof.
  intros R P. apply (tre_m bars (fun r => tre bars (r ++ p)) (fun _ => True) (fun _ => True) (fun _ => True)); auto.
  - intros b B _. constructor. apply branch_app; assumption.
  - intros b r' B _ _ IH. rewrite <- app_assoc. cbn [app]. constructor; assumption.
Qed.
Lemma regex_bar bars r : tre bars r -> tre bars (r ++ [[124]]).
Proof.
  intros R. apply (tre_m bars (fun r => tre bars (r ++ [[124]])) (fun _ => True) (fun _ => True) (fun _ => True)); auto.
  - intros b B _. constructor; [assumption|]. constructor. constructor.
  - intros b r' B _ _ IH. rewrite <- app_assoc. cbn [app]. constructor; assumption.
Qed.

(** ** fuel *)
Ltac cases := repeat match goal with
  | H : context [if ?b then _ else _] |- _ => destruct b eqn:?
  | |- context [if ?b then _ else _] => destruct b eqn:?
  end.
Lemma loop_rest : forall f ts c u o u' v o' rest, loop f ts c u o = Some (u', v, o', rest) -> (length rest <= length ts)%nat.
Proof.
  induction f as [|f IH]; intros ts c u o u' v o' rest H; [discriminate H|]. destruct ts as [|t ts]; cbn [loop] in H; [injection H as _ _ _ <-; auto|].
  assert (G : forall c' o2, loop f ts c' u o2 = Some (u', v, o', rest) -> (length rest <= length (t :: ts))%nat) by (intros c' o2 Q; apply IH in Q; cbn [length]; lia).
  assert (I : Some (u, false, o, t :: ts) = Some (u', v, o', rest) -> (length rest <= length (t :: ts))%nat) by (intros Q; injection Q as _ _ _ <-; auto).
  repeat match type of H with (if ?b then _ else _) = _ => destruct b end; destruct c as [|[]| | |x n]; eauto; try discriminate H; try (match type of H with (if ?b then _ else _) = _ => destruct b end; eauto);
  (destruct (loop f ts CBranch false []) as [[[[u1 v1] s1] ts1]|] eqn:E; [|discriminate H]; apply IH in E, H; cbn [length]; lia).
Qed.
Lemma loop_fuel : forall f f' ts c u o, (length ts < f)%nat -> (length ts < f')%nat -> loop f ts c u o = loop f' ts c u o.
Proof.
  induction f as [|f IH]; intros [|f'] ts c u o L L'; try lia. destruct ts as [|t ts]; [reflexivity|]. cbn [length] in L, L'. cbn [loop].
  assert (G : forall c' o2, loop f ts c' u o2 = loop f' ts c' u o2) by (intros; apply IH; lia). rewrite (IH f' ts CBranch false []) by lia.
  repeat match goal with |- (if ?b then _ else _) = _ => destruct b end; destruct c as [|[]| | |x n]; auto; try (match goal with |- (if ?b then _ else _) = _ => destruct b end; auto);
  (destruct (loop f' ts CBranch false []) as [[[[u1 v1] s1] ts1]|] eqn:E; [|reflexivity]; apply loop_rest in E; apply IH; lia).
Qed.
Definition run (ts : list text) (c : cur) (u : bool) (o : text) := loop (S (length ts)) ts c u o.
Definition good (c : cur) : Prop := match c with CGroup | CRange _ _ => False | _ => True end.

Lemma run_nil c u o : run [] c u o = Some (match c with CGroup | CRange _ _ => true | _ => u end, true, o, []). Proof. reflexivity. Qed.
Lemma run_fold ts f c u o : (length ts < f)%nat -> loop f ts c u o = run ts c u o. Proof. intros L. apply loop_fuel; lia. Qed.
Lemma run_bar ts c u o : run ([124] :: ts) c u o = match c with CRange x _ => run ts (CRange (x ++ [124]) true) u (o ++ [124]) | CGroup => Some (u, false, o, [124] :: ts) | _ => run ts CBranch u (o ++ [124]) end.
Proof. destruct c; reflexivity. Qed.
Lemma run_rep t ts c u o : In t [[42]; [43]; [63]] -> run (t :: ts) c u o = match c with CRange x n => run ts (CRange (x ++ t) n) u (o ++ t) | CPiece true => None | CAtom | CPiece false => run ts CBranch u (o ++ t) | _ => Some (u, false, o, t :: ts) end.
Proof. intros I. cbn [In] in I. repeat destruct I as [<-|I]; try contradiction; destruct c as [|[]| | |]; reflexivity. Qed.
Lemma run_open ts c u o : run ([40] :: ts) c u o = match c with CRange x n => run ts (CRange (x ++ [40]) n) u (o ++ [40]) | CGroup => Some (u, false, o, [40] :: ts)
  | _ => match run ts CBranch false [] with None => None | Some (u1, _, sub, ts') => run ts' CGroup u1 (o ++ [40] ++ sub) end end.
Proof.
  assert (U : forall f, loop (S f) ([40] :: ts) c u o = match c with CRange x n => loop f ts (CRange (x ++ [40]) n) u (o ++ [40]) | CGroup => Some (u, false, o, [40] :: ts)
    | _ => match loop f ts CBranch false [] with None => None | Some (u1, _, sub, ts') => loop f ts' CGroup u1 (o ++ [40] ++ sub) end end) by (intros f; destruct c; reflexivity).
  unfold run at 1. cbn [length]. rewrite U. fold (run ts CBranch false []).
  destruct c; try reflexivity; (destruct (run ts CBranch false []) as [[[[u1 v1] s1] ts1]|] eqn:E; [|reflexivity]; apply run_fold; apply loop_rest in E; lia).
Qed.
Lemma run_close ts c u o : run ([41] :: ts) c u o = match c with CRange x n => run ts (CRange (x ++ [41]) n) u (o ++ [41]) | CGroup => run ts (CPiece false) u (o ++ [41]) | _ => Some (u, false, o, [41] :: ts) end.
Proof. destruct c; reflexivity. Qed.
Lemma run_lb ts c u o : run ([91] :: ts) c u o = match c with CRange x n => run ts (CRange (x ++ [91]) n) u (o ++ [91]) | CGroup => Some (u, false, o, [91] :: ts) | _ => run ts (CRange [] false) u (o ++ [91]) end.
Proof. destruct c; reflexivity. Qed.
Lemma run_rb ts c u o : run ([93] :: ts) c u o = match c with CRange x n => if early x then run ts (CRange (x ++ [93]) n) u (o ++ [93]) else run ts (CPiece n) u (o ++ [93]) | _ => Some (u, false, o, [93] :: ts) end.
Proof. destruct c; reflexivity. Qed.
Lemma run_other t ts c u o : ordinary t -> run (t :: ts) c u o = run ts (match c with CRange x n => CRange (x ++ t) n | CGroup => CGroup | _ => CAtom end) u (o ++ t).
Proof.
  intros O. assert (N : forall k, In k [[124]; [42]; [43]; [63]; [40]; [41]; [91]; [93]] -> zlist_eqb t k = false) by (intros k I; apply zlist_eqb_neq; intros ->; exact (O I)).
  unfold run at 1. cbn [loop length existsb]. rewrite !N by (cbn; tauto). cbn [orb]. destruct c; reflexivity.
Qed.
Lemma token_cases t : t = [124] \/ In t [[42]; [43]; [63]] \/ t = [40] \/ t = [41] \/ t = [91] \/ t = [93] \/ ordinary t.
Proof.
  destruct (in_dec (list_eq_dec Z.eq_dec) t [[124]; [42]; [43]; [63]; [40]; [41]; [91]; [93]]) as [I|I]; [|right; right; right; right; right; right; exact I].
  cbn [In] in I |- *. repeat destruct I as [<-|I]; try contradiction; tauto.
Qed.

(** ** what the grammar allows is accepted *)
Lemma concat_snoc (xs : list text) t : concat (xs ++ [t]) = concat xs ++ t.
Proof. rewrite concat_app. cbn [concat]. now rewrite app_nil_r. Qed.
Lemma run_range_step t rest x n u o : (t = [93] -> early x = true) -> run (t :: rest) (CRange x n) u o = run rest (CRange (x ++ t) (n || zlist_eqb t [124])) u (o ++ t).
Proof.
  intros E. destruct (token_cases t) as [->|[I|[->|[->|[->|[->|O]]]]]].
  - rewrite run_bar. now rewrite orb_true_r.
  - rewrite run_rep by exact I. cbn [In] in I. repeat destruct I as [<-|I]; try contradiction; now rewrite orb_false_r.
  - rewrite run_open. now rewrite orb_false_r.
  - rewrite run_close. now rewrite orb_false_r.
  - rewrite run_lb. now rewrite orb_false_r.
  - rewrite run_rb, (E eq_refl). now rewrite orb_false_r.
  - rewrite run_other by exact O. rewrite (zlist_eqb_neq t [124]); [now rewrite orb_false_r|]. intros ->. apply O. cbn. auto.
Qed.
Lemma run_body xs : tbody xs -> forall rest u o, exists n, run (xs ++ rest) (CRange [] false) u o = run rest (CRange (concat xs) n) u (o ++ concat xs) /\ (n = true <-> In [124] xs).
Proof.
  induction 1 as [|xs t B IH E]; intros rest u o.
  - exists false. cbn [concat]. rewrite app_nil_r. split; [reflexivity|]. split; [discriminate|contradiction].
  - rewrite <- app_assoc. cbn [app]. destruct (IH (t :: rest) u o) as (n & R & N). rewrite R, run_range_step by exact E. rewrite concat_snoc, app_assoc. exists (n || zlist_eqb t [124]). split; [reflexivity|].
    rewrite in_app_iff, orb_true_iff, N, zlist_eqb_spec. cbn [In]. split; [intros [|]; auto|intros [|[|[]]]; auto].
Qed.
Lemma complete bars :
  (forall r, tre bars r -> bars = false -> forall rest c o, good c -> exists c', good c' /\ run (r ++ rest) c false o = run rest c' false (o ++ concat r)) /\
  (forall b, tbr bars b -> bars = false -> forall rest c o, good c -> exists c', good c' /\ run (b ++ rest) c false o = run rest c' false (o ++ concat b)) /\
  (forall p, tpc bars p -> bars = false -> forall rest c o, good c -> exists c', good c' /\ run (p ++ rest) c false o = run rest c' false (o ++ concat p)) /\
  (forall a, tat bars a -> bars = false -> forall rest c o, good c -> exists c', (c' = CAtom \/ c' = CPiece false \/ c' = CPiece true /\ exists xs, a = [91] :: xs ++ [[93]] /\ In [124] xs) /\ run (a ++ rest) c false o = run rest c' false (o ++ concat a)).
Proof.
  apply tall.
  - intros b _ IH. exact IH.
  - intros b r _ IHb _ IHr F rest c o G. rewrite <- app_assoc. cbn [app]. destruct (IHb F ([124] :: r ++ rest) c o G) as (c1 & G1 & E1). rewrite E1, run_bar. destruct (IHr F rest CBranch ((o ++ concat b) ++ [124]) Logic.I) as (c2 & G2 & E2).
    exists c2. split; [exact G2|]. destruct c1; try contradiction; rewrite E2; f_equal; rewrite concat_app; cbn [concat]; now rewrite !app_assoc.
  - intros _ rest c o G. exists c. split; [exact G|]. cbn [concat]. now rewrite app_nil_r.
  - intros p b _ IHp _ IHb F rest c o G. rewrite <- app_assoc. destruct (IHp F (b ++ rest) c o G) as (c1 & G1 & E1). destruct (IHb F rest c1 (o ++ concat p) G1) as (c2 & G2 & E2). exists c2. split; [exact G2|]. now rewrite E1, E2, concat_app, app_assoc.
  - intros a _ IH F rest c o G. destruct (IH F rest c o G) as (c1 & H & E). exists c1. split; [destruct H as [->|[->|[-> _]]]; exact Logic.I|exact E].
  - intros a t _ IH I N F rest c o G. rewrite <- app_assoc. cbn [app]. destruct (IH F (t :: rest) c o G) as (c1 & H & E). rewrite E, run_rep by exact I. exists CBranch. split; [exact Logic.I|]. rewrite concat_snoc, app_assoc.
    destruct H as [->|[->|[-> (xs & Ha & Hx)]]]; [reflexivity|reflexivity|]. destruct (N F xs Ha Hx).
  - intros r _ IH F rest c o G. cbn [app]. rewrite <- app_assoc. cbn [app]. destruct (IH F ([41] :: rest) CBranch [] Logic.I) as (c1 & G1 & E1). exists (CPiece false). split; [auto|].
    assert (R : run (r ++ [41] :: rest) CBranch false [] = Some (false, false, concat r, [41] :: rest)) by (rewrite E1, run_close; destruct c1; try contradiction; reflexivity).
    rewrite run_open, R. cbn [concat]. rewrite concat_snoc. destruct c; try contradiction; rewrite run_close; now rewrite !app_assoc.
  - intros xs B E F rest c o G. cbn [app]. rewrite <- app_assoc. cbn [app]. rewrite run_lb. destruct (run_body xs B ([93] :: rest) false (o ++ [91])) as (n & R & N). exists (CPiece n). split.
    + destruct n; [|auto]. right. right. split; [reflexivity|]. exists xs. split; [reflexivity|]. now apply N.
    + cbn [concat]. rewrite concat_snoc. destruct c; try contradiction; rewrite R, run_rb, E; now rewrite !app_assoc.
  - intros t O F rest c o G. exists CAtom. split; [auto|]. cbn [app concat]. rewrite app_nil_r, run_other by exact O. destruct c; try contradiction; reflexivity.
Qed.

(** ** what is accepted is in the grammar *)
(** the tokens that this frame has consumed, and those to come *)
Definition plain (t : text) : Prop := exists c, t = [c] /\ c <> 92.
Definition viable (l : list text) : Prop := exists e, Forall plain e /\ tre true (l ++ e).
Definition inv (c : cur) (done ts : list text) : Prop :=
  match c with
  | CBranch => tre true done
  | CAtom | CPiece _ => exists d a, done = d ++ a /\ tre true d /\ tat true a
  | CGroup => exists d i, done = d ++ [40] :: i /\ tre true d /\ viable i /\ match ts with [] => True | t :: _ => ~ ordinary t /\ (t = [41] -> tre true i) end
  | CRange x _ => exists d xs, done = d ++ [91] :: xs /\ tre true d /\ tbody xs /\ x = concat xs
  end.
Lemma inv_good c done ts : good c -> inv c done ts -> tre true done.
Proof. intros G I. destruct c; try contradiction; [exact I| |]; destruct I as (d & a & -> & D & A); (apply regex_app; [exact D|constructor; exact A]). Qed.
Lemma viable_re l : tre true l -> viable l.
Proof. intros H. exists []. rewrite app_nil_r. split; [constructor|exact H]. Qed.
Lemma inv_viable c done ts : inv c done ts -> viable done.
Proof.
  destruct c as [|m| | |x m]; intros I; try (apply viable_re; eapply inv_good; [|exact I]; exact Logic.I).
  - destruct I as (d & i & -> & D & (e & F & E) & _). exists (e ++ [[41]]). split; [apply Forall_app; split; [exact F|constructor; [exists 41; split; [reflexivity|lia]|constructor]]|]. rewrite <- app_assoc. cbn [app]. apply regex_app; [exact D|]. constructor. rewrite app_assoc. now constructor.
  - destruct I as (d & xs & -> & D & B & ->). exists [[65]; [93]]. split; [repeat constructor; [exists 65|exists 93]; split; (reflexivity || lia)|]. rewrite <- app_assoc. cbn [app]. apply regex_app; [exact D|]. constructor. change [[65]; [93]] with ([[65]] ++ [[93]]). rewrite app_assoc. constructor.
    + constructor; [exact B|discriminate].
    + rewrite concat_snoc. unfold early. destruct (concat xs) as [|a [|b l]]; try reflexivity; cbn; now rewrite andb_false_r.
Qed.
Lemma sound : forall n ts c done u o u' v o' rest, (length ts <= n)%nat -> inv c done ts -> run ts c u o = Some (u', v, o', rest) ->
  exists took, ts = took ++ rest /\ o' = o ++ concat took /\ viable (done ++ took) /\ (v = true -> rest = [] /\ (u' = false -> tre true (done ++ took))) /\ (v = false -> exists t rest', rest = t :: rest' /\ ~ ordinary t /\ (t = [41] -> tre true (done ++ took))).
Proof.
  induction n as [|n IH]; intros ts c done u o u' v o' rest L I H.
  { destruct ts; [|cbn [length] in L; lia]. rewrite run_nil in H. injection H as <- <- <- <-. exists []. split; [reflexivity|]. cbn [concat]. rewrite !app_nil_r. split; [reflexivity|]. split; [exact (inv_viable _ _ _ I)|]. split; [|discriminate]. intros _. split; [reflexivity|]. intros U. apply (inv_good c _ []); [destruct c; try discriminate U; exact Logic.I|exact I]. }
  destruct ts as [|t ts].
  { rewrite run_nil in H. injection H as <- <- <- <-. exists []. split; [reflexivity|]. cbn [concat]. rewrite !app_nil_r. split; [reflexivity|]. split; [exact (inv_viable _ _ _ I)|]. split; [|discriminate]. intros _. split; [reflexivity|]. intros U. apply (inv_good c _ []); [destruct c; try discriminate U; exact Logic.I|exact I]. }
  cbn [length] in L.
  assert (Next : forall c' o2, inv c' (done ++ [t]) ts -> o2 = o ++ t -> run ts c' u o2 = Some (u', v, o', rest) -> exists took, t :: ts = took ++ rest /\ o' = o ++ concat took /\ viable (done ++ took) /\ (v = true -> rest = [] /\ (u' = false -> tre true (done ++ took))) /\ (v = false -> exists t rest', rest = t :: rest' /\ ~ ordinary t /\ (t = [41] -> tre true (done ++ took)))).
  { intros c' o2 I' -> R. destruct (IH ts c' (done ++ [t]) u (o ++ t) u' v o' rest ltac:(lia) I' R) as (took & T & O & V & A & B). exists (t :: took). cbn [app concat]. rewrite T. split; [reflexivity|]. rewrite app_assoc. split; [exact O|]. rewrite <- !app_assoc in V, A, B. cbn [app] in V, A, B. auto. }
  assert (Stop : (~ ordinary t) -> (t = [41] -> tre true done) -> Some (u, false, o, t :: ts) = Some (u', v, o', rest) -> exists took, t :: ts = took ++ rest /\ o' = o ++ concat took /\ viable (done ++ took) /\ (v = true -> rest = [] /\ (u' = false -> tre true (done ++ took))) /\ (v = false -> exists t rest', rest = t :: rest' /\ ~ ordinary t /\ (t = [41] -> tre true (done ++ took)))).
  { intros S1 S2 R. injection R as <- <- <- <-. exists []. split; [reflexivity|]. cbn [concat]. rewrite !app_nil_r. split; [reflexivity|]. split; [exact (inv_viable _ _ _ I)|]. split; [discriminate|]. intros _. exists t, ts. auto. }
  assert (Rng : forall x m, c = CRange x m -> (t = [93] -> early x = true) -> forall m', inv (CRange (x ++ t) m') (done ++ [t]) ts).
  { intros x m -> E m'. destruct I as (d & xs & -> & D & B & ->). exists d, (xs ++ [t]). rewrite <- app_assoc. split; [reflexivity|]. split; [exact D|]. split; [constructor; assumption|]. now rewrite concat_snoc. }
  assert (Odd : forall k, In k [[124]; [42]; [43]; [63]; [40]; [41]; [91]; [93]] -> t = k -> ~ ordinary t) by (intros k K -> Q; exact (Q K)).
  destruct (token_cases t) as [->|[J|[->|[->|[->|[->|O]]]]]].
  - assert (B : good c -> inv CBranch (done ++ [[124]]) ts) by (intros G; cbn [inv]; apply regex_bar; exact (inv_good _ _ _ G I)).
    rewrite run_bar in H. destruct c as [|m| | |x m]; [eapply (Next CBranch); eauto|eapply (Next CBranch); eauto|eapply (Next CBranch); eauto| |]; [exact (B Logic.I)|exact (B Logic.I)|exact (B Logic.I)| |].
    + apply Stop; [eapply Odd; [|reflexivity]; cbn; auto|discriminate|exact H].
    + eapply (Next (CRange (x ++ [124]) true)); [eapply Rng; [reflexivity|discriminate]|reflexivity|exact H].
  - assert (Nc : t <> [41]) by (intros ->; cbn in J; intuition discriminate).
    assert (B : (c = CAtom \/ exists m, c = CPiece m) -> inv CBranch (done ++ [t]) ts). { intros G. assert (I' : exists d a, done = d ++ a /\ tre true d /\ tat true a) by (destruct G as [->|[m ->]]; exact I). destruct I' as (d & a & -> & D & A). cbn [inv]. rewrite <- app_assoc. apply regex_app; [exact D|]. constructor; [exact A|exact J|discriminate]. }
    assert (St : ~ ordinary t) by (intros Q; apply Q; cbn in J |- *; tauto).
    rewrite run_rep in H by exact J. destruct c as [|[]| | |x m]; try discriminate H.
    + apply Stop; [exact St|intros E; destruct (Nc E)|exact H].
    + eapply (Next CBranch); [apply B; eauto|reflexivity|exact H].
    + eapply (Next CBranch); [apply B; eauto|reflexivity|exact H].
    + apply Stop; [exact St|intros E; destruct (Nc E)|exact H].
    + eapply (Next (CRange (x ++ t) m)); [eapply Rng; [reflexivity|intros ->; cbn in J; intuition discriminate]|reflexivity|exact H].
  - assert (Gr : good c -> match run ts CBranch false [] with None => None | Some (u1, _, sub, ts') => run ts' CGroup u1 (o ++ [40] ++ sub) end = Some (u', v, o', rest) -> exists took, [40] :: ts = took ++ rest /\ o' = o ++ concat took /\ viable (done ++ took) /\ (v = true -> rest = [] /\ (u' = false -> tre true (done ++ took))) /\ (v = false -> exists t rest', rest = t :: rest' /\ ~ ordinary t /\ (t = [41] -> tre true (done ++ took)))).
    { intros G R. pose proof (inv_good _ _ _ G I) as D. destruct (run ts CBranch false []) as [[[[u1 v1] sub] ts1]|] eqn:E; [|discriminate R]. destruct (IH ts CBranch [] false [] u1 v1 sub ts1 ltac:(lia)) as (took & T & Os & V & A & B); [cbn [inv]; constructor; constructor|exact E|]. cbn [app] in Os, A, B. subst sub.
      assert (Ig : inv CGroup (done ++ [40] :: took) ts1). { exists done, took. split; [reflexivity|]. split; [exact D|]. split; [exact V|]. destruct v1; [destruct (A eq_refl) as [-> _]; exact Logic.I|]. destruct (B eq_refl) as (t1 & r1 & -> & B1 & B2). auto. }
      assert (Lt : (length ts1 <= n)%nat) by (rewrite T, app_length in L; lia).
      destruct (IH ts1 CGroup _ u1 _ u' v o' rest Lt Ig R) as (took2 & T2 & O2 & V2 & A2 & B2). exists ([40] :: took ++ took2). cbn [app concat]. rewrite <- !app_assoc in V2, A2, B2. cbn [app] in V2, A2, B2. split; [rewrite T, T2, app_assoc; reflexivity|]. split; [rewrite O2, concat_app, <- !app_assoc; reflexivity|]. auto. }
    rewrite run_open in H. destruct c as [|m| | |x m]; [exact (Gr Logic.I H)|exact (Gr Logic.I H)|exact (Gr Logic.I H)| |].
    + apply Stop; [eapply Odd; [|reflexivity]; cbn; auto 9|discriminate|exact H].
    + eapply (Next (CRange (x ++ [40]) m)); [eapply Rng; [reflexivity|discriminate]|reflexivity|exact H].
  - rewrite run_close in H. assert (St : ~ ordinary [41]) by (eapply Odd; [|reflexivity]; cbn; auto 9). destruct c as [|m| | |x m].
    + apply Stop; [exact St|intros _; exact I|exact H].
    + apply Stop; [exact St|intros _; eapply inv_good; [|exact I]; exact Logic.I|exact H].
    + apply Stop; [exact St|intros _; eapply inv_good; [|exact I]; exact Logic.I|exact H].
    + eapply (Next (CPiece false)); [|reflexivity|exact H]. destruct I as (d & i & -> & D & _ & _ & Ti). exists d, ([40] :: i ++ [[41]]). rewrite <- app_assoc. split; [reflexivity|]. split; [exact D|]. constructor. exact (Ti eq_refl).
    + eapply (Next (CRange (x ++ [41]) m)); [eapply Rng; [reflexivity|discriminate]|reflexivity|exact H].
  - assert (B : good c -> inv (CRange [] false) (done ++ [[91]]) ts) by (intros G; exists done, []; split; [reflexivity|]; split; [exact (inv_good _ _ _ G I)|]; split; [constructor|reflexivity]).
    rewrite run_lb in H. destruct c as [|m| | |x m]; [eapply (Next (CRange [] false)); [exact (B Logic.I)|reflexivity|exact H]|eapply (Next (CRange [] false)); [exact (B Logic.I)|reflexivity|exact H]|eapply (Next (CRange [] false)); [exact (B Logic.I)|reflexivity|exact H]| |].
    + apply Stop; [eapply Odd; [|reflexivity]; cbn; auto 9|discriminate|exact H].
    + eapply (Next (CRange (x ++ [91]) m)); [eapply Rng; [reflexivity|discriminate]|reflexivity|exact H].
  - rewrite run_rb in H. assert (St : ~ ordinary [93]) by (eapply Odd; [|reflexivity]; cbn; auto 9). destruct c as [|m| | |x m]; try (apply Stop; [exact St|discriminate|exact H]).
    destruct (early x) eqn:E.
    + eapply (Next (CRange (x ++ [93]) m)); [eapply Rng; [reflexivity|auto]|reflexivity|exact H].
    + eapply (Next (CPiece m)); [|reflexivity|exact H]. destruct I as (d & xs & -> & D & B & ->). exists d, ([91] :: xs ++ [[93]]). rewrite <- app_assoc. split; [reflexivity|]. split; [exact D|]. constructor; assumption.
  - rewrite run_other in H by exact O. destruct c as [|m| | |x m].
    + eapply (Next CAtom); [|reflexivity|exact H]. exists done, [t]. split; [reflexivity|]. split; [exact I|]. constructor. exact O.
    + eapply (Next CAtom); [|reflexivity|exact H]. exists done, [t]. split; [reflexivity|]. split; [eapply inv_good; [|exact I]; exact Logic.I|]. constructor. exact O.
    + eapply (Next CAtom); [|reflexivity|exact H]. exists done, [t]. split; [reflexivity|]. split; [eapply inv_good; [|exact I]; exact Logic.I|]. constructor. exact O.
    + destruct I as (d & i & _ & _ & _ & Q & _). destruct (Q O).
    + eapply (Next (CRange (x ++ t) m)); [eapply Rng; [reflexivity|intros ->; destruct O; cbn; auto 9]|reflexivity|exact H].
Qed.

(** ** texts and tokens *)
Definition tok_ok (t : text) : Prop := (exists c, t = [c] /\ c <> 92) \/ exists d, t = [92; d] /\ d <> 93.
Lemma tokens_char c s : c <> 92 -> tokens (c :: s) = [c] :: tokens s.
Proof. intros N. cbn [tokens]. now replace (c =? 92) with false by lia. Qed.
Lemma tokens_pair c s : c <> 10 -> tokens (92 :: c :: s) = [92; c] :: tokens s.
Proof. intros N. cbn [tokens]. change (92 =? 92) with true. cbn [tokens]. now replace (c =? 10) with false by lia. Qed.
Lemma tokens_concat s : escaped s -> concat (tokens s) = s.
Proof. induction 1 as [|c s N E IH|c s N E IH]; [reflexivity| |]; [rewrite tokens_char by exact N|rewrite tokens_pair by exact N]; cbn [concat app]; now rewrite IH. Qed.
Lemma tokens_app a b : escaped a -> tokens (a ++ b) = tokens a ++ tokens b.
Proof. induction 1 as [|c s N E IH|c s N E IH]; [reflexivity| |]; cbn [app]; [rewrite !tokens_char by exact N|rewrite !tokens_pair by exact N]; now rewrite IH. Qed.
Lemma tokens_ok s : escaped s -> no_escaped_bracket s -> Forall tok_ok (tokens s).
Proof.
  induction 1 as [|c s N E IH|c s N E IH]; intros B; [constructor| |].
  - rewrite tokens_char by exact N. constructor; [left; eauto|]. apply IH. intros (a & b & ->). apply B. exists (c :: a), b. reflexivity.
  - rewrite tokens_pair by exact N. constructor; [right; exists c; split; [reflexivity|]; intros ->; apply B; exists [], s; reflexivity|]. apply IH. intros (a & b & ->). apply B. exists (92 :: c :: a), b. reflexivity.
Qed.
Lemma neb_l a b : no_escaped_bracket (a ++ b) -> no_escaped_bracket a.
Proof. intros N (x & y & ->). apply N. exists x, (y ++ b). now rewrite <- !app_assoc. Qed.
Lemma neb_r a b : no_escaped_bracket (a ++ b) -> no_escaped_bracket b.
Proof. intros N (x & y & ->). apply N. exists (a ++ x), y. now rewrite <- !app_assoc. Qed.
Lemma escaped_char c s : c <> 92 -> escaped (c :: s) -> escaped s.
Proof. intros N H. inversion H; subst; [assumption|contradiction]. Qed.
Lemma escaped_split n : forall x y, (length x <= n)%nat -> escaped (x ++ y) -> (forall z, x <> z ++ [92]) -> escaped x /\ escaped y.
Proof.
  induction n as [|n IH]; intros x y L E N; (destruct x as [|c x]; [split; [constructor|exact E]|]); [cbn [length] in L; lia|]. cbn [length app] in L, E.
  inversion E as [|c' s' Nc Es|c' s' Nc Es]; subst.
  - destruct (IH x y ltac:(lia) Es) as [A B]; [intros z ->; exact (N (c :: z) eq_refl)|]. split; [now constructor|exact B].
  - destruct x as [|d x]; [destruct (N [] eq_refl)|]. match goal with Q : _ :: _ = (_ :: _) ++ _ |- _ => cbn [app] in Q; injection Q as <- -> end. destruct (IH x y ltac:(cbn [length] in L; lia) Es) as [A B]; [intros z ->; exact (N (92 :: c' :: z) eq_refl)|]. split; [now constructor|exact B].
Qed.
Lemma tbody_iff xs : tbody xs <-> forall p q, xs = p ++ [93] :: q -> early (concat p) = true.
Proof.
  induction xs as [|t xs IH] using rev_ind.
  - split; [intros _ [|] q Q; discriminate Q|constructor].
  - split.
    + intros B p q Q. remember (xs ++ [t]) as l eqn:El. destruct B as [|xs' t' B' E']; [destruct xs; discriminate El|]. apply app_inj_tail in El as [-> ->]. destruct (exists_last (l := [93] :: q) ltac:(discriminate)) as (q' & z & Hz). rewrite Hz, app_assoc in Q. apply app_inj_tail in Q as [Q ->].
      destruct q' as [|h q']; cbn [app] in Hz; injection Hz as Hh Hq; [rewrite app_nil_r in Q; rewrite <- Q; apply E'; symmetry; exact Hh|]. subst h. exact (proj1 IH B' p q' Q).
    + intros H. constructor; [apply IH; intros p q ->; apply (H p (q ++ [t])); now rewrite <- app_assoc|]. intros ->. apply (H xs []). reflexivity.
Qed.
Lemma early_spec x : early x = true <-> x = [] \/ x = [94].
Proof. unfold early. now rewrite orb_true_iff, !zlist_eqb_spec. Qed.
Lemma body_tokens xs : range_body (concat xs) -> tbody xs /\ early (concat xs) = false.
Proof.
  intros (c & t & H & N). split.
  - apply tbody_iff. intros p q ->. rewrite concat_app in H. cbn [concat app] in H. apply early_spec. destruct (concat p) as [|a [|b l]]; [auto| |].
    + cbn [app] in H. destruct H as [[H Hc]|H]; [injection H as _ H; destruct N; rewrite <- H; left; reflexivity|injection H as -> _ _; auto].
    + cbn [app] in H. destruct N. destruct H as [[H _]|H]; [injection H as _ H; rewrite <- H; right; apply in_or_app; right; left; reflexivity|injection H as _ _ H; rewrite <- H; apply in_or_app; right; left; reflexivity].
  - destruct (early (concat xs)) eqn:E; [|reflexivity]. apply early_spec in E. destruct E as [E|E]; rewrite E in H; destruct H as [[H Hc]|H]; try discriminate H. injection H as <- _. contradiction.
Qed.
Lemma own_token xs : forall a b, Forall tok_ok xs -> concat xs = a ++ 93 :: b -> exists p q, xs = p ++ [93] :: q /\ concat p = a.
Proof.
  induction xs as [|t xs IH]; intros a b F E; [destruct a; discriminate E|]. destruct (Forall_inv F) as [(c & -> & Nc)|(d & -> & Nd)]; cbn [concat app] in E.
  - destruct a as [|z a]; injection E as -> E; [exists [], xs; auto|]. destruct (IH a b (Forall_inv_tail F) E) as (p & q & -> & <-). exists ([z] :: p), q. auto.
  - destruct a as [|z a]; [discriminate E|]. destruct a as [|z' a]; injection E as <- E; [congruence|]. subst z'. destruct (IH a b (Forall_inv_tail F) H) as (p & q & -> & <-). exists ([92; d] :: p), q. auto.
Qed.
Lemma body_text xs : Forall tok_ok xs -> tbody xs -> early (concat xs) = false -> range_body (concat xs).
Proof.
  intros F B E. rewrite tbody_iff in B. destruct (concat xs) as [|c t] eqn:X; [discriminate E|]. destruct (Z.eq_dec c 94) as [->|Nc].
  - destruct t as [|c t]; [discriminate E|]. exists c, t. split; [auto|]. intros I. apply in_split in I as (a & b & ->). destruct (own_token xs (94 :: c :: a) b F X) as (p & q & Hp & Hc). apply B in Hp. rewrite Hc in Hp. apply early_spec in Hp. destruct Hp as [Hp|Hp]; discriminate Hp.
  - exists c, t. split; [auto|]. intros I. apply in_split in I as (a & b & ->). destruct (own_token xs (c :: a) b F X) as (p & q & Hp & Hc). apply B in Hp. rewrite Hc in Hp. apply early_spec in Hp. destruct Hp as [Hp|Hp]; [discriminate Hp|]. injection Hp as Hp _. contradiction.
Qed.
Lemma in_token c (xs : list text) : In [c] xs -> In c (concat xs).
Proof. intros I. apply in_concat. exists [c]. split; [exact I|left; reflexivity]. Qed.
(** from texts to tokens *)
Lemma to_tokens bars :
  (forall r, regex bars r -> forall t, escaped (r ++ t) -> no_escaped_bracket (r ++ t) -> escaped r /\ escaped t /\ tre bars (tokens r)) /\
  (forall r, branch bars r -> forall t, escaped (r ++ t) -> no_escaped_bracket (r ++ t) -> escaped r /\ escaped t /\ tbr bars (tokens r)) /\
  (forall r, piece bars r -> forall t, escaped (r ++ t) -> no_escaped_bracket (r ++ t) -> escaped r /\ escaped t /\ tpc bars (tokens r)) /\
  (forall r, atom bars r -> forall t, escaped (r ++ t) -> no_escaped_bracket (r ++ t) -> escaped r /\ escaped t /\ tat bars (tokens r)).
Proof.
  assert (J : forall a b, escaped a -> escaped b -> escaped (a ++ b)) by (intros a b A; revert b; induction A as [|c s N E IH|c s N E IH]; intros b B; cbn [app]; [exact B|constructor; auto|constructor; auto]).
  apply rall.
  - intros b _ IH t E N. destruct (IH t E N) as (A & B & C). split; [exact A|]. split; [exact B|]. now constructor.
  - intros b r _ IHb _ IHr t E N. rewrite <- app_assoc in E, N. destruct (IHb _ E N) as (A & B & C). cbn [app] in B. apply neb_r in N. rewrite <- app_assoc in N. apply neb_r in N. destruct (IHr t (escaped_char 124 _ ltac:(lia) B) N) as (A2 & B2 & C2).
    split; [apply J; [exact A|]; constructor; [lia|exact A2]|]. split; [exact B2|]. rewrite tokens_app by exact A. cbn [app]. rewrite tokens_char by lia. now constructor.
  - intros t E N. split; [constructor|]. split; [exact E|]. constructor.
  - intros p b _ IHp _ IHb t E N. rewrite <- app_assoc in E, N. destruct (IHp _ E N) as (A & B & C). apply neb_r in N. destruct (IHb t B N) as (A2 & B2 & C2). split; [apply J; assumption|]. split; [exact B2|]. rewrite tokens_app by exact A. now constructor.
  - intros a _ IH t E N. destruct (IH t E N) as (A & B & C). split; [exact A|]. split; [exact B|]. now constructor.
  - intros a c _ IH I Nb t E N. rewrite <- app_assoc in E, N. destruct (IH _ E N) as (A & B & C). assert (Nc : c <> 92) by (cbn in I; lia). cbn [app] in B. apply escaped_char in B; [|exact Nc]. split; [apply J; [exact A|constructor; [exact Nc|constructor]]|]. split; [exact B|]. rewrite tokens_app by exact A. rewrite tokens_char by exact Nc. cbn [tokens].
    constructor; [exact C|cbn [In] in I |- *; repeat destruct I as [<-|I]; try contradiction; tauto|]. intros Fb xs Hx. pose proof (tokens_concat a A) as Ca. rewrite Hx in Ca. cbn [concat] in Ca. rewrite concat_snoc in Ca. intros I2. apply (Nb Fb (concat xs)); [now rewrite <- Ca| |exact (in_token _ _ I2)].
    rewrite Hx in C. assert (F : Forall tok_ok xs). { pose proof (tokens_ok a A (neb_l _ _ N)) as F. rewrite Hx in F. apply Forall_inv_tail in F. now apply Forall_app in F. }
    remember ([91] :: xs ++ [[93]]) as l eqn:El. destruct C as [r Hr|xs' B' E'|t' O']; [discriminate El| |injection El as _ El; destruct xs; discriminate El]. injection El as El. apply app_inj_tail in El as [-> _]. now apply body_text.
  - intros r _ IH t E N. cbn [app] in E, N. apply escaped_char in E; [|lia]. rewrite <- app_assoc in E. change (40 :: (r ++ [41]) ++ t) with ([40] ++ (r ++ [41]) ++ t) in N. apply neb_r in N. rewrite <- app_assoc in N. destruct (IH _ E N) as (A & B & C). apply escaped_char in B; [|lia].
    split; [constructor; [lia|]; apply J; [exact A|constructor; [lia|constructor]]|]. split; [exact B|]. cbn [app]. rewrite tokens_char by lia. rewrite tokens_app by exact A. constructor. exact C.
  - intros x Rx t E N. cbn [app] in E, N. apply escaped_char in E; [|lia]. rewrite <- app_assoc in E. assert (N1 : no_escaped_bracket (x ++ [93] ++ t)) by (change (91 :: (x ++ [93]) ++ t) with ([91] ++ (x ++ [93]) ++ t) in N; apply neb_r in N; now rewrite <- app_assoc in N).
    destruct (escaped_split (length x) x ([93] ++ t) (le_n _) E) as [A B]. { intros z ->. apply N1. exists z, t. now rewrite <- app_assoc. } apply escaped_char in B; [|lia].
    split; [constructor; [lia|]; apply J; [exact A|constructor; [lia|constructor]]|]. split; [exact B|]. cbn [app]. rewrite tokens_char by lia. rewrite tokens_app by exact A. rewrite <- (tokens_concat x A) in Rx. destruct (body_tokens _ Rx) as [T1 T2]. change (tokens [93]) with [[93]]. now constructor.
  - intros c Nc t E N. assert (c <> 92) by (intros ->; apply Nc; cbn; tauto). cbn [app] in E. apply escaped_char in E; [|assumption]. split; [constructor; [assumption|constructor]|]. split; [exact E|]. rewrite tokens_char by assumption. cbn [tokens]. constructor.
    intros I. apply Nc. cbn [In special] in *. repeat (destruct I as [I|I]; [injection I as <-; tauto|]). contradiction.
  - intros c t E N. cbn [app] in E. inversion E as [|c' s' Q _|c' s' Q Es]; subst; [contradiction|]. split; [constructor; [exact Q|constructor]|]. split; [exact Es|]. rewrite tokens_pair by exact Q. cbn [tokens]. constructor. intros I. cbn [In] in I. repeat (destruct I as [I|I]; [discriminate I|]). contradiction.
Qed.
(** from tokens to texts *)
Lemma of_tokens :
  (forall r, tre true r -> Forall tok_ok r -> regex true (concat r)) /\ (forall r, tbr true r -> Forall tok_ok r -> branch true (concat r)) /\
  (forall r, tpc true r -> Forall tok_ok r -> piece true (concat r)) /\ (forall r, tat true r -> Forall tok_ok r -> atom true (concat r)).
Proof.
  apply tall.
  - intros b _ IH F. constructor. auto.
  - intros b r _ IHb _ IHr F. apply Forall_app in F as [F1 F2]. rewrite concat_app. cbn [concat]. constructor; [auto|]. apply IHr. exact (Forall_inv_tail F2).
  - intros _. constructor.
  - intros p b _ IHp _ IHb F. apply Forall_app in F as [F1 F2]. rewrite concat_app. constructor; auto.
  - intros a _ IH F. constructor. auto.
  - intros a c _ IH I _ F. apply Forall_app in F as [F1 _]. rewrite concat_snoc. cbn [In] in I. repeat destruct I as [<-|I]; try contradiction; (constructor; [auto|cbn; tauto|discriminate]).
  - intros r _ IH F. apply Forall_inv_tail in F. apply Forall_app in F as [F _]. cbn [concat]. rewrite concat_snoc. constructor. auto.
  - intros xs B E F. apply Forall_inv_tail in F. apply Forall_app in F as [F _]. cbn [concat]. rewrite concat_snoc. constructor. now apply body_text.
  - intros t O F. cbn [concat]. rewrite app_nil_r. destruct (Forall_inv F) as [(c & -> & Nc)|(d & -> & _)]; constructor. intros I. cbn [In special] in I. repeat (destruct I as [<-|I]; [try contradiction; apply O; cbn; tauto|]). contradiction.
Qed.
Lemma loop_out : forall f ts c u o u' v o' rest, loop f ts c u o = Some (u', v, o', rest) -> exists x, o' = o ++ x.
Proof.
  induction f as [|f IH]; intros ts c u o u' v o' rest H; [discriminate H|]. destruct ts as [|t ts]; cbn [loop] in H; [injection H as _ _ <- _; exists []; now rewrite app_nil_r|].
  assert (G : forall c' u2 y ts2, loop f ts2 c' u2 (o ++ y) = Some (u', v, o', rest) -> exists x, o' = o ++ x) by (intros c' u2 y ts2 Q; apply IH in Q as [x ->]; exists (y ++ x); now rewrite app_assoc).
  assert (I : Some (u, false, o, t :: ts) = Some (u', v, o', rest) -> exists x, o' = o ++ x) by (intros Q; injection Q as _ _ <- _; exists []; now rewrite app_nil_r).
  repeat match type of H with (if ?b then _ else _) = _ => destruct b end; destruct c as [|[]| | |x n]; eauto; try discriminate H; try (match type of H with (if ?b then _ else _) = _ => destruct b end; eauto);
  (destruct (loop f ts CBranch false []) as [[[[u1 v1] s1] ts1]|] eqn:E; [|discriminate H]; eauto).
Qed.
Lemma loop_true : forall f ts v o' rest, loop f ts CBranch false [] = Some (true, v, o', rest) -> o' <> [] \/ exists x, In [] ts /\ x = tt.
Proof.
  intros [|f] ts v o' rest H; [discriminate H|]. destruct ts as [|t ts]; cbn [loop] in H; [discriminate H|]. destruct t as [|a t]; [right; exists tt; split; [left; reflexivity|reflexivity]|]. left.
  assert (G : forall c' u2 y ts2, loop f ts2 c' u2 ([] ++ (a :: t) ++ y) = Some (true, v, o', rest) -> o' <> []) by (intros c' u2 y ts2 Q; apply loop_out in Q as [x ->]; discriminate).
  assert (G' : forall c' u2 ts2, loop f ts2 c' u2 ([] ++ (a :: t)) = Some (true, v, o', rest) -> o' <> []) by (intros c' u2 ts2 Q; apply loop_out in Q as [x ->]; discriminate).
  repeat match type of H with (if ?b then _ else _) = _ => destruct b end; try discriminate H; eauto.
  destruct (loop f ts CBranch false []) as [[[[u1 v1] s1] ts1]|] eqn:E; [|discriminate H]; eauto.
Qed.
