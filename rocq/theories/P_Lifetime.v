(** C112: what is still there when an attribute of a key, user id, subkey or signature is asked for. *)
From Coq Require Import Lia.
From Verif Require Import Base BaseProofs Text Lifetime SpecLifetime.

(** ** Heaps *)
Lemma put_length h r o : length (put h r o) = length h.
Proof. revert r. induction h as [|x t IH]; intros [|r]; cbn; congruence. Qed.
Lemma put_nth h r o x : nth_error (put h r o) x = if Nat.eqb x r then match nth_error h x with Some _ => Some o | None => None end else nth_error h x.
Proof. revert r x. induction h as [|y t IH]; intros [|r] [|x]; cbn; try reflexivity. - destruct (Nat.eqb x r); reflexivity. - apply IH. Qed.
Lemma append_length h l x : length (append h l x) = length h.
Proof. unfold append. destruct (nth_error h l) as [[]|]; try reflexivity. apply put_length. Qed.
Lemma append_nth h l x k it y : nth_error h l = Some (OList k it) -> nth_error (append h l x) y = if Nat.eqb y l then Some (OList k (it ++ [x])) else nth_error h y.
Proof. intros E. unfold append. rewrite E, put_nth. destruct (Nat.eqb y l) eqn:B; [|reflexivity]. apply Nat.eqb_eq in B. subst. rewrite E. reflexivity. Qed.
Lemma nth_old {A} (h t : list A) x o : nth_error h x = Some o -> nth_error (h ++ t) x = Some o.
Proof. intros E. rewrite nth_error_app1; [exact E|]. apply nth_error_Some. congruence. Qed.
Lemma nth_new {A} (h t : list A) i : nth_error (h ++ t) (length h + i) = nth_error t i.
Proof. rewrite nth_error_app2 by lia. f_equal. lia. Qed.
Lemma nth_lt {A} (h : list A) x o : nth_error h x = Some o -> (x < length h)%nat.
Proof. intros E. apply nth_error_Some. congruence. Qed.

(** lists grow, everything else stays *)
Definition ext (h h' : heap) : Prop :=
  forall x o, nth_error h x = Some o -> match o with OList k it => exists more, nth_error h' x = Some (OList k (it ++ more)) | _ => nth_error h' x = Some o end.
Lemma ext_refl h : ext h h.
Proof. intros x [] E; try exact E. exists []. rewrite app_nil_r. exact E. Qed.
Lemma ext_trans a b c : ext a b -> ext b c -> ext a c.
Proof.
  intros A B x o E. specialize (A x o E). destruct o; try exact (B _ _ A). destruct A as (m & A). specialize (B _ _ A). cbn in B. destruct B as (m' & B). exists (m ++ m'). rewrite app_assoc. exact B.
Qed.
Lemma ext_app h t : ext h (h ++ t).
Proof. intros x [] E; try (apply nth_old; exact E). exists []. rewrite app_nil_r. apply nth_old; exact E. Qed.
Lemma ext_append h l x : ext h (append h l x).
Proof.
  unfold append. destruct (nth_error h l) as [[]|] eqn:E; try apply ext_refl. intros y o Ey. rewrite put_nth, Ey. destruct (Nat.eqb y l) eqn:B.
  - apply Nat.eqb_eq in B. subst. rewrite E in Ey. injection Ey as <-. eexists. reflexivity.
  - destruct o; try reflexivity. exists []. rewrite app_nil_r. reflexivity.
Qed.
Lemma ext_other h h' x o : ext h h' -> nth_error h x = Some o -> match o with OList _ _ => False | _ => True end -> nth_error h' x = Some o.
Proof. intros X E N. specialize (X x o E). destruct o; try exact X. contradiction. Qed.
Lemma ext_list h h' x k it : ext h h' -> nth_error h x = Some (OList k it) -> exists more, nth_error h' x = Some (OList k (it ++ more)).
Proof. intros X E. exact (X _ _ E). Qed.
Lemma ext_kind h h' x o k : ext h h' -> nth_error h x = Some o -> kind_of o = Some k -> nth_error h' x = Some o.
Proof. intros X E K. eapply ext_other; eauto. destruct o; try exact Logic.I. discriminate. Qed.

(** ** Types *)
Definition is_list (h : heap) (k : lkind) (l : ref) : Prop := exists it, nth_error h l = Some (OList k it).
Definition keyref (h : heap) (p : ref) : Prop := is_key h p = true.
Definition okobj (h : heap) (o : obj) : Prop :=
  match o with
  | OList k it => Forall (fun y => exists o', nth_error h y = Some o' /\ kind_of o' = Some k) it
  | OKey _ _ s u a c => is_list h Sigs s /\ is_list h Users u /\ is_list h Users a /\ is_list h Subs c
  | OSub _ _ p s => is_list h Sigs s /\ keyref h p
  | OUser _ p s => is_list h Sigs s /\ keyref h p
  | OSig _ t => exists o', nth_error h t = Some o' /\ (is_key h t = true \/ is_part o' = true)
  end.
Definition typed (h : heap) : Prop := forall x o, nth_error h x = Some o -> okobj h o.
Lemma keyref_inv h p : keyref h p -> exists b i s u a c, nth_error h p = Some (OKey b i s u a c).
Proof. unfold keyref, is_key. destruct (nth_error h p) as [[]|]; try discriminate. intros _. do 6 eexists. reflexivity. Qed.
Lemma is_list_ext h h' k l : ext h h' -> is_list h k l -> is_list h' k l.
Proof. intros X (it & E). destruct (ext_list _ _ _ _ _ X E) as (m & E'). eexists. exact E'. Qed.
Lemma keyref_ext h h' p : ext h h' -> keyref h p -> keyref h' p.
Proof. intros X K. destruct (keyref_inv _ _ K) as (b & i & s & u & a & c & E). unfold keyref, is_key. rewrite (ext_other _ _ _ _ X E Logic.I). reflexivity. Qed.
Lemma okobj_ext h h' o : ext h h' -> okobj h o -> okobj h' o.
Proof.
  intros X. destruct o; cbn.
  - apply Forall_impl. intros y (o' & E & K). exists o'. split; [|exact K]. exact (ext_kind _ _ _ _ _ X E K).
  - intros (A & B & C & D). repeat split; eapply is_list_ext; eauto.
  - intros (A & B). split; [eapply is_list_ext|eapply keyref_ext]; eauto.
  - intros (A & B). split; [eapply is_list_ext|eapply keyref_ext]; eauto.
  - intros (o' & E & K). exists o'. destruct K as [K|K].
    + destruct (keyref_inv _ _ K) as (b & i & s & u & a & c & E2). rewrite E in E2. injection E2 as ->. split; [exact (ext_other _ _ _ _ X E Logic.I)|]. left. exact (keyref_ext _ _ _ X K).
    + split; [|right; exact K]. eapply ext_other; [exact X|exact E|]. destruct o'; try discriminate; exact Logic.I.
Qed.
Lemma typed_app h t : typed h -> Forall (okobj (h ++ t)) t -> typed (h ++ t).
Proof.
  intros T F x o E. destruct (Nat.lt_ge_cases x (length h)) as [L|L].
  - rewrite nth_error_app1 in E by exact L. exact (okobj_ext _ _ _ (ext_app h t) (T _ _ E)).
  - rewrite nth_error_app2 in E by exact L. apply nth_error_In in E. rewrite Forall_forall in F. exact (F _ E).
Qed.
Lemma typed_append h l x k it o : typed h -> nth_error h l = Some (OList k it) -> nth_error h x = Some o -> kind_of o = Some k -> typed (append h l x).
Proof.
  intros T El Ex K y o' E. rewrite (append_nth _ _ _ _ _ y El) in E. pose proof (ext_append h l x) as X. destruct (Nat.eqb y l) eqn:B.
  - injection E as <-. apply Forall_app. split.
    + exact (okobj_ext _ _ (OList k it) X (T _ _ El)).
    + constructor; [|constructor]. exists o. split; [|exact K]. exact (ext_kind _ _ _ _ _ X Ex K).
  - exact (okobj_ext _ _ _ X (T _ _ E)).
Qed.

(** ** Construction *)
Definition frame (l : ref) (h h' : heap) : Prop := (length h <= length h')%nat /\ forall y, (y < length h)%nat -> y <> l -> nth_error h' y = nth_error h y.
Lemma frame_trans l h1 h2 h3 : frame l h1 h2 -> frame l h2 h3 -> frame l h1 h3.
Proof. intros (A & B) (C & D). split; [lia|]. intros y L N. rewrite D by (lia || assumption). apply B; assumption. Qed.
Lemma build_sigs_ok sigs : forall h l t it, typed h -> nth_error h l = Some (OList Sigs it) ->
  (exists o, nth_error h t = Some o /\ (is_key h t = true \/ is_part o = true)) ->
  let h' := build_sigs h l t sigs in
  typed h' /\ ext h h' /\ frame l h h' /\ exists new, nth_error h' l = Some (OList Sigs (it ++ new)) /\ Forall2 (fun x is => nth_error h' x = Some (OSig is t)) new sigs.
Proof.
  induction sigs as [|s r IH]; intros h l t it T El Et; cbn [build_sigs].
  { cbv zeta. split; [exact T|]. split; [apply ext_refl|]. split; [split; auto|]. exists []. rewrite app_nil_r. split; [exact El|constructor]. }
  set (n := length h). set (h1 := append (h ++ [OSig s t]) l n).
  assert (L : (l < n)%nat) by (apply nth_lt in El; exact El).
  assert (El' : nth_error (h ++ [OSig s t]) l = Some (OList Sigs it)) by (apply nth_old; exact El).
  assert (En : nth_error (h ++ [OSig s t]) n = Some (OSig s t)) by (unfold n; rewrite nth_error_app2, Nat.sub_diag by lia; reflexivity).
  assert (X0 : ext h h1) by (eapply ext_trans; [apply ext_app|apply ext_append]).
  assert (T0 : typed (h ++ [OSig s t])).
  { apply typed_app; [exact T|]. constructor; [|constructor]. apply (okobj_ext h); [apply ext_app|]. exact Et. }
  assert (T1 : typed h1) by (eapply typed_append; [exact T0|exact El'|exact En|reflexivity]).
  assert (El1 : nth_error h1 l = Some (OList Sigs (it ++ [n]))) by (unfold h1; rewrite (append_nth _ _ _ _ _ _ El'), Nat.eqb_refl; reflexivity).
  assert (En1 : nth_error h1 n = Some (OSig s t)).
  { unfold h1. rewrite (append_nth _ _ _ _ _ _ El'). replace (Nat.eqb n l) with false by (symmetry; apply Nat.eqb_neq; lia). exact En. }
  assert (Et1 : exists o, nth_error h1 t = Some o /\ (is_key h1 t = true \/ is_part o = true)) by (exact (okobj_ext _ _ (OSig s t) X0 Et)).
  destruct (IH h1 l t (it ++ [n]) T1 El1 Et1) as (T2 & X2 & F2 & new & E2 & Q2). cbv zeta in *.
  split; [exact T2|]. split; [eapply ext_trans; eauto|]. split.
  - apply (frame_trans l h h1); [|exact F2]. split.
    + unfold h1. rewrite append_length, app_length. lia.
    + intros y Ly Ny. unfold h1. rewrite (append_nth _ _ _ _ _ _ El'). replace (Nat.eqb y l) with false by (symmetry; apply Nat.eqb_neq; lia). apply nth_error_app1. exact Ly.
  - exists (n :: new). rewrite <- app_assoc in E2. split; [exact E2|]. constructor; [|exact Q2]. exact (ext_other _ _ _ _ X2 En1 Logic.I).
Qed.

(** a maker of parts of the key [k]: user ids, user attributes or subkeys *)
Definition maker (k : ref) (lk : lkind) (mk : text -> ref -> obj) : Prop :=
  (lk = Users /\ forall t sl, mk t sl = OUser t k sl) \/ (lk = Subs /\ exists b, forall t sl, mk t sl = OSub b t k sl).
Lemma maker_ok k lk mk h t sl : maker k lk mk -> keyref h k -> is_list h Sigs sl -> okobj h (mk t sl) /\ kind_of (mk t sl) = Some lk /\ is_part (mk t sl) = true.
Proof. intros [(-> & M)|(-> & b & M)] K L; rewrite M; cbn; auto. Qed.
Lemma maker_other k lk mk t sl : maker k lk mk -> match mk t sl with OList _ _ => False | _ => True end.
Proof. intros [(-> & M)|(-> & b & M)]; rewrite M; exact Logic.I. Qed.

Lemma sigs_exact_frame h h' sl x sigs l : frame l h h' -> sl <> l -> (forall y is, nth_error h y = Some (OSig is x) -> y <> l) -> sigs_as true h sl x sigs -> sigs_as true h' sl x sigs.
Proof.
  intros (FL & F) N Ny (items & (more & E & Z) & Q). exists items. split.
  - exists more. split; [|exact Z]. rewrite F; [exact E|apply nth_lt in E; exact E|exact N].
  - clear - FL F Ny Q. induction Q as [|y is ys iss Q1 Q IH]; constructor; [|exact IH]. rewrite F; [exact Q1|exact (nth_lt _ _ _ Q1)|exact (Ny _ _ Q1)].
Qed.

Lemma build_part_ok h l k lk mk p it : typed h -> nth_error h l = Some (OList lk it) -> maker k lk mk -> keyref h k ->
  let h' := build_part h l mk p in
  typed h' /\ ext h h' /\ frame l h h' /\ exists x sl, (length h <= sl)%nat /\ nth_error h' l = Some (OList lk (it ++ [x])) /\ nth_error h' x = Some (mk (fst p) sl) /\ sigs_as true h' sl x (snd p).
Proof.
  intros T El M K. cbv zeta. unfold build_part. set (n := length h). set (h0 := h ++ [OList Sigs []; mk (fst p) n]).
  assert (L : (l < n)%nat) by (apply nth_lt in El; exact El).
  assert (El0 : nth_error h0 l = Some (OList lk it)) by (apply nth_old; exact El).
  assert (E0 : nth_error h0 n = Some (OList Sigs [])) by (unfold h0, n; rewrite nth_error_app2, Nat.sub_diag by lia; reflexivity).
  assert (E1 : nth_error h0 (S n) = Some (mk (fst p) n)) by (unfold h0; replace (S n) with (length h + 1)%nat by (unfold n; lia); rewrite nth_new; reflexivity).
  assert (X0 : ext h h0) by apply ext_app.
  assert (K0 : keyref h0 k) by (exact (keyref_ext _ _ _ X0 K)).
  destruct (maker_ok k lk mk h0 (fst p) n M K0 (ex_intro _ _ E0)) as (Om & Km & Pm).
  assert (T0 : typed h0) by (apply typed_app; [exact T|]; constructor; [constructor|]; constructor; [exact Om|constructor]).
  set (h1 := append h0 l (S n)).
  assert (X1 : ext h0 h1) by apply ext_append.
  assert (T1 : typed h1) by (eapply typed_append; [exact T0|exact El0|exact E1|exact Km]).
  assert (N1 : forall y, nth_error h1 y = if Nat.eqb y l then Some (OList lk (it ++ [S n])) else nth_error h0 y) by (intros y; apply append_nth; exact El0).
  assert (E1n : nth_error h1 n = Some (OList Sigs [])) by (rewrite N1; replace (Nat.eqb n l) with false by (symmetry; apply Nat.eqb_neq; lia); exact E0).
  assert (E1s : nth_error h1 (S n) = Some (mk (fst p) n)) by (rewrite N1; replace (Nat.eqb (S n) l) with false by (symmetry; apply Nat.eqb_neq; lia); exact E1).
  destruct (build_sigs_ok (snd p) h1 n (S n) [] T1 E1n (ex_intro _ _ (conj E1s (or_intror Pm)))) as (T2 & X2 & F2 & new & E2 & Q2). cbv zeta in *.
  assert (F1 : frame l h h1).
  { split; [unfold h1; rewrite append_length; unfold h0; rewrite app_length; lia|]. intros y Ly Ny. rewrite N1. replace (Nat.eqb y l) with false by (symmetry; apply Nat.eqb_neq; lia). apply nth_error_app1. exact Ly. }
  split; [exact T2|]. split; [eapply ext_trans; [exact X0|]; eapply ext_trans; eauto|]. split.
  - destruct F1 as (A & B), F2 as (C & D). split; [lia|]. intros y Ly Ny. rewrite D; [apply B; assumption|lia|]. unfold n. lia.
  - exists (S n), n. split; [unfold n; lia|]. split.
    + destruct F2 as (C & D). rewrite D; [|apply nth_error_Some; rewrite N1, Nat.eqb_refl; discriminate|lia]. rewrite N1, Nat.eqb_refl. reflexivity.
    + split; [exact (ext_other _ _ _ _ X2 E1s (maker_other _ _ _ _ _ M))|]. exists new. split; [|exact Q2]. exists []. split; [|auto]. rewrite app_nil_r. exact E2.
Qed.
Definition part_is (h : heap) (mk : text -> ref -> obj) (x : ref) (p : text * list (list text)) : Prop :=
  exists sl, nth_error h x = Some (mk (fst p) sl) /\ sigs_as true h sl x (snd p).
Lemma part_frame h h' l lk it mk k x p : maker k lk mk -> frame l h h' -> nth_error h l = Some (OList lk it) -> lk <> Sigs -> part_is h mk x p -> part_is h' mk x p.
Proof.
  intros M F El Nk (sl & E & S). exists sl. split.
  - destruct F as (FL & F). rewrite F; [exact E|exact (nth_lt _ _ _ E)|]. intros ->. rewrite El in E. injection E as E. pose proof (maker_other k lk mk (fst p) sl M) as O. rewrite <- E in O. exact O.
  - apply (sigs_exact_frame h h' sl x (snd p) l F); [| |exact S].
    + intros ->. destruct S as (i & (m & E2 & _) & _). rewrite El in E2. injection E2 as E2 _. exact (Nk E2).
    + intros y is Ey ->. rewrite El in Ey. discriminate.
Qed.
Lemma build_parts_ok ps : forall h l k lk mk it, typed h -> nth_error h l = Some (OList lk it) -> maker k lk mk -> lk <> Sigs -> keyref h k ->
  let h' := build_parts h l mk ps in
  typed h' /\ ext h h' /\ frame l h h' /\ exists new, nth_error h' l = Some (OList lk (it ++ new)) /\ Forall2 (part_is h' mk) new ps.
Proof.
  induction ps as [|p r IH]; intros h l k lk mk it T El M Nk K; cbv zeta; cbn [build_parts].
  { split; [exact T|]. split; [apply ext_refl|]. split; [split; auto|]. exists []. rewrite app_nil_r. split; [exact El|constructor]. }
  destruct (build_part_ok h l k lk mk p it T El M K) as (T1 & X1 & F1 & x & sl & L1 & E1 & P1 & S1). cbv zeta in *.
  destruct (IH _ l k lk mk (it ++ [x]) T1 E1 M Nk (keyref_ext _ _ _ X1 K)) as (T2 & X2 & F2 & new & E2 & Q2). cbv zeta in *.
  split; [exact T2|]. split; [eapply ext_trans; eauto|]. split; [eapply frame_trans; eauto|].
  exists (x :: new). rewrite <- app_assoc in E2. split; [exact E2|]. constructor; [|exact Q2].
  eapply part_frame; [exact M|exact F2|exact E1|exact Nk|]. exists sl. split; assumption.
Qed.
Lemma list_frame h h' l m k it : frame l h h' -> m <> l -> nth_error h m = Some (OList k it) -> nth_error h' m = Some (OList k it).
Proof. intros (FL & F) N E. rewrite F; [exact E|exact (nth_lt _ _ _ E)|exact N]. Qed.
Lemma parts_frame h h' l lk it mk k new ps : maker k lk mk -> frame l h h' -> (exists lk', nth_error h l = Some (OList lk' it) /\ lk' <> Sigs) -> Forall2 (part_is h mk) new ps -> Forall2 (part_is h' mk) new ps.
Proof.
  intros M F (lk' & El & Nk) Q. induction Q as [|x p xs ps Q1 Q IH]; constructor; [|exact IH].
  destruct Q1 as (sl & E & S). exists sl. split.
  - destruct F as (FL & F). rewrite F; [exact E|exact (nth_lt _ _ _ E)|]. intros ->. rewrite El in E. injection E as E. pose proof (maker_other k lk mk (fst p) sl M) as O. rewrite <- E in O. exact O.
  - apply (sigs_exact_frame h h' sl x (snd p) l F); [| |exact S].
    + intros ->. destruct S as (i & (m & E2 & _) & _). rewrite El in E2. injection E2 as E2 _. exact (Nk E2).
    + intros y is Ey ->. rewrite El in Ey. discriminate.
Qed.
Lemma read_ok h b d h' k : typed h -> read_key h b d = (h', k) ->
  typed h' /\ ext h h' /\ k = (4 + length h)%nat /\ as_read true h' k b d /\ (forall y, (y < length h)%nat -> nth_error h' y = nth_error h y).
Proof.
  intros T E. unfold read_key in E. set (n := length h) in *. cbv zeta in E.
  set (h0 := h ++ [OList Sigs []; OList Users []; OList Users []; OList Subs []; OKey b (d_id d) n (1 + n) (2 + n) (3 + n)]%nat) in E.
  set (h1 := build_sigs h0 n (4 + n)%nat (d_sigs d)) in E.
  set (h2 := build_parts h1 (1 + n)%nat (fun t sl => OUser t (4 + n)%nat sl) (d_users d)) in E.
  set (h3 := build_parts h2 (2 + n)%nat (fun t sl => OUser t (4 + n)%nat sl) (d_attrs d)) in E.
  assert (Z : forall i, nth_error h0 (i + n)%nat = nth_error [OList Sigs []; OList Users []; OList Users []; OList Subs []; OKey b (d_id d) n (1 + n) (2 + n) (3 + n)]%nat i).
  { intros i. rewrite (Nat.add_comm i n). exact (nth_new h _ i). }
  assert (Z0 := Z 0%nat). assert (Z1 := Z 1%nat). assert (Z2 := Z 2%nat). assert (Z3 := Z 3%nat). assert (Z4 := Z 4%nat). cbn [nth_error] in Z0, Z1, Z2, Z3, Z4. change (0 + n)%nat with n in Z0. clear Z.
  assert (K0 : keyref h0 (4 + n)%nat) by (unfold keyref, is_key; rewrite Z4; reflexivity).
  assert (T0 : typed h0).
  { apply typed_app; [exact T|]. constructor; [constructor|]. constructor; [constructor|]. constructor; [constructor|]. constructor; [constructor|].
    constructor; [|constructor]. fold h0. cbn [okobj]. repeat split; eexists; eassumption. }
  destruct (build_sigs_ok (d_sigs d) h0 n (4 + n)%nat [] T0 Z0 (ex_intro _ _ (conj Z4 (or_introl K0)))) as (T1 & X1 & F1 & n1 & E1 & Q1). cbv zeta in *. fold h1 in T1, X1, F1, E1, Q1.
  assert (MU : maker (4 + n)%nat Users (fun t sl => OUser t (4 + n)%nat sl)) by (left; split; [reflexivity|reflexivity]).
  assert (MS : maker (4 + n)%nat Subs (fun t sl => OSub b t (4 + n)%nat sl)) by (right; split; [reflexivity|]; exists b; reflexivity).
  assert (U1 := list_frame _ _ _ (1 + n)%nat _ _ F1 ltac:(lia) Z1). assert (A1 := list_frame _ _ _ (2 + n)%nat _ _ F1 ltac:(lia) Z2). assert (C1 := list_frame _ _ _ (3 + n)%nat _ _ F1 ltac:(lia) Z3).
  assert (NU : Users <> Sigs) by discriminate. assert (NS : Subs <> Sigs) by discriminate.
  destruct (build_parts_ok (d_users d) h1 (1 + n)%nat (4 + n)%nat Users _ [] T1 U1 MU NU (keyref_ext _ _ _ X1 K0)) as (T2 & X2 & F2 & n2 & E2 & Q2). cbv zeta in *. fold h2 in T2, X2, F2, E2, Q2.
  assert (A2 := list_frame _ _ _ (2 + n)%nat _ _ F2 ltac:(lia) A1). assert (C2 := list_frame _ _ _ (3 + n)%nat _ _ F2 ltac:(lia) C1).
  destruct (build_parts_ok (d_attrs d) h2 (2 + n)%nat (4 + n)%nat Users _ [] T2 A2 MU NU (keyref_ext _ _ _ X2 (keyref_ext _ _ _ X1 K0))) as (T3 & X3 & F3 & n3 & E3 & Q3). cbv zeta in *. fold h3 in T3, X3, F3, E3, Q3.
  assert (C3 := list_frame _ _ _ (3 + n)%nat _ _ F3 ltac:(lia) C2).
  destruct (build_parts_ok (d_subs d) h3 (3 + n)%nat (4 + n)%nat Subs _ [] T3 C3 MS NS (keyref_ext _ _ _ X3 (keyref_ext _ _ _ X2 (keyref_ext _ _ _ X1 K0)))) as (T4 & X4 & F4 & n4 & E4 & Q4). cbv zeta in *.
  injection E as <- <-. set (h4 := build_parts h3 (3 + n)%nat _ (d_subs d)) in *.
  assert (X : ext h h4) by (eapply ext_trans; [apply (ext_app h)|]; eapply ext_trans; [exact X1|]; eapply ext_trans; [exact X2|]; eapply ext_trans; eauto).
  split; [exact T4|]. split; [exact X|]. split; [reflexivity|]. split.
  - exists n, (1 + n)%nat, (2 + n)%nat, (3 + n)%nat. split; [exact (ext_other _ _ _ _ X4 (ext_other _ _ _ _ X3 (ext_other _ _ _ _ X2 (ext_other _ _ _ _ X1 Z4 Logic.I) Logic.I) Logic.I) Logic.I)|].
    assert (S1 : sigs_as true h1 n (4 + n)%nat (d_sigs d)) by (exists n1; split; [exists []; split; [rewrite app_nil_r; exact E1|auto]|exact Q1]).
    assert (G : forall h h' l lk it, frame l h h' -> nth_error h l = Some (OList lk it) -> l <> n -> sigs_as true h n (4 + n)%nat (d_sigs d) -> sigs_as true h' n (4 + n)%nat (d_sigs d)).
    { intros g g' l lk it F El N S. eapply sigs_exact_frame; [exact F|auto| |exact S]. intros y is Ey ->. rewrite El in Ey. discriminate. }
    split; [|split; [|split]].
    + eapply G; [exact F4|exact C3|lia|]. eapply G; [exact F3|exact A2|lia|]. eapply G; [exact F2|exact U1|lia|]. exact S1.
    + exists n2. split; [exists []; split; [|auto]|].
      * rewrite app_nil_r. eapply list_frame; [exact F4|lia|]. eapply list_frame; [exact F3|lia|]. exact E2.
      * change (Forall2 (part_is h4 (fun t sl => OUser t (4 + n)%nat sl)) n2 (d_users d)). eapply parts_frame; [exact MU|exact F4|exists Subs; split; [exact C3|exact NS]|]. eapply parts_frame; [exact MU|exact F3|exists Users; split; [exact A2|exact NU]|]. exact Q2.
    + exists n3. split; [exists []; split; [|auto]|].
      * rewrite app_nil_r. eapply list_frame; [exact F4|lia|]. exact E3.
      * change (Forall2 (part_is h4 (fun t sl => OUser t (4 + n)%nat sl)) n3 (d_attrs d)). eapply parts_frame; [exact MU|exact F4|exists Subs; split; [exact C3|exact NS]|]. exact Q3.
    + exists n4. split; [exists []; split; [|auto]|exact Q4]. rewrite app_nil_r. exact E4.
  - intros y Ly. destruct F1 as (L1 & F1), F2 as (L2 & F2), F3 as (L3 & F3), F4 as (L4 & F4). assert (L0 : (n <= length h0)%nat) by (unfold h0; rewrite app_length; fold n; lia).
    rewrite F4, F3, F2, F1 by (unfold n in *; lia). apply nth_error_app1. exact Ly.
Qed.

(** ** Programs *)
Definition inv (st : state) : Prop :=
  typed (objs st) /\ (forall v x, vars st v = Some x -> exists o, nth_error (objs st) x = Some o) /\ exists n, forall v, (n <= v)%nat -> vars st v = None.
Lemma vars_set_var st v x w y : vars (set_var st v x) w = Some y -> (w = v /\ x = Some y) \/ vars st w = Some y.
Proof. cbn. destruct (Nat.eqb v w) eqn:B; [|auto]. apply Nat.eqb_eq in B. subst. auto. Qed.
Lemma some_ext h h' (x : ref) : ext h h' -> (exists o, nth_error h x = Some o) -> exists o, nth_error h' x = Some o.
Proof. intros X (o & E). specialize (X _ _ E). destruct o; try (eexists; exact X). destruct X as (m & X). eexists. exact X. Qed.
Lemma inv_set st v x : inv st -> (forall y, x = Some y -> exists o, nth_error (objs st) y = Some o) -> inv (set_var st v x).
Proof.
  intros (T & V & n & N) X. split; [exact T|]. split.
  - intros w y E. apply vars_set_var in E as [(-> & ->)|E]; [apply X; reflexivity|exact (V _ _ E)].
  - exists (S v + n)%nat. intros w L. cbn. replace (Nat.eqb v w) with false by (symmetry; apply Nat.eqb_neq; lia). apply N. lia.
Qed.
Lemma inv_heap st h : inv st -> typed h -> ext (objs st) h -> inv (State h (vars st)).
Proof. intros (T & V & N) T' X. split; [exact T'|]. split; [|exact N]. intros w y E. exact (some_ext _ _ _ X (V _ _ E)). Qed.
Lemma holds_typed h y x : typed h -> holds h y x -> exists o, nth_error h x = Some o.
Proof.
  intros T H. destruct H as [l k it x E I|x b i s u a c E|x b i s u a c E|x b i s u a c E|x b i s u a c E|x b i p s E|x d p s E]; specialize (T _ _ E); cbn in T.
  - rewrite Forall_forall in T. destruct (T _ I) as (o & E' & _). exists o. exact E'.
  - destruct T as ((it & T) & _). eexists. exact T.
  - destruct T as (_ & (it & T) & _). eexists. exact T.
  - destruct T as (_ & _ & (it & T) & _). eexists. exact T.
  - destruct T as (_ & _ & _ & (it & T)). eexists. exact T.
  - destruct T as ((it & T) & _). eexists. exact T.
  - destruct T as ((it & T) & _). eexists. exact T.
Qed.
Lemma nth_subs h it i : nth_error (public_subs h it) i = match nth_error it i with Some x => Some (match nth_error h x with Some o => public_sub o | None => OList Subs [] end) | None => None end.
Proof. unfold public_subs. revert i. induction it as [|x t IH]; intros [|i]; cbn; try reflexivity. apply IH. Qed.
Lemma subs_typed h c it x : typed h -> nth_error h c = Some (OList Subs it) -> In x it -> exists b i p s, nth_error h x = Some (OSub b i p s).
Proof. intros T E I. pose proof (T _ _ E) as O. cbn in O. rewrite Forall_forall in O. destruct (O _ I) as ([] & E' & K); try discriminate. do 4 eexists. exact E'. Qed.
Definition public_heap (h : heap) (i : text) (s u a : ref) (it : list ref) : heap :=
  h ++ public_subs h it ++ [OList Subs (seq (length h) (length it)); OKey false i s u a (length h + length it)%nat].
Lemma public_nth h i s u a it : let h' := public_heap h i s u a it in
  (forall j x, nth_error it j = Some x -> nth_error h' (length h + j) = Some (match nth_error h x with Some o => public_sub o | None => OList Subs [] end)) /\
  nth_error h' (length h + length it) = Some (OList Subs (seq (length h) (length it))) /\ nth_error h' (1 + length h + length it) = Some (OKey false i s u a (length h + length it)%nat).
Proof.
  cbv zeta. unfold public_heap. assert (L : length (public_subs h it) = length it) by apply map_length. split; [|split].
  - intros j x E. rewrite nth_new, nth_error_app1 by (rewrite L; exact (nth_lt _ _ _ E)). rewrite nth_subs, E. reflexivity.
  - rewrite nth_new, nth_error_app2 by lia. rewrite L, Nat.sub_diag. reflexivity.
  - replace (1 + length h + length it)%nat with (length h + (length (public_subs h it) + 1))%nat by lia. rewrite nth_new, nth_new. reflexivity.
Qed.
Lemma public_typed h b k i s u a c it : typed h -> nth_error h k = Some (OKey b i s u a c) -> nth_error h c = Some (OList Subs it) -> typed (public_heap h i s u a it).
Proof.
  intros T Ek Ec. destruct (public_nth h i s u a it) as (P1 & P2 & P3). cbv zeta in *. apply typed_app; [exact T|]. fold (public_heap h i s u a it). apply Forall_app. split.
  - apply Forall_forall. intros o I. unfold public_subs in I. apply in_map_iff in I as (x & <- & I). destruct (subs_typed _ _ _ _ T Ec I) as (b' & i' & p & s' & E). rewrite E. pose proof (T _ _ E) as O. cbn in O.
    apply (okobj_ext h); [apply ext_app|]. cbn. exact O.
  - constructor; [|constructor; [|constructor]].
    + cbn. apply Forall_forall. intros y I. apply in_seq in I. destruct (nth_error it (y - length h)) as [x|] eqn:E.
      * specialize (P1 _ _ E). replace (length h + (y - length h))%nat with y in P1 by lia. destruct (subs_typed _ _ _ x T Ec (nth_error_In _ _ E)) as (b' & i' & p & s' & Ex). rewrite Ex in P1. eexists. split; [exact P1|reflexivity].
      * apply nth_error_None in E. lia.
    + pose proof (T _ _ Ek) as (A & B & C & D). assert (X : ext h (public_heap h i s u a it)) by apply ext_app. cbn. repeat split; try (eapply is_list_ext; eassumption). eexists. exact P2.
Qed.
Lemma step_inv st o st' : inv st -> step st o st' -> inv st' /\ ext (objs st) (objs st').
Proof.
  intros IV S. pose proof IV as (T & V & N). destruct S as [v b d h k E|v w k i s u a c it Ev Ek Ec C|v w x i p s Ev Ex C|v w x Ev|v w x y Ev H|v w x r Ev D|v|v w l x k it o Ev Ew El Ex K].
  - destruct (read_ok _ _ _ _ _ T E) as (T' & X & -> & R & _). split; [|exact X]. apply inv_set; [apply inv_heap; auto|]. intros y [= <-]. destruct R as (s & u & a & c & E4 & _). eexists. exact E4.
  - assert (X : ext (objs st) (public_heap (objs st) i s u a it)) by apply ext_app. split; [|exact X]. apply inv_set; [apply inv_heap; [exact IV|exact (public_typed _ _ _ _ _ _ _ _ _ T Ek Ec)|exact X]|].
    intros y [= <-]. destruct (public_nth (objs st) i s u a it) as (_ & _ & P3). eexists. exact P3.
  - split; [|apply ext_app]. apply inv_set; [apply inv_heap; [exact IV| |apply ext_app]|].
    + apply typed_app; [exact T|]. constructor; [|constructor]. apply (okobj_ext (objs st)); [apply ext_app|]. exact (T _ _ Ex).
    + intros y [= <-]. cbn. rewrite nth_error_app2, Nat.sub_diag by lia. eexists. reflexivity.
  - split; [|apply ext_refl]. apply inv_set; [exact IV|]. intros y [= <-]. exact (V _ _ Ev).
  - split; [|apply ext_refl]. apply inv_set; [exact IV|]. intros z [= <-]. exact (holds_typed _ _ _ T H).
  - split; [|apply ext_refl]. apply inv_set; [exact IV|]. intros y ->. inversion D as [o p Ex Wp Lp|]; subst. clear D. destruct Lp as [v' x' E'|y' x' Ly H]; [exact (V _ _ E')|exact (holds_typed _ _ _ T H)].
  - split; [|apply ext_refl]. apply inv_set; [exact IV|]. discriminate.
  - split; [|apply ext_append]. apply inv_heap; [exact IV| |apply ext_append]. eapply typed_append; eauto.
Qed.
Lemma runs_inv st l st' : inv st -> runs st l st' -> inv st' /\ ext (objs st) (objs st').
Proof.
  intros IV R. induction R as [st|st o l st1 st2 S R IH]; [split; [exact IV|apply ext_refl]|]. destruct (step_inv _ _ _ IV S) as (I1 & X1). destruct (IH I1) as (I2 & X2). split; [exact I2|]. eapply ext_trans; eauto.
Qed.
Lemma empty_inv : inv empty.
Proof. split; [|split]. - intros [|x] o E; discriminate. - intros v x E. discriminate. - exists O. reflexivity. Qed.
Lemma reach_inv l st : runs empty l st -> inv st.
Proof. intros R. exact (proj1 (runs_inv _ _ _ empty_inv R)). Qed.

(** ** Who holds what *)
Definition rank (h : heap) (x : ref) : nat :=
  match nth_error h x with Some (OKey _ _ _ _ _ _) => 4 | Some (OList Sigs _) => 1 | Some (OList _ _) => 3 | Some (OSig _ _) => 0 | Some _ => 2 | None => 0 end.
Lemma rank_le h x : (rank h x <= 4)%nat.
Proof. unfold rank. destruct (nth_error h x) as [[[]| | | |]|]; lia. Qed.
Lemma holds_rank h y x : typed h -> holds h y x -> (rank h x < rank h y)%nat.
Proof.
  intros T H. destruct H as [l k it x E I|x b i s u a c E|x b i s u a c E|x b i s u a c E|x b i s u a c E|x b i p s E|x d p s E]; pose proof (T _ _ E) as O; cbn in O.
  1:{ rewrite Forall_forall in O. destruct (O _ I) as (o & E' & K). unfold rank. rewrite E, E'. destruct o; try discriminate; injection K as <-; lia. }
  1: destruct O as ((it & O) & _). 2: destruct O as (_ & (it & O) & _). 3: destruct O as (_ & _ & (it & O) & _). 4: destruct O as (_ & _ & _ & (it & O)). 5: destruct O as ((it & O) & _). 6: destruct O as ((it & O) & _).
  all: unfold rank; rewrite E, O; lia.
Qed.
Lemma live_key st k : typed (objs st) -> is_key (objs st) k = true -> live st k -> held st k.
Proof.
  intros T K L. destruct L as [v x E|y x Ly H]; [exists v; exact E|]. pose proof (holds_rank _ _ _ T H) as R. assert (rank (objs st) x = 4%nat) by (destruct (keyref_inv _ _ K) as (b & i & s & u & a & c & E); unfold rank; rewrite E; reflexivity).
  pose proof (rank_le (objs st) y). lia.
Qed.
Lemma live_held st k : held st k -> live st k.
Proof. intros (v & E). exact (L_var _ _ _ E). Qed.
Lemma held_dec st x : inv st -> held st x \/ ~ held st x.
Proof.
  intros (_ & _ & n & N). assert (D : forall m, (exists v, (v < m)%nat /\ vars st v = Some x) \/ ~ exists v, (v < m)%nat /\ vars st v = Some x).
  { induction m as [|m [(v & L & E)|F]]; [right; intros (v & L & _); lia|left; exists v; split; [lia|exact E]|].
    destruct (vars st m) as [y|] eqn:E.
    - destruct (Nat.eq_dec y x) as [->|Ny]; [left; exists m; split; [lia|exact E]|]. right. intros (v & L & Ev). apply F. exists v. split; [|exact Ev]. destruct (Nat.eq_dec v m) as [->|]; [congruence|lia].
    - right. intros (v & L & Ev). apply F. exists v. split; [|exact Ev]. destruct (Nat.eq_dec v m) as [->|]; [congruence|lia]. }
  destruct (D n) as [(v & _ & E)|F]; [left; exists v; exact E|]. right. intros (v & E). apply F. exists v. split; [|exact E]. destruct (Nat.lt_ge_cases v n) as [L|L]; [exact L|]. rewrite (N _ L) in E. discriminate.
Qed.
Lemma holds_dec h y x : holds h y x \/ ~ holds h y x.
Proof.
  destruct (nth_error h y) as [[k it|b i s u a c|b i p s|d p s|is t]|] eqn:E.
  - destruct (in_dec Nat.eq_dec x it) as [I|I]; [left; exact (H_item _ _ _ _ _ E I)|]. right. intros H. inversion H; subst; try congruence. match goal with Q : nth_error h y = Some (OList _ _), J : In x _ |- _ => rewrite E in Q; injection Q as -> ->; exact (I J) end.
  - destruct (in_dec Nat.eq_dec x [s; u; a; c]) as [I|I].
    + left. cbn in I. destruct I as [<-|[<-|[<-|[<-|[]]]]]; [eapply H_ksigs|eapply H_kuids|eapply H_kattrs|eapply H_ksubs]; exact E.
    + right. intros H. apply I. inversion H; subst; try congruence; cbn; match goal with Q : nth_error h y = Some (OKey _ _ _ _ _ _) |- _ => rewrite E in Q; injection Q as -> -> -> -> -> -> end; auto 10.
  - destruct (Nat.eq_dec x s) as [->|N]; [left; exact (H_ssigs _ _ _ _ _ _ E)|]. right. intros H. inversion H; subst; try congruence.
  - destruct (Nat.eq_dec x s) as [->|N]; [left; exact (H_usigs _ _ _ _ _ E)|]. right. intros H. inversion H; subst; try congruence.
  - right. intros H. inversion H; subst; congruence.
  - right. intros H. inversion H; subst; congruence.
Qed.
Lemma bounded_dec (P : nat -> Prop) n : (forall i, P i \/ ~ P i) -> (exists i, (i < n)%nat /\ P i) \/ ~ exists i, (i < n)%nat /\ P i.
Proof.
  intros D. induction n as [|n [(i & L & H)|F]]; [right; intros (i & L & _); lia|left; exists i; split; [lia|exact H]|].
  destruct (D n) as [H|H]; [left; exists n; split; [lia|exact H]|]. right. intros (i & L & Hi). destruct (Nat.eq_dec i n) as [->|]; [exact (H Hi)|]. apply F. exists i. split; [lia|exact Hi].
Qed.
Lemma holds_lt h y x : holds h y x -> (y < length h)%nat.
Proof. intros H. destruct H; eapply nth_lt; eassumption. Qed.
Lemma live_dec st x : inv st -> live st x \/ ~ live st x.
Proof.
  intros IV. pose proof IV as (T & _ & _). remember (5 - rank (objs st) x)%nat as m eqn:M. revert x M. induction m as [m IH] using lt_wf_ind. intros x ->.
  destruct (held_dec st x IV) as [H|H]; [left; exact (live_held _ _ H)|].
  assert (D : forall y, (holds (objs st) y x /\ live st y) \/ ~ (holds (objs st) y x /\ live st y)).
  { intros y. destruct (holds_dec (objs st) y x) as [Hy|Hy]; [|tauto]. pose proof (holds_rank _ _ _ T Hy). pose proof (rank_le (objs st) y). destruct (IH (5 - rank (objs st) y)%nat ltac:(lia) y eq_refl); tauto. }
  destruct (bounded_dec _ (length (objs st)) D) as [(y & _ & Hy & Ly)|F]; [left; exact (L_held _ _ _ Ly Hy)|].
  right. intros L. destruct L as [v x E|y x Ly Hy]; [apply H; exists v; exact E|]. apply F. exists y. split; [exact (holds_lt _ _ _ Hy)|]. split; assumption.
Qed.

(** ** C112 *)
(** There are no cycles of strong references, so counting references frees exactly what no variable leads to: whatever set survives because each
    member is held by a variable or by another member is the set of live objects. *)
Theorem c112_reference_counts : forall l st (there : ref -> Prop), runs empty l st ->
  (forall x, there x <-> held st x \/ exists y, there y /\ holds (objs st) y x) -> forall x, there x <-> live st x.
Proof.
  intros l st A R H. destruct (reach_inv _ _ R) as (T & _ & _). intros x. split.
  - remember (5 - rank (objs st) x)%nat as m eqn:M. revert x M. induction m as [m IH] using lt_wf_ind. intros x -> Ax. apply H in Ax as [Ax|(y & Ay & Hy)]; [exact (live_held _ _ Ax)|].
    pose proof (holds_rank _ _ _ T Hy). pose proof (rank_le (objs st) y). exact (L_held _ _ _ (IH (5 - rank (objs st) y)%nat ltac:(lia) y eq_refl Ay) Hy).
  - induction 1 as [v x E|y x Ly IH Hy]; apply H; [left; exists v; exact E|right; exists y; split; assumption].
Qed.
Print Assumptions c112_reference_counts.

Lemma weak_part h x o p : typed h -> nth_error h x = Some o -> is_part o = true -> weak o = Some p -> is_key h p = true.
Proof. intros T E P W. pose proof (T _ _ E) as O. destruct o; try discriminate; injection W as ->; exact (proj2 O). Qed.
(** A part finds its primary key exactly when some variable holds that key. *)
Theorem c112_primary : forall l st x o p, runs empty l st -> nth_error (objs st) x = Some o -> is_part o = true -> weak o = Some p ->
  (deref st x (Some p) <-> held st p) /\ (deref st x None <-> ~ held st p) /\ (forall r, deref st x r -> r = Some p \/ r = None) /\ (exists r, deref st x r).
Proof.
  intros l st x o p R E P W. pose proof (reach_inv _ _ R) as IV. pose proof IV as (T & _ & _). pose proof (weak_part _ _ _ _ T E P W) as K.
  assert (LH : live st p <-> held st p) by (split; [exact (live_key _ _ T K)|exact (live_held st p)]).
  split; [|split; [|split]].
  - split; [intros D; inversion D as [o' p' E' W' L'|]; subst; apply LH; exact L'|]. intros H. exact (D_there _ _ _ _ E W (proj2 LH H)).
  - split; [intros D; inversion D as [|o' p' E' W' L']; subst; rewrite E in E'; injection E' as <-; rewrite W in W'; injection W' as <-; tauto|]. intros H. exact (D_gone _ _ _ _ E W (fun L => H (proj1 LH L))).
  - intros r D. inversion D as [o' p' E' W' L'|]; subst; [|right; reflexivity]. rewrite E in E'. injection E' as <-. rewrite W in W'. left. congruence.
  - destruct (held_dec st p IV) as [H|H]; [exists (Some p); exact (D_there _ _ _ _ E W (proj2 LH H))|exists None; exact (D_gone _ _ _ _ E W (fun L => H (proj1 LH L)))].
Qed.
Print Assumptions c112_primary.

Lemma deref_fun st x a b : deref st x a -> deref st x b -> a = b.
Proof.
  intros A B. destruct A as [o p E W L|o p E W L]; destruct B as [o' p' E' W' L'|o' p' E' W' L']; rewrite E in E'; injection E' as <-; rewrite W in W'; injection W' as <-; try reflexivity; contradiction.
Qed.
Lemma key_no_deref st k r : is_key (objs st) k = true -> ~ deref st k r.
Proof. intros K D. destruct (keyref_inv _ _ K) as (b & i & s & u & a & c & E). destruct D as [o p E' W L|o p E' W L]; rewrite E in E'; injection E' as <-; discriminate. Qed.
Lemma self_fun st s a b : self_signature st s a -> self_signature st s b -> a = b.
Proof.
  intros A B.
  destruct A as [D|is t E D K|is t p E D D2|t D D2]; destruct B as [D'|is' t' E' D' K'|is' t' p' E' D' D2'|t' D' D2']; try reflexivity;
    pose proof (deref_fun _ _ _ _ D D') as Q; try discriminate Q; injection Q as <-; try (exfalso; eapply key_no_deref; eassumption);
    try (pose proof (deref_fun _ _ _ _ D2 D2') as Q2; try discriminate Q2; injection Q2 as <-); rewrite E in E'; injection E' as <-; reflexivity.
Qed.
(** Every signature has an answer, and only one, to whether it is a self signature. *)
Theorem c112_answers : forall l st s is t, runs empty l st -> nth_error (objs st) s = Some (OSig is t) ->
  exists r, self_signature st s r /\ forall r', self_signature st s r' -> r' = r.
Proof.
  intros l st s is t R E. pose proof (reach_inv _ _ R) as IV. pose proof IV as (T & _ & _).
  assert (X : exists r, self_signature st s r).
  { destruct (live_dec st t IV) as [L|L].
    - pose proof (D_there st s _ _ E eq_refl L) as D. pose proof (T _ _ E) as (o & Et & [K|P]).
      + eexists. exact (S_key _ _ _ _ E D K).
      + assert (exists p, weak o = Some p) as (p & W) by (destruct o; try discriminate; eexists; reflexivity). destruct (c112_primary l st t o p R Et P W) as (_ & _ & Q & ([p'|] & D')).
        * eexists. exact (S_part _ _ _ _ _ E D D').
        * eexists. exact (S_primary_gone _ _ _ D D').
    - eexists. exact (S_parent_gone _ _ (D_gone st s _ _ E eq_refl L)). }
  destruct X as (r & X). exists r. split; [exact X|]. intros r' X'. exact (self_fun _ _ _ _ X' X).
Qed.
Print Assumptions c112_answers.

Lemma listed_live st k x : live st k -> listed_in (objs st) k x -> live st x.
Proof. intros L (l & A & B & _). exact (L_held _ _ _ (L_held _ _ _ L A) B). Qed.
Lemma signed_live st x s : live st x -> signed_by (objs st) x s -> live st s.
Proof. intros L (l & A & B & _). exact (L_held _ _ _ (L_held _ _ _ L A) B). Qed.
(** While a variable holds a key, each part in its lists that was made for it finds it, and each signature made for the key or for such a part says
    whether its issuers include the key or one of its subkeys. *)
Theorem c112_own_parts : forall l st k, runs empty l st -> held st k -> is_key (objs st) k = true ->
  (forall s is, signed_by (objs st) k s -> nth_error (objs st) s = Some (OSig is k) -> forall r, self_signature st s r <-> r = Ok (meet is (own_ids (objs st) k))) /\
  (forall x o, listed_in (objs st) k x -> nth_error (objs st) x = Some o -> weak o = Some k ->
     deref st x (Some k) /\
     forall s is, signed_by (objs st) x s -> nth_error (objs st) s = Some (OSig is x) -> forall r, self_signature st s r <-> r = Ok (meet is (own_ids (objs st) k))).
Proof.
  intros l st k R H K. assert (U : forall s is r0, self_signature st s (Ok (meet is (own_ids (objs st) k))) -> (self_signature st s r0 <-> r0 = Ok (meet is (own_ids (objs st) k)))).
  { intros s is r0 X. split; [intros Y; exact (self_fun _ _ _ _ Y X)|intros ->; exact X]. }
  split.
  - intros s is B E r. apply U. exact (S_key _ _ _ _ E (D_there st s _ _ E eq_refl (live_held _ _ H)) K).
  - intros x o B E W. assert (D : deref st x (Some k)) by (exact (D_there _ _ _ _ E W (live_held _ _ H))). split; [exact D|]. intros s is S Es r. apply U.
    exact (S_part _ _ _ _ _ Es (D_there st s _ _ Es eq_refl (listed_live _ _ _ (live_held _ _ H) B)) D).
Qed.
Print Assumptions c112_own_parts.

Lemma list_is_ext h h' ex l k items : ext h h' -> list_is ex h l k items -> list_is false h' l k items.
Proof. intros X (more & E & _). destruct (ext_list _ _ _ _ _ X E) as (m & E'). exists (more ++ m). rewrite app_assoc. split; [exact E'|discriminate]. Qed.
Lemma sigs_as_ext h h' ex l t sigs : ext h h' -> sigs_as ex h l t sigs -> sigs_as false h' l t sigs.
Proof. intros X (items & L & Q). exists items. split; [exact (list_is_ext _ _ _ _ _ _ X L)|]. clear L. induction Q as [|x is xs iss Q1 Q IH]; constructor; [|exact IH]. exact (ext_other _ _ _ _ X Q1 Logic.I). Qed.
Lemma parts_as_ext h h' ex l k mk ps kk lk : ext h h' -> maker kk lk mk -> parts_as ex h l k mk ps -> parts_as false h' l k mk ps.
Proof.
  intros X M (items & L & Q). exists items. split; [exact (list_is_ext _ _ _ _ _ _ X L)|]. clear L. induction Q as [|x p xs ps Q1 Q IH]; constructor; [|exact IH]. destruct Q1 as (sl & E & S). exists sl.
  split; [exact (ext_other _ _ _ _ X E (maker_other _ _ _ _ _ M))|exact (sigs_as_ext _ _ _ _ _ _ X S)].
Qed.
Lemma as_read_ext h h' ex k b d : ext h h' -> as_read ex h k b d -> as_read false h' k b d.
Proof.
  intros X (s & u & a & c & E & S & U & A & C). exists s, u, a, c. split; [exact (ext_other _ _ _ _ X E Logic.I)|]. split; [exact (sigs_as_ext _ _ _ _ _ _ X S)|].
  assert (MU : maker k Users (fun t sl => OUser t k sl)) by (left; split; reflexivity). assert (MS : maker k Subs (fun t sl => OSub b t k sl)) by (right; split; [reflexivity|exists b; reflexivity]).
  split; [exact (parts_as_ext _ _ _ _ _ _ _ _ _ X MU U)|]. split; [exact (parts_as_ext _ _ _ _ _ _ _ _ _ X MU A)|exact (parts_as_ext _ _ _ _ _ _ _ _ _ X MS C)].
Qed.
(** A key that is read is what its packets say, and whatever the program does afterwards its lists begin with those parts, each naming this key. *)
Theorem c112_read_kept : forall l1 st1 v b d st2 l2 st, runs empty l1 st1 -> step st1 (Read v b d) st2 -> runs st2 l2 st ->
  exists k, vars st2 v = Some k /\ as_read true (objs st2) k b d /\ as_read false (objs st) k b d /\ (forall x o, nth_error (objs st1) x = Some o -> nth_error (objs st2) x = Some o).
Proof.
  intros l1 st1 v b d st2 l2 st R1 S R2. pose proof (reach_inv _ _ R1) as I1. destruct (step_inv _ _ _ I1 S) as (I2 & X1). destruct (runs_inv _ _ _ I2 R2) as (I3 & X2).
  inversion S as [v' b' d' h k E| | | | | | |]; subst. destruct (read_ok _ _ _ _ _ (proj1 I1) E) as (T & X & _ & A & F). exists k. split; [cbn; rewrite Nat.eqb_refl; reflexivity|]. split; [exact A|]. split; [exact (as_read_ext _ _ _ _ _ _ X2 A)|].
  intros x o Ex. cbn. rewrite F; [exact Ex|exact (nth_lt _ _ _ Ex)].
Qed.
Print Assumptions c112_read_kept.

Lemma scan_all st it : (forall s, In s it -> exists b, self_signature st s (Ok b)) -> scan st it (Ok tt).
Proof. induction it as [|s r IH]; intros H; [constructor|]. destruct (H s (or_introl eq_refl)) as (b & B). eapply Scan_ok; [exact B|]. apply IH. intros s' I. exact (H s' (or_intror I)). Qed.
Lemma exact_list h l k items : list_is true h l k items -> nth_error h l = Some (OList k items).
Proof. intros (more & E & Z). rewrite (Z eq_refl), app_nil_r in E. exact E. Qed.
Lemma exact_sigs st l t sigs : sigs_as true (objs st) l t sigs -> (forall s is, nth_error (objs st) s = Some (OSig is t) -> exists b, self_signature st s (Ok b)) ->
  exists it, nth_error (objs st) l = Some (OList Sigs it) /\ scan st it (Ok tt).
Proof.
  intros (items & L & Q) H. exists items. split; [exact (exact_list _ _ _ _ L)|]. apply scan_all. clear L. induction Q as [|x is xs iss Q1 Q IH]; intros s I; [contradiction|]. destruct I as [<-|I]; [exact (H _ _ Q1)|exact (IH s I)].
Qed.
Lemma in_parts h l lk mk ps x k : maker k lk mk -> parts_as true h l lk mk ps -> holds h l x -> exists p sl, nth_error h x = Some (mk (fst p) sl) /\ sigs_as true h sl x (snd p) /\ In p ps.
Proof.
  intros M (items & L & Q) H. pose proof (exact_list _ _ _ _ L) as E. assert (I : In x items) by (inversion H; subst; try congruence; match goal with Z : nth_error h l = Some (OList _ _) |- _ => rewrite E in Z; injection Z as <- <-; assumption end).
  clear - Q I. induction Q as [|y p ys ps (sl & Q1 & Q2) Q IH]; [contradiction|]. destruct I as [<-|I]; [exists p, sl; split; [exact Q1|]; split; [exact Q2|left; reflexivity]|].
  destruct (IH I) as (p' & sl' & A & B & C). exists p', sl'. split; [exact A|]. split; [exact B|right; exact C].
Qed.
(** While a variable holds a key that is as it was read, everything works: its attributes and those of its parts can be read, a secret key converts
    to a public key, and the octets that signatures on each part cover are those of the key and of the part. *)
Theorem c112_as_read_works : forall l st k b d, runs empty l st -> held st k -> as_read true (objs st) k b d ->
  attributes st k (Ok tt) /\ (b = true -> convert st k (Ok tt)) /\ signable st k (Ok [d_id d]) /\
  forall x o, listed_in (objs st) k x -> nth_error (objs st) x = Some o -> attributes st x (Ok tt) /\ signable st x (Ok (covers (d_id d) o)).
Proof.
  intros l st k b d R H (s & u & a & c & E & S & U & A & C). pose proof (live_held _ _ H) as Lk. assert (K : is_key (objs st) k = true) by (unfold is_key; rewrite E; reflexivity).
  assert (MU : maker k Users (fun t sl => OUser t k sl)) by (left; split; reflexivity). assert (MS : maker k Subs (fun t sl => OSub b t k sl)) by (right; split; [reflexivity|exists b; reflexivity]).
  assert (At : attributes st k (Ok tt)).
  { destruct (exact_sigs st s k (d_sigs d) S) as (it & Es & Sc); [|exact (Attributes _ _ _ _ _ _ E eq_refl Es Sc)]. intros s' is Es. eexists. exact (S_key _ _ _ _ Es (D_there st s' _ _ Es eq_refl Lk) K). }
  assert (Part : forall x o sl sg, live st x -> nth_error (objs st) x = Some o -> weak o = Some k -> sigs_of o = Some sl -> sigs_as true (objs st) sl x sg -> attributes st x (Ok tt)).
  { intros x o sl sg Lx Ex W So Sx. destruct (exact_sigs st sl x sg Sx) as (it & Es & Sc); [|exact (Attributes _ _ _ _ _ _ Ex So Es Sc)]. intros s' is Es. eexists. exact (S_part _ _ _ _ _ Es (D_there st s' _ _ Es eq_refl Lx) (D_there _ _ _ _ Ex W Lk)). }
  assert (Csub : forall x, b = true -> holds (objs st) c x -> convert_sub st x (Ok tt)).
  { intros x -> Hx. destruct (in_parts _ _ _ _ _ _ _ MS C Hx) as (p & sl & Ex & Sx & _). assert (Lx : live st x) by (exact (L_held _ _ _ (L_held _ _ _ Lk (H_ksubs _ _ _ _ _ _ _ _ E)) Hx)).
    exact (C_ok _ _ _ _ _ _ Ex (D_there _ _ _ _ Ex eq_refl Lk) (Part _ _ _ _ Lx Ex eq_refl eq_refl Sx)). }
  assert (Cv : b = true -> convert st k (Ok tt)).
  { intros B. destruct C as (items & L & Q). pose proof (exact_list _ _ _ _ L) as Ec. eapply Cv_subs; [exact E|exact At|exact Ec|]. assert (Al : forall x, In x items -> convert_sub st x (Ok tt)) by (intros x I; exact (Csub x B (H_item _ _ _ _ _ Ec I))).
    clear - Al. induction items as [|x r IH]; [constructor|]. apply Cs_ok; [apply Al; left; reflexivity|]. apply IH. intros y I. apply Al. right. exact I. }
  assert (G : signable st k (Ok [d_id d])) by (destruct b; [exact (G_secret _ _ _ _ _ _ _ E (Cv eq_refl))|exact (G_public _ _ _ _ _ _ _ E)]).
  split; [exact At|]. split; [exact Cv|]. split; [exact G|].
  assert (User : forall x o l ps, parts_as true (objs st) l Users (fun t sl => OUser t k sl) ps -> live st x -> holds (objs st) l x -> nth_error (objs st) x = Some o -> attributes st x (Ok tt) /\ signable st x (Ok (covers (d_id d) o))).
  { intros x o l0 ps P Lx Hx Ex. destruct (in_parts _ _ _ _ _ _ _ MU P Hx) as (p & sl & Ex' & Sx & _). rewrite Ex in Ex'. injection Ex' as ->. split; [exact (Part _ _ _ _ Lx Ex eq_refl eq_refl Sx)|].
    exact (G_user _ _ _ _ _ _ Ex (D_there _ _ _ _ Ex eq_refl Lk) G). }
  intros x o B Ex. pose proof (listed_live _ _ _ Lk B) as Lx. destruct B as (l0 & Hl & Hx & o' & Eo & P). rewrite Ex in Eo. injection Eo as <-.
  assert (I : In l0 [s; u; a; c]) by (inversion Hl; subst; try congruence; match goal with Z : nth_error _ k = Some (OKey _ _ _ _ _ _) |- _ => rewrite E in Z; injection Z as <- <- <- <- <- <- end; cbn; auto 10).
  destruct I as [<-|[<-|[<-|[<-|[]]]]].
  - exfalso. destruct S as (items & Li & Q). pose proof (exact_list _ _ _ _ Li) as Es. assert (Ix : In x items) by (inversion Hx; subst; try congruence; match goal with Z : nth_error _ s = Some (OList _ _) |- _ => rewrite Es in Z; injection Z as <- <-; assumption end).
    clear - Q Ix Ex P. induction Q as [|y is ys iss Q1 Q IH]; [contradiction|]. destruct Ix as [<-|Ix]; [|exact (IH Ix)]. rewrite Ex in Q1. injection Q1 as ->. discriminate.
  - exact (User _ _ _ _ U Lx Hx Ex).
  - exact (User _ _ _ _ A Lx Hx Ex).
  - destruct (in_parts _ _ _ _ _ _ _ MS C Hx) as (p & sl & Ex' & Sx & _). rewrite Ex in Ex'. injection Ex' as ->. split; [exact (Part _ _ _ _ Lx Ex eq_refl eq_refl Sx)|].
    destruct b; cbn [covers].
    + exact (G_secret_sub _ _ _ _ _ _ Ex (D_there _ _ _ _ Ex eq_refl Lk) G (Csub x eq_refl Hx)).
    + exact (G_sub _ _ _ _ _ _ Ex (D_there _ _ _ _ Ex eq_refl Lk) G).
Qed.
Print Assumptions c112_as_read_works.

(** Refuted: a part does not keep its key. Once no variable holds the key, the octets a signature on the part covers cannot be computed, no signature
    made for it can say whether it is a self signature, and no attribute that comes from one can be read. *)
Theorem c112_part_alone_refuted : forall l st x o p, runs empty l st -> nth_error (objs st) x = Some o -> is_part o = true -> weak o = Some p -> ~ held st p ->
  (forall r, signable st x r <-> r = Err AttributeError) /\
  (forall s is, nth_error (objs st) s = Some (OSig is x) -> forall r, self_signature st s r <-> r = Err AttributeError) /\
  (forall sl s is it, sigs_of o = Some sl -> nth_error (objs st) sl = Some (OList Sigs (s :: it)) -> nth_error (objs st) s = Some (OSig is x) -> attributes st x (Err AttributeError)).
Proof.
  intros l st x o p R E P W N. pose proof (reach_inv _ _ R) as IV. destruct (c112_primary l st x o p R E P W) as (_ & D & _ & _). apply D in N. clear D.
  assert (Self : forall s is, nth_error (objs st) s = Some (OSig is x) -> self_signature st s (Err AttributeError)).
  { intros s is Es. destruct (live_dec st x IV) as [L|L].
    - exact (S_primary_gone _ _ _ (D_there st s _ _ Es eq_refl L) N).
    - exact (S_parent_gone _ _ (D_gone st s _ _ Es eq_refl L)). }
  split; [|split].
  - intros r. split; [|intros ->; exact (G_gone _ _ N)]. intros G. destruct G as [k i s u a c E'|k i s u a c E' _|k i s u a c e E' _|x D|x q e D _|x t q s o' E' D _|x i q s o' E' D _|x i q s o' E' D _ _|x i q s o' e E' D _ _]; try reflexivity.
    1-3: rewrite E' in E; injection E as <-; discriminate.
    all: pose proof (deref_fun _ _ _ _ N D) as Q; discriminate Q.
  - intros s is Es r. split; [intros X; exact (self_fun _ _ _ _ X (Self _ _ Es))|intros ->; exact (Self _ _ Es)].
  - intros sl s is it So El Es. eapply Attributes; [exact E|exact So|exact El|]. exact (Scan_err _ _ _ _ (Self _ _ Es)).
Qed.
Print Assumptions c112_part_alone_refuted.

(** Refuted: the public copy shares its list of user ids with the secret key, so that a user id given to one appears on the other. *)
Theorem c112_shared_lists_refuted : forall l1 st1 v w st2 l2 st k k', runs empty l1 st1 -> step st1 (Public v w) st2 -> vars st1 v = Some k -> vars st2 w = Some k' -> runs st2 l2 st ->
  k' <> k /\ user_ids (objs st) k' = user_ids (objs st) k /\ user_ids (objs st) k <> None.
Proof.
  intros l1 st1 v w st2 l2 st k k' R1 S Ev Ew R2. pose proof (reach_inv _ _ R1) as I1. destruct (step_inv _ _ _ I1 S) as (I2 & X1). destruct (runs_inv _ _ _ I2 R2) as (I3 & X2).
  inversion S as [|v' w' k0 i s u a c it Ev' Ek Ec C| | | | | |]; subst. rewrite Ev in Ev'. injection Ev' as <-. cbn in Ew. rewrite Nat.eqb_refl in Ew. injection Ew as <-.
  destruct (public_nth (objs st1) i s u a it) as (_ & _ & P3). cbv zeta in P3.
  assert (Ek2 := ext_other _ _ _ _ X2 (ext_other _ _ _ _ X1 Ek Logic.I) Logic.I). assert (Ep2 := ext_other _ _ _ _ X2 P3 Logic.I).
  pose proof (proj1 I1 _ _ Ek) as (_ & Lu & _ & _). destruct (is_list_ext _ _ _ _ X2 (is_list_ext _ _ _ _ X1 Lu)) as (itu & Eu).
  split; [apply nth_lt in Ek; lia|]. unfold user_ids. cbn [Nat.add] in Ep2. rewrite Ek2. cbn [Nat.add]. rewrite Ep2, Eu. split; [reflexivity|discriminate].
Qed.
Print Assumptions c112_shared_lists_refuted.

Lemma holds_key h k b i s u a c l : nth_error h k = Some (OKey b i s u a c) -> holds h k l -> In l [s; u; a; c].
Proof. intros E H. inversion H; subst; try congruence; match goal with Z : nth_error _ k = Some (OKey _ _ _ _ _ _) |- _ => rewrite E in Z; injection Z as <- <- <- <- <- <- end; cbn; auto 10. Qed.
Lemma holds_list h l k it x : nth_error h l = Some (OList k it) -> holds h l x -> In x it.
Proof. intros E H. inversion H; subst; try congruence; match goal with Z : nth_error _ l = Some (OList _ _) |- _ => rewrite E in Z; injection Z as <- <-; assumption end. Qed.
Lemma holds_sigs h x o sl l : nth_error h x = Some o -> is_part o = true -> sigs_of o = Some sl -> holds h x l -> l = sl.
Proof. intros E P So H. inversion H; subst; match goal with Z : nth_error _ x = Some _ |- _ => rewrite E in Z; injection Z as -> end; cbn in *; congruence. Qed.
(** Refuted: after [pub = read(...).to_public_key()] the secret key is gone, and with it the primary key of every user id, user attribute and subkey of
    the public key. Whatever the key, nothing that needs it can be had of a part, and no signature on the public key or on its parts can say whether it is a
    self signature (so that an attribute that comes from one cannot be read once there is a signature). *)
Theorem c112_public_copy_refuted : forall d, exists st k, runs empty [Read 0 true d; Public 0 1; Del 0] st /\ vars st 1%nat = Some k /\
  signable st k (Ok [d_id d]) /\
  (exists it, user_ids (objs st) k = Some it /\ length it = length (d_users d) /\ forall x, In x it -> listed_in (objs st) k x) /\
  (forall x, listed_in (objs st) k x -> deref st x None /\ forall r, signable st x r <-> r = Err AttributeError) /\
  (forall y s, y = k \/ listed_in (objs st) k y -> signed_by (objs st) y s -> forall r, self_signature st s r <-> r = Err AttributeError) /\
  (d_sigs d <> [] -> attributes st k (Err AttributeError)).
Proof.
  intros d. destruct (read_key [] true d) as [h k0] eqn:E0. set (st1 := set_var (State h (vars empty)) 0 (Some k0)).
  assert (S1 : step empty (Read 0 true d) st1) by (constructor; exact E0).
  destruct (read_ok [] true d h k0 (proj1 empty_inv) E0) as (T1 & _ & _ & RD & _).
  assert (R1 : runs empty [Read 0 true d] st1) by (eapply R_cons; [exact S1|constructor]).
  assert (H1 : held st1 k0) by (exists O; reflexivity).
  destruct (c112_as_read_works _ st1 k0 true d R1 H1 RD) as (_ & Cv & _ & _). specialize (Cv eq_refl).
  destruct RD as (s & u & a & c & Ek & Ss & Su & Sa & Sc). destruct Sc as (itc & Lc & Qc). pose proof (exact_list _ _ _ _ Lc) as Ec.
  set (h2 := public_heap h (d_id d) s u a itc). set (k := (1 + length h + length itc)%nat). set (st2 := set_var (State h2 (vars st1)) 1 (Some k)).
  assert (S2 : step st1 (Public 0 1) st2) by (exact (T_public st1 0 1 k0 _ _ _ _ _ _ eq_refl Ek Ec Cv)).
  set (st := set_var st2 0 None).
  assert (R : runs empty [Read 0 true d; Public 0 1; Del 0] st) by (eapply R_cons; [exact S1|]; eapply R_cons; [exact S2|]; eapply R_cons; [constructor|constructor]).
  destruct (public_nth h (d_id d) s u a itc) as (P1 & P2 & P3). cbv zeta in P1, P2, P3. fold h2 in P1, P2, P3. fold k in P3.
  assert (Old : forall x o, nth_error h x = Some o -> nth_error h2 x = Some o) by (intros x o E; apply nth_old; exact E).
  assert (NH : ~ held st k0).
  { intros (v & Ev). unfold st, st2, st1 in Ev. cbn in Ev. destruct v as [|[|v]]; try discriminate. injection Ev as Ev. apply nth_lt in Ek. unfold k in Ev. lia. }
  assert (K0 : is_key (objs st) k0 = true) by (unfold is_key; cbn; rewrite (Old _ _ Ek); reflexivity).
  pose proof (reach_inv _ _ R) as IV. assert (NL : ~ live st k0) by (intros L; exact (NH (live_key _ _ (proj1 IV) K0 L))).
  assert (MU : maker k0 Users (fun t sl => OUser t k0 sl)) by (left; split; reflexivity). assert (MS : maker k0 Subs (fun t sl => OSub true t k0 sl)) by (right; split; [reflexivity|exists true; reflexivity]).
  (* every part in the lists of the copy: weak k0, and its signatures are on a part of k0 *)
  assert (SigOn : forall sl y sg, sigs_as true h sl y sg -> forall x, holds h2 sl x -> exists is, nth_error h2 x = Some (OSig is y)).
  { intros sl y sg (items & L & Q) x Hx. pose proof (exact_list _ _ _ _ L) as E. pose proof (holds_list _ _ _ _ _ (Old _ _ E) Hx) as I. clear - Q I Old. induction Q as [|z is zs iss Q1 Q IH]; [contradiction|]. destruct I as [<-|I]; [exists is; exact (Old _ _ Q1)|exact (IH I)]. }
  assert (Back : forall l lk mk ps x, parts_as true h l lk mk ps -> holds h2 l x -> holds h l x).
  { intros l lk mk ps x (items & L & Q) Hx. pose proof (exact_list _ _ _ _ L) as E. exact (H_item _ _ _ _ _ E (holds_list _ _ _ _ _ (Old _ _ E) Hx)). }
  assert (Part : forall x, listed_in (objs st) k x -> exists o sl y oy sg, nth_error h2 x = Some o /\ is_part o = true /\ weak o = Some k0 /\ sigs_of o = Some sl /\
            nth_error h2 y = Some oy /\ is_part oy = true /\ weak oy = Some k0 /\ sigs_as true h sl y sg).
  { intros x (l & Hl & Hx & o & Ex & Px). change (objs st) with h2 in *. pose proof (holds_key _ _ _ _ _ _ _ _ _ P3 Hl) as I. destruct I as [<-|[<-|[<-|[<-|[]]]]].
    - exfalso. destruct (SigOn _ _ _ Ss _ Hx) as (is & E). rewrite Ex in E. injection E as ->. discriminate.
    - destruct (in_parts _ _ _ _ _ _ _ MU Su (Back _ _ _ _ _ Su Hx)) as (p & sl & E & Sx & _). exists (OUser (fst p) k0 sl), sl, x, (OUser (fst p) k0 sl), (snd p). repeat (split; [first [exact (Old _ _ E)|reflexivity]|]). exact Sx.
    - destruct (in_parts _ _ _ _ _ _ _ MU Sa (Back _ _ _ _ _ Sa Hx)) as (p & sl & E & Sx & _). exists (OUser (fst p) k0 sl), sl, x, (OUser (fst p) k0 sl), (snd p). repeat (split; [first [exact (Old _ _ E)|reflexivity]|]). exact Sx.
    - pose proof (holds_list _ _ _ _ _ P2 Hx) as I. apply in_seq in I. destruct (nth_error itc (x - length h)) as [y|] eqn:Ey; [|apply nth_error_None in Ey; lia]. specialize (P1 _ _ Ey). replace (length h + (x - length h))%nat with x in P1 by lia.
      destruct (in_parts h c Subs _ (d_subs d) y k0 MS (ex_intro _ itc (conj Lc Qc)) (H_item _ _ _ _ _ Ec (nth_error_In _ _ Ey))) as (p & sl & E & Sx & _). rewrite E in P1. cbn [public_sub] in P1.
      exists (OSub false (fst p) k0 sl), sl, y, (OSub true (fst p) k0 sl), (snd p). repeat (split; [first [exact P1|exact (Old _ _ E)|reflexivity]|]). exact Sx. }
  assert (Key : forall s' is, nth_error (objs st) s' = Some (OSig is k0) -> self_signature st s' (Err AttributeError)) by (intros s' is E; exact (S_parent_gone _ _ (D_gone st s' _ _ E eq_refl NL))).
  exists st, k. split; [exact R|]. split; [reflexivity|]. split; [exact (G_public st k _ _ _ _ _ P3)|]. split; [|split; [|split]].
  - destruct Su as (itu & Lu & Qu). pose proof (exact_list _ _ _ _ Lu) as Eu. exists itu. unfold user_ids. change (objs st) with h2. rewrite P3, (Old _ _ Eu). split; [reflexivity|]. split; [clear - Qu; induction Qu; cbn; congruence|].
    intros x I. exists u. split; [exact (H_kuids _ _ _ _ _ _ _ _ P3)|]. split; [exact (H_item _ _ _ _ _ (Old _ _ Eu) I)|]. destruct (in_parts h u Users _ (d_users d) x k0 MU (ex_intro _ itu (conj Lu Qu)) (H_item _ _ _ _ _ Eu I)) as (p & sl & E & _). eexists. split; [exact (Old _ _ E)|reflexivity].
  - intros x B. destruct (Part x B) as (o & sl & y & oy & sg & E & Px & W & _). split.
    + exact (proj2 (proj1 (proj2 (c112_primary _ st x o k0 R E Px W))) NH).
    + exact (proj1 (c112_part_alone_refuted _ st x o k0 R E Px W NH)).
  - intros y s' [->|B] (l & Hl & Hs & is & t & Es) r.
    + pose proof (holds_key _ _ _ _ _ _ _ _ _ P3 Hl) as I. assert (X : l = s).
      { destruct I as [<-|[<-|[<-|[<-|[]]]]]; [reflexivity|exfalso..]; change (objs st) with h2 in *.
        - destruct (in_parts _ _ _ _ _ _ _ MU Su (Back _ _ _ _ _ Su Hs)) as (p & sl & E & _). rewrite (Old _ _ E) in Es. discriminate.
        - destruct (in_parts _ _ _ _ _ _ _ MU Sa (Back _ _ _ _ _ Sa Hs)) as (p & sl & E & _). rewrite (Old _ _ E) in Es. discriminate.
        - destruct (subs_typed h2 _ _ _ (proj1 IV) P2 (holds_list _ _ _ _ _ P2 Hs)) as (b' & i' & p' & s'' & E). rewrite E in Es. discriminate. }
      subst l. destruct (SigOn _ _ _ Ss _ Hs) as (is' & E'). pose proof (Key _ _ E') as X. split; [intros Y; exact (self_fun _ _ _ _ Y X)|intros ->; exact X].
    + destruct (Part y B) as (o & sl & y0 & oy & sg & E & Px & W & So & Ey & Py & Wy & Sx). pose proof (holds_sigs _ _ _ _ _ E Px So Hl) as ->. destruct (SigOn _ _ _ Sx _ Hs) as (is' & E').
      exact (proj1 (proj2 (c112_part_alone_refuted _ st y0 oy k0 R Ey Py Wy NH)) _ _ E' r).
  - intros N. destruct Ss as (its & Ls & Qs). pose proof (exact_list _ _ _ _ Ls) as Es. destruct Qs as [|x is xs iss Q1 Qs]; [contradiction|]. eapply Attributes; [exact P3|reflexivity|exact (Old _ _ Es)|]. exact (Scan_err _ _ _ _ (Key _ _ (Old _ _ Q1))).
Qed.
Print Assumptions c112_public_copy_refuted.

(** ** A concrete history: a key with a signature, a certified user id, and a bound subkey *)
Definition demo : desc := Desc [1] [[[1]]] [([7], [[[1]; [9]]])] [] [([2], [[[1]]])].
Definition demo_heap : heap := fst (read_key [] true demo).
Example demo_reads : exists st, runs empty [Read 0 true demo] st /\ vars st 0%nat = Some 4%nat /\ nth_error (objs st) 4%nat = Some (OKey true [1%Z] 0 1 2 3)%nat /\ nth_error (objs st) 7 = Some (OUser [7%Z] 4 6)%nat /\
  nth_error (objs st) 10 = Some (OSub true [2%Z] 4 9)%nat /\ own_ids (objs st) 4%nat = [[1]; [2]].
Proof. eexists. split; [eapply R_cons; [constructor; reflexivity|constructor]|]. repeat split; reflexivity. Qed.
(** ... and with the user id taken and the key dropped: a part alone *)
Example demo_alone : exists st, runs empty [Read 0 true demo; Take 0 1 1%nat; Take 1 2 7%nat; Del 0; Del 1] st /\ vars st 2%nat = Some 7%nat /\ nth_error (objs st) 7 = Some (OUser [7%Z] 4 6)%nat /\ ~ held st 4%nat /\
  nth_error (objs st) 6 = Some (OList Sigs [8%nat]) /\ nth_error (objs st) 8 = Some (OSig [[1]; [9]] 7%nat).
Proof.
  eexists. split.
  - eapply R_cons; [constructor; reflexivity|]. eapply R_cons; [eapply T_take; [reflexivity|eapply H_kuids; reflexivity]|]. eapply R_cons; [eapply T_take; [reflexivity|eapply H_item; [reflexivity|left; reflexivity]]|].
    eapply R_cons; [constructor|]. eapply R_cons; [constructor|]. constructor.
  - split; [reflexivity|]. split; [reflexivity|]. split; [|split; reflexivity]. intros (v & E). destruct v as [|[|[|v]]]; discriminate E.
Qed.
(** ... and a user id of another key, appended: it is listed on this key but has no primary key once the other is dropped *)
Example demo_merged : exists st, runs empty [Read 0 false demo; Read 1 false demo; Take 0 2 1%nat; Take 1 3 13%nat; Take 3 4 19%nat; Append 2 4; Del 1; Del 2; Del 3; Del 4] st /\
  user_ids (objs st) 4%nat = Some [7; 19]%nat /\ nth_error (objs st) 19 = Some (OUser [7%Z] 16 18)%nat /\ held st 4%nat /\ ~ held st 16%nat.
Proof.
  eexists. split.
  - eapply R_cons; [constructor; reflexivity|]. eapply R_cons; [constructor; reflexivity|]. eapply R_cons; [eapply T_take; [reflexivity|eapply H_kuids; reflexivity]|]. eapply R_cons; [eapply T_take; [reflexivity|eapply H_kuids; reflexivity]|].
    eapply R_cons; [eapply T_take; [reflexivity|eapply H_item; [reflexivity|left; reflexivity]]|]. eapply R_cons; [eapply T_append; reflexivity|]. eapply R_cons; [constructor|]. eapply R_cons; [constructor|]. eapply R_cons; [constructor|]. eapply R_cons; [constructor|]. constructor.
  - split; [reflexivity|]. split; [reflexivity|]. split; [exists O; reflexivity|]. intros (v & E). destruct v as [|[|[|[|[|v]]]]]; discriminate E.
Qed.

(** What the answer means: one of the issuers is the key id of the primary key, or of one of its subkeys. *)
Theorem c112_answer_means : forall l st s is t b, runs empty l st -> nth_error (objs st) s = Some (OSig is t) -> self_signature st s (Ok b) ->
  exists k, (k = t \/ deref st t (Some k)) /\ held st k /\ (b = true <-> exists i, In i is /\ key_or_subkey_id (objs st) k i).
Proof.
  intros l st s is t b R E X. pose proof (reach_inv _ _ R) as (T & _ & _).
  assert (M : forall a c, meet a c = true <-> exists i, In i a /\ In i c).
  { intros a c. unfold meet. rewrite existsb_exists. split.
    - intros (i & I & J). apply existsb_exists in J as (j & J & Q). apply zlist_eqb_spec in Q. subst. eauto.
    - intros (i & I & J). exists i. split; [exact I|]. apply existsb_exists. exists i. split; [exact J|]. apply zlist_eqb_spec. reflexivity. }
  assert (O : forall k i, is_key (objs st) k = true -> (In i (own_ids (objs st) k) <-> key_or_subkey_id (objs st) k i)).
  { intros k i K. destruct (keyref_inv _ _ K) as (b0 & i0 & s0 & u & a & c & Ek). pose proof (T _ _ Ek) as (_ & _ & _ & (it & Ec)). unfold own_ids. rewrite Ek, Ec. split.
    - intros [<-|I]; [left; do 5 eexists; exact Ek|]. right. apply in_flat_map in I as (x & Ix & Ii). destruct (subs_typed _ _ _ _ T Ec Ix) as (b' & i' & p & s' & Ex). unfold obj_id in Ii. rewrite Ex in Ii. destruct Ii as [<-|[]].
      do 10 eexists. split; [exact Ek|]. split; [exact (H_item _ _ _ _ _ Ec Ix)|exact Ex].
    - intros [(b1 & s1 & u1 & a1 & c1 & E1)|(b1 & i1 & s1 & u1 & a1 & c1 & x & b' & p & s' & E1 & Hx & Ex)]; rewrite Ek in E1; injection E1 as; subst; [left; reflexivity|]. right. apply in_flat_map. exists x. split; [exact (holds_list _ _ _ _ _ Ec Hx)|]. unfold obj_id. rewrite Ex. left. reflexivity. }
  assert (LK : forall k, is_key (objs st) k = true -> live st k -> held st k) by (intros k K L; exact (live_key _ _ T K L)).
  inversion X as [|is' t' E' D K Q|is' t' p E' D D2 Q|]; subst; rewrite E in E'; injection E' as <- <-.
  - exists t. split; [left; reflexivity|]. split; [apply LK; [exact K|]; inversion D as [? ? Ed Wd Ld|]; subst; exact Ld|]. rewrite M. split; intros (i & I & J); exists i; (split; [exact I|]); apply (O t i K); exact J.
  - assert (Kp : is_key (objs st) p = true /\ live st p).
    { inversion D2 as [o ? Ed Wd Ld|]; subst. split; [|exact Ld]. pose proof (T _ _ E) as (o' & Et & [K|P]); rewrite Ed in Et; injection Et as <-; [|exact (weak_part _ _ _ _ T Ed P Wd)]. exfalso. exact (key_no_deref _ _ _ K D2). }
    destruct Kp as (Kp & Lp). exists p. split; [right; exact D2|]. split; [exact (LK _ Kp Lp)|]. rewrite M. split; intros (i & I & J); exists i; (split; [exact I|]); apply (O p i Kp); exact J.
Qed.
Print Assumptions c112_answer_means.
(** Refuted: a secret subkey whose key is gone cannot be converted: TypeError. *)
Theorem c112_subkey_alone_refuted : forall l st x i p s, runs empty l st -> nth_error (objs st) x = Some (OSub true i p s) -> ~ held st p ->
  forall r, convert_sub st x r <-> r = Err TypeError.
Proof.
  intros l st x i p s R E N r. destruct (c112_primary l st x _ p R E eq_refl eq_refl) as (_ & D & _ & _). apply D in N. clear D. split; [|intros ->; exact (C_gone _ _ N)].
  intros C. destruct C as [|i' p' s' r' E' D A]; [reflexivity|]. pose proof (deref_fun _ _ _ _ N D) as Q. discriminate Q.
Qed.
Print Assumptions c112_subkey_alone_refuted.
(** Reading primary_public_key or parent into a variable: that variable holds the object, or nothing when it is gone; no other variable changes, so
    a key that is found this way is kept from then on. *)
Theorem c112_up : forall l st v w st', runs empty l st -> step st (Up v w) st' ->
  exists x r, vars st v = Some x /\ deref st x r /\ vars st' w = r /\ (forall u, u <> w -> vars st' u = vars st u) /\ objs st' = objs st /\ (forall p, r = Some p -> held st' p /\ live st p).
Proof.
  intros l st v w st' R S. inversion S as [| | | | |v' w' x r Ev D| |]; subst. exists x, r. split; [exact Ev|]. split; [exact D|]. cbn. rewrite Nat.eqb_refl. split; [reflexivity|]. split; [intros u N; replace (Nat.eqb w u) with false by (symmetry; apply Nat.eqb_neq; auto); reflexivity|].
  split; [reflexivity|]. intros p ->. split; [exists w; cbn; rewrite Nat.eqb_refl; reflexivity|]. inversion D as [? ? Ed Wd Ld|]; subst; exact Ld.
Qed.
Print Assumptions c112_up.
