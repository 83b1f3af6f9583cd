(** Proofs: assigning and reading signature attributes. *)
From Verif Require Import Base BaseProofs Text SigPackets SigAttrs SpecAttrs.

Lemma look_set a b v d : look a (set_key b v d) = if attr_eq_dec a b then Some v else look a d.
Proof.
  induction d as [|[k w] d IH]; cbn [set_key look].
  - destruct (attr_eq_dec a b); reflexivity.
  - destruct (attr_eq_dec b k) as [->|N]; cbn [look]; [destruct (attr_eq_dec a k); reflexivity|].
    destruct (attr_eq_dec a k) as [->|N2]; [|exact IH]. destruct (attr_eq_dec k b) as [E|_]; [congruence|reflexivity].
Qed.
Lemma filter_app' {A} (f : A -> bool) a b : filter f (a ++ b) = filter f a ++ filter f b.
Proof. induction a as [|x a IH]; cbn [app filter]; [reflexivity|]. destruct (f x); [now rewrite IH|exact IH]. Qed.
Section U.
Variables (ty : Z) (a : attr) (v : value).
Definition upd (o : sobj) : sobj := if so_type o =? ty then set_attr a v o else o.
Lemma upd_type o : so_type (upd o) = so_type o.
Proof. unfold upd. destruct (so_type o =? ty); reflexivity. Qed.
Lemma filter_upd ty2 l : filter (fun o => so_type o =? ty2) (map upd l) = if ty2 =? ty then map (set_attr a v) (filter (fun o => so_type o =? ty2) l) else filter (fun o => so_type o =? ty2) l.
Proof.
  induction l as [|o l IH]; cbn [map filter]; [destruct (ty2 =? ty); reflexivity|]. rewrite upd_type, IH. destruct (so_type o =? ty2) eqn:E; [|reflexivity].
  unfold upd. destruct (ty2 =? ty) eqn:E2.
  - replace (so_type o =? ty) with true by lia. reflexivity.
  - replace (so_type o =? ty) with false by lia. reflexivity.
Qed.
(** what an assignment does, in the two cases *)
Lemma update_cases s s' : update_values s ty a v = Ok s' ->
  (get_subs s ty <> [] /\ s' = SigObj (map upd (so_hashed s)) (map upd (so_unhashed s))) \/
  (get_subs s ty = [] /\ exists o, new_sub ty a v = Ok o /\ s' = SigObj (so_hashed s ++ [o]) (so_unhashed s)).
Proof.
  unfold update_values. destruct (get_subs s ty) eqn:G; intros H.
  - right. split; [reflexivity|]. unfold add_values in H. destruct (new_sub ty a v) as [o|]; [|discriminate]. cbn [bind] in H. exists o. split; [reflexivity|]. unfold add_sub in H. congruence.
  - left. split; [discriminate|]. injection H as <-. reflexivity.
Qed.
Lemma subs_updated s ty2 : get_subs (SigObj (map upd (so_hashed s)) (map upd (so_unhashed s))) ty2 = if ty2 =? ty then map (set_attr a v) (get_subs s ty2) else get_subs s ty2.
Proof.
  unfold get_subs. cbn [so_hashed so_unhashed]. rewrite !filter_app', !filter_upd. destruct (ty2 =? ty); [now rewrite map_app|reflexivity].
Qed.
End U.
Lemma new_type ty a v o : new_sub ty a v = Ok o -> so_type o = ty.
Proof.
  unfold new_sub. intros H. repeat match type of H with (if ?b then _ else _) = _ => destruct b eqn:? end; try discriminate H; try (injection H as <-; reflexivity).
  destruct (attr_eq_dec a AAlgs); [|discriminate H]. cbn [bind] in H.
  destruct v as [| | |t|l]; try discriminate H; [destruct t; [|discriminate H]; injection H as <-; reflexivity|]. destruct (forallb _ l); [|discriminate H]. injection H as <-. reflexivity.
Qed.
Lemma subs_added s o ty2 : get_subs (SigObj (so_hashed s ++ [o]) (so_unhashed s)) ty2 =
  filter (fun o => so_type o =? ty2) (so_hashed s) ++ (if so_type o =? ty2 then [o] else []) ++ filter (fun o => so_type o =? ty2) (so_unhashed s).
Proof. unfold get_subs. cbn [so_hashed so_unhashed]. rewrite !filter_app'. rewrite <- app_assoc. cbn [filter]. destruct (so_type o =? ty2); reflexivity. Qed.
Lemma subs_added_other s o ty2 : so_type o <> ty2 -> get_subs (SigObj (so_hashed s ++ [o]) (so_unhashed s)) ty2 = get_subs s ty2.
Proof. intros N. rewrite subs_added. replace (so_type o =? ty2) with false by lia. unfold get_subs. now rewrite filter_app'. Qed.
Lemma subs_added_only s o ty2 : so_type o = ty2 -> get_subs s ty2 = [] -> get_subs (SigObj (so_hashed s ++ [o]) (so_unhashed s)) ty2 = [o].
Proof.
  intros E G. rewrite subs_added. unfold get_subs in G. rewrite filter_app' in G. apply app_eq_nil in G as [-> ->]. replace (so_type o =? ty2) with true by lia. reflexivity.
Qed.
Lemma need_set a b v o : need a (set_attr b v o) = if attr_eq_dec a b then Ok v else need a o.
Proof. unfold need, set_attr. cbn [so_dict]. rewrite look_set. destruct (attr_eq_dec a b); reflexivity. Qed.
Lemma need_new ty a v o : new_sub ty a v = Ok o -> need a o = Ok v.
Proof.
  unfold new_sub. intros H. repeat match type of H with (if ?b then _ else _) = _ => destruct b eqn:? end; try discriminate H;
    try (injection H as <-; unfold need; cbn [so_dict look]; destruct (attr_eq_dec a a); [reflexivity|congruence]).
  - destruct (attr_eq_dec a AAlgs); [|discriminate H]. cbn [bind] in H.
    assert (E : SObj ty false [(a, v)] None = o).
    { destruct v as [| | |t|l]; try discriminate H; [destruct t; [|discriminate H]; now injection H|]. destruct (forallb _ l); [|discriminate H]. now injection H. }
    rewrite <- E. unfold need. cbn [so_dict look]. destruct (attr_eq_dec a a); [reflexivity|congruence].
  - match type of H with Ok ?x = Ok ?y => assert (E : x = y) by congruence; rewrite <- E end. unfold need. cbn [so_dict]. rewrite look_set. destruct (attr_eq_dec a a); [reflexivity|congruence].
Qed.
(** reading back the slot that was assigned, and reading another type *)
Lemma update_get s ty a v s' : update_values s ty a v = Ok s' -> get_value s' ty a = Ok v.
Proof.
  intros H. destruct (update_cases ty a v s s' H) as [[N ->]|(G & o & No & ->)]; unfold get_value.
  - rewrite subs_updated, Z.eqb_refl. destruct (get_subs s ty) as [|o l]; [easy|]. cbn [map]. rewrite need_set. destruct (attr_eq_dec a a); [reflexivity|congruence].
  - pose proof (new_type _ _ _ _ No) as T. rewrite (subs_added_only s o ty T G). exact (need_new _ _ _ _ No).
Qed.
Lemma update_other_type s ty a v s' ty2 : update_values s ty a v = Ok s' -> ty2 <> ty -> get_subs s' ty2 = get_subs s ty2.
Proof.
  intros H N. destruct (update_cases ty a v s s' H) as [[_ ->]|(G & o & No & ->)].
  - rewrite subs_updated. replace (ty2 =? ty) with false by lia. reflexivity.
  - apply subs_added_other. rewrite (new_type _ _ _ _ No). congruence.
Qed.
Lemma update_same_type s ty a v s' b : update_values s ty a v = Ok s' -> b <> a -> get_subs s ty <> [] -> get_value s' ty b = get_value s ty b.
Proof.
  intros H N G. destruct (update_cases ty a v s s' H) as [[_ ->]|(G' & _)]; [|contradiction]. unfold get_value. rewrite subs_updated, Z.eqb_refl.
  destruct (get_subs s ty) as [|o l]; [easy|]. cbn [map]. rewrite need_set. destruct (attr_eq_dec b a); [contradiction|reflexivity].
Qed.
Lemma update_new_flags s a v s' b : get_subs s 27 = [] -> update_values s 27 a v = Ok s' -> b <> a -> In b [ACertify; ASign; AComms; AStorage; AAuth; ASplit; AOwners] -> get_value s' 27 b = Ok (VBool true).
Proof.
  intros G H N I. destruct (update_cases 27 a v s s' H) as [[G' _]|(_ & o & No & ->)]; [contradiction|]. unfold get_value. pose proof (new_type _ _ _ _ No) as T. rewrite (subs_added_only s o 27 T G).
  unfold new_sub in No. cbn [Z.eqb Pos.eqb orb] in No. destruct (in_dec attr_eq_dec a _) as [Ia|]; [|discriminate No]. match type of No with Ok ?x = Ok ?y => assert (E : x = y) by congruence; rewrite <- E end. unfold need. cbn [so_dict]. rewrite look_set.
  destruct (attr_eq_dec b a); [contradiction|]. cbn [In] in I. repeat destruct I as [<-|I]; try reflexivity. contradiction.
Qed.
Lemma prop_slots p q : getter p = getter q -> In p (single ++ own_flags) -> In q (single ++ own_flags) -> p = q.
Proof. intros E I J. unfold single, own_flags in I, J. cbn [app In] in I, J. destruct p, q; try reflexivity; try discriminate E; exfalso; repeat destruct I as [I|I]; try discriminate I; repeat destruct J as [J|J]; try discriminate J; assumption. Qed.
Lemma flag_slot p : In p own_flags -> getter p = (27, snd (getter p)) /\ In (snd (getter p)) [ACertify; ASign; AComms; AStorage; AAuth; ASplit; AOwners].
Proof. unfold own_flags. cbn [In]. intros I. repeat destruct I as [<-|I]; try (split; [reflexivity|cbn; tauto]). contradiction. Qed.
(** assignment succeeds for proper values *)
Lemma set_succeeds s p v : In p (single ++ own_flags) -> proper p v -> exists s', set_prop s p v = Ok s'.
Proof.
  intros I P. assert (S : setter p = getter p). { unfold single, own_flags in I. cbn [app In] in I. destruct p; try reflexivity; exfalso; repeat destruct I as [I|I]; try discriminate I; assumption. }
  unfold set_prop. rewrite S. unfold update_values. destruct (get_subs s (fst (getter p))); [|eauto]. unfold add_values.
  assert (exists o, new_sub (fst (getter p)) (snd (getter p)) v = Ok o) as (o & ->); [|cbn [bind]; eauto].
  assert (A : forall ty l, (ty =? 11) || (ty =? 21) || (ty =? 22) = true -> Forall (fun x => x < 256) l -> exists o, new_sub ty AAlgs (VList l) = Ok o).
  { intros ty l T F. unfold new_sub. replace ((ty =? 2) || (ty =? 3) || (ty =? 9)) with false by lia. replace (ty =? 4) with false by lia. replace (ty =? 7) with false by lia.
    replace (ty =? 25) with false by lia. replace (ty =? 6) with false by lia. rewrite T. destruct (attr_eq_dec AAlgs AAlgs); [|congruence]. cbn [bind].
    replace (forallb (fun x => x <? 256) l) with true; [eauto|]. symmetry. apply forallb_forall. intros x Hx. rewrite Forall_forall in F. specialize (F x Hx). cbn beta in F. lia. }
  destruct p; cbn [proper] in P; try contradiction; cbn [getter fst snd];
    try (destruct P as (x & ->); eexists; reflexivity); destruct P as (l & -> & F); apply A; auto.
Qed.

(** objects that came from a packet can be written, and read back as the same objects *)
Lemma sub_of_obj s : well_classed s -> sub_of (obj_of s) = Ok s.
Proof.
  destruct s as [ty c b]. unfold well_classed. cbn [sub_type sub_body]. intros W.
  destruct b; cbn [obj_of]; unfold sub_of; cbn [so_type so_rest so_critical so_dict];
    try (subst ty; reflexivity); try reflexivity;
    cbn [In] in W; repeat destruct W as [<-|W]; try contradiction; reflexivity.
Qed.
Lemma set_stays p v s : In p (single ++ own_flags) -> proper p v -> well_classed s -> sub_type s = fst (getter p) ->
  exists s', well_classed s' /\ set_attr (snd (getter p)) v (obj_of s) = obj_of s'.
Proof.
  intros I P W T. destruct s as [ty c b]. cbn [sub_type] in T. subst ty.
  destruct p; cbn [proper] in P; try contradiction; cbn [getter fst snd] in *;
    (destruct P as (x & ->) || destruct P as (x & -> & F));
    destruct b; unfold well_classed in W; cbn [sub_type sub_body In] in W; try (exfalso; lia); cbn [obj_of]; unfold set_attr; cbn [so_type so_critical so_dict so_rest set_key];
    try (eexists (Sub 4 c (SbBool x)); split; [cbn; tauto|reflexivity]);
    try (eexists (Sub 25 c (SbBool x)); split; [cbn; tauto|reflexivity]);
    try (eexists (Sub _ c (SbAlgs x)); split; [|reflexivity]; cbn; tauto);
    try (eexists (Sub _ c (SbUri x)); split; [|reflexivity]; cbn; tauto);
    try (eexists (Sub _ c (SbUserId x)); split; [|reflexivity]; reflexivity);
    try (eexists (Sub _ c (SbNoModify x)); split; [|reflexivity]; reflexivity);
    try (eexists (Sub _ c (SbFeatures x)); split; [|reflexivity]; reflexivity);
    try (eexists (Sub _ c (SbFlags _ _ _ _ _ _ _)); split; [|cbn [obj_of]; reflexivity]; reflexivity).
Qed.
Lemma new_stays p v o : In p (single ++ own_flags) -> proper p v -> new_sub (fst (getter p)) (snd (getter p)) v = Ok o -> exists s', well_classed s' /\ o = obj_of s'.
Proof.
  intros I P H. destruct p; cbn [proper] in P; try contradiction; cbn [getter fst snd] in *;
    (destruct P as (x & ->) || destruct P as (x & -> & F)); unfold new_sub in H; cbn [Z.eqb Pos.eqb orb] in H;
    repeat match type of H with context [attr_eq_dec ?z ?z] => let e := fresh in destruct (attr_eq_dec z z) as [e|e]; [clear e|congruence] end; cbn [bind] in H;
    repeat match type of H with (if ?b then _ else _) = _ => destruct b eqn:? end; try discriminate H; injection H as <-;
    try (eexists (Sub 4 false (SbBool x)); split; [cbn; tauto|reflexivity]);
    try (eexists (Sub 25 false (SbBool x)); split; [cbn; tauto|reflexivity]);
    try (eexists (Sub _ false (SbAlgs x)); split; [|reflexivity]; cbn; tauto);
    try (eexists (Sub _ false (SbUri x)); split; [|reflexivity]; cbn; tauto);
    try (eexists (Sub _ false (SbUserId x)); split; [|reflexivity]; reflexivity);
    try (eexists (Sub _ false (SbNoModify x)); split; [|reflexivity]; reflexivity);
    try (eexists (Sub _ false (SbFeatures x)); split; [|reflexivity]; reflexivity);
    try (eexists (Sub _ false (SbFlags _ _ _ _ _ _ _)); split; [|cbn [obj_of]; reflexivity]; reflexivity).
Qed.
Lemma obj_type s : so_type (obj_of s) = sub_type s.
Proof. destruct s as [ty c b]. destruct b; reflexivity. Qed.
Lemma map_upd_stays p v l : In p (single ++ own_flags) -> proper p v -> Forall well_classed l ->
  exists l', Forall well_classed l' /\ map (upd (fst (getter p)) (snd (getter p)) v) (map obj_of l) = map obj_of l'.
Proof.
  intros I P F. induction F as [|s l W F (l' & F' & E)]; [exists []; split; constructor|]. cbn [map]. rewrite E. unfold upd at 1. rewrite obj_type.
  destruct (sub_type s =? fst (getter p)) eqn:T.
  - destruct (set_stays p v s I P W) as (s' & W' & ->); [lia|]. exists (s' :: l'). split; [constructor; assumption|reflexivity].
  - exists (s :: l'). split; [constructor; assumption|reflexivity].
Qed.
Lemma written_objs l : Forall well_classed l -> mapM sub_of (map obj_of l) = Ok l.
Proof. induction 1 as [|s l W F IH]; [reflexivity|]. cbn [map mapM]. rewrite (sub_of_obj s W). cbn [bind]. now rewrite IH. Qed.
Lemma set_setter p : In p (single ++ own_flags) -> setter p = getter p.
Proof. intros I. unfold single, own_flags in I. cbn [app In] in I. destruct p; try reflexivity; exfalso; repeat destruct I as [I|I]; try discriminate I; assumption. Qed.
Lemma set_written h u s p v s' : from_packet s h u -> In p (single ++ own_flags) -> proper p v -> set_prop s p v = Ok s' ->
  exists h' u', from_packet s' h' u' /\ written s' = Ok (h', u').
Proof.
  intros (Fh & Fu & ->) I P H. unfold set_prop in H. rewrite (set_setter p I) in H.
  assert (K : exists h' u', from_packet s' h' u').
  { destruct (update_cases _ _ _ _ _ H) as [[_ ->]|(_ & o & No & ->)].
    - destruct (map_upd_stays p v h I P Fh) as (h' & Fh' & Eh). destruct (map_upd_stays p v u I P Fu) as (u' & Fu' & Eu). exists h', u'. split; [exact Fh'|]. split; [exact Fu'|].
      unfold sig_obj_of. cbn [so_hashed so_unhashed]. now rewrite Eh, Eu.
    - destruct (new_stays p v o I P No) as (s1 & W & ->). exists (h ++ [s1]), u. split; [apply Forall_app; split; [exact Fh|constructor; [exact W|constructor]]|]. split; [exact Fu|].
      unfold sig_obj_of. cbn [so_hashed so_unhashed]. now rewrite map_app. }
  destruct K as (h' & u' & F'). exists h', u'. split; [exact F'|]. destruct F' as (Fh' & Fu' & ->). unfold written, sig_obj_of. cbn [so_hashed so_unhashed].
  rewrite (written_objs h' Fh'). cbn [bind]. now rewrite (written_objs u' Fu').
Qed.
