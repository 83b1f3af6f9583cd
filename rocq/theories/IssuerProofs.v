(** Proofs: assigning the issuer key ids of a signature. *)
From Verif Require Import Base BaseProofs Spec Text CodecProofs SessionKeysProofs SigPackets SigProofs SigAttrs SpecAttrs AttrsProofs.

Definition issuer_obj (o : sobj) : Prop := exists c k, key_id_text k /\ o = SObj 16 c [(AKeyId, VText k)] None.
Definition good (s : sigobj) : Prop := Forall issuer_obj (get_subs s 16).
Definition key_of (o : sobj) : text := match look AKeyId (so_dict o) with Some (VText k) => k | _ => [] end.
Lemma issuer_bytes fl o : issuer_obj o -> exists x b, sub_of o = Ok x /\ sub_bytes fl x = Ok b.
Proof.
  intros (c & k & (b & W & L & ->) & ->). exists (Sub 16 c (SbIssuer (hex_text b))). unfold sub_bytes. cbn [sub_content plain_content].
  rewrite (hex8 b W L). cbn [bind]. destruct (sub_frame_rfc 16 c b ltac:(lia) ltac:(lia)) as (enc & E & _). exists enc. split; [reflexivity|exact E].
Qed.
Definition keep (fl : Z -> Z) (o x : sobj) : bool := match sub_eq fl o x with Ok true => false | _ => true end.
Lemma filter_res_keep fl o l : issuer_obj o -> Forall issuer_obj (filter (fun x => so_type x =? 16) l) -> filter_res (sub_eq fl o) l = Ok (filter (keep fl o) l).
Proof.
  intros Ho. induction l as [|x l IH]; [reflexivity|]. cbn [filter filter_res]. intros F.
  assert (E : exists b, sub_eq fl o x = Ok b).
  { unfold sub_eq. destruct (so_type o =? so_type x) eqn:T; [|eauto]. destruct (issuer_bytes fl o Ho) as (y & b & -> & Hb). cbn [bind]. rewrite Hb. cbn [bind].
    destruct Ho as (c & k & _ & ->). cbn [so_type] in T. replace (so_type x =? 16) with true in F by lia. destruct (issuer_bytes fl x (Forall_inv F)) as (z & d & -> & Hd). cbn [bind]. rewrite Hd. cbn [bind]. eauto. }
  destruct E as (b & E). rewrite E. cbn [bind]. rewrite IH by (destruct (so_type x =? 16); [exact (Forall_inv_tail F)|exact F]). cbn [bind]. assert (K : keep fl o x = negb b) by (unfold keep; rewrite E; destruct b; reflexivity). rewrite K. destruct b; reflexivity.
Qed.
Lemma filter_comm {A} (f g : A -> bool) l : filter f (filter g l) = filter g (filter f l).
Proof. induction l as [|x l IH]; [reflexivity|]. cbn [filter]. destruct (f x) eqn:F, (g x) eqn:G; cbn [filter]; rewrite ?F, ?G, IH; reflexivity. Qed.
Lemma filter_all {A} (f : A -> bool) l : (forall x, In x l -> f x = true) -> filter f l = l.
Proof. induction l as [|x l IH]; [reflexivity|]. intros H. cbn [filter]. rewrite (H x (or_introl eq_refl)). f_equal. apply IH. intros y Hy. apply H. now right. Qed.
Lemma keep_other fl o x : so_type o <> so_type x -> keep fl o x = true.
Proof. intros N. unfold keep, sub_eq. replace (so_type o =? so_type x) with false by lia. reflexivity. Qed.
Lemma keep_self fl o : issuer_obj o -> keep fl o o = false.
Proof.
  intros H. unfold keep, sub_eq. rewrite Z.eqb_refl. destruct (issuer_bytes fl o H) as (x & b & -> & E). cbn [bind]. rewrite E. cbn [bind]. now rewrite zlist_eqb_refl.
Qed.
Definition shrinks (s s' : sigobj) : Prop := (forall ty, ty <> 16 -> get_subs s' ty = get_subs s ty) /\ incl (get_subs s' 16) (get_subs s 16).
Lemma shrinks_refl s : shrinks s s.
Proof. split; [reflexivity|apply incl_refl]. Qed.
Lemma shrinks_trans a b c : shrinks a b -> shrinks b c -> shrinks a c.
Proof. intros [A1 A2] [B1 B2]. split; [intros ty N; now rewrite B1, A1|eapply incl_tran; eassumption]. Qed.
Lemma shrinks_good s s' : shrinks s s' -> good s -> good s'.
Proof. intros [_ I] G. unfold good in *. rewrite Forall_forall in *. intros x Hx. apply G, I, Hx. Qed.
Lemma remove_sub_spec fl s o : good s -> issuer_obj o -> exists s', remove_sub fl s o = Ok s' /\ shrinks s s' /\ ~ In o (get_subs s' 16).
Proof.
  intros G Ho. unfold good, get_subs in G. rewrite filter_app', Forall_app in G. destruct G as [G1 G2].
  exists (SigObj (filter (keep fl o) (so_hashed s)) (filter (keep fl o) (so_unhashed s))). unfold remove_sub. rewrite (filter_res_keep fl o _ Ho G1). cbn [bind]. rewrite (filter_res_keep fl o _ Ho G2). cbn [bind].
  assert (Q : forall ty, get_subs (SigObj (filter (keep fl o) (so_hashed s)) (filter (keep fl o) (so_unhashed s))) ty = filter (keep fl o) (get_subs s ty)).
  { intros ty. unfold get_subs. cbn [so_hashed so_unhashed]. rewrite <- filter_app'. apply filter_comm. }
  split; [reflexivity|]. split; [split|].
  - intros ty N. rewrite Q. apply filter_all. intros x Hx. apply keep_other. unfold get_subs in Hx. apply filter_In in Hx as [_ Hx]. destruct Ho as (c & k & _ & ->). cbn [so_type]. lia.
  - rewrite Q. intros x Hx. apply filter_In in Hx as [Hx _]. exact Hx.
  - rewrite Q. intros Hx. apply filter_In in Hx as [_ Hx]. rewrite (keep_self fl o Ho) in Hx. discriminate.
Qed.
Lemma need_key o : issuer_obj o -> need AKeyId o = Ok (VText (key_of o)).
Proof. intros (c & k & _ & ->). reflexivity. Qed.
Lemma remove_each_spec fl k : forall subs s, good s -> Forall issuer_obj subs ->
  exists s', remove_each fl AKeyId (VText k) subs s = Ok s' /\ shrinks s s' /\ forall o, In o subs -> key_of o = k -> ~ In o (get_subs s' 16).
Proof.
  induction subs as [|o subs IH]; intros s G F; [exists s; split; [reflexivity|]; split; [apply shrinks_refl|intros o []]|].
  cbn [remove_each]. rewrite (need_key o (Forall_inv F)). cbn [bind value_eqb].
  assert (K : exists s1, (if zlist_eqb (key_of o) k then remove_sub fl s o else Ok s) = Ok s1 /\ shrinks s s1 /\ (key_of o = k -> ~ In o (get_subs s1 16))).
  { destruct (zlist_eqb (key_of o) k) eqn:E.
    - destruct (remove_sub_spec fl s o G (Forall_inv F)) as (s1 & A & B & C). exists s1. auto.
    - exists s. split; [reflexivity|]. split; [apply shrinks_refl|]. intros E2. rewrite E2, zlist_eqb_refl in E. discriminate. }
  destruct K as (s1 & -> & S1 & N1). cbn [bind]. destruct (IH s1 (shrinks_good _ _ S1 G) (Forall_inv_tail F)) as (s' & A & S2 & N2). exists s'. split; [exact A|]. split; [exact (shrinks_trans _ _ _ S1 S2)|].
  intros x [<-|Hx] Hk; [|now apply N2]. intros Hi. apply (N1 Hk). apply (proj2 S2), Hi.
Qed.
Lemma clear_each fl existing : forall order s, good s -> (forall k, In k order -> In k existing) ->
  exists s', assign_each fl 16 AKeyId [] existing order s = Ok s' /\ shrinks s s' /\ forall o, In o (get_subs s' 16) -> ~ In (key_of o) order.
Proof.
  induction order as [|k order IH]; intros s G Hin; [exists s; split; [reflexivity|]; split; [apply shrinks_refl|intros o _ []]|].
  cbn [assign_each]. replace (existsb (zlist_eqb k) existing) with true.
  2:{ symmetry. apply existsb_exists. exists k. split; [apply Hin; now left|apply zlist_eqb_refl]. }
  unfold remove_values. destruct (remove_each_spec fl k (get_subs s 16) s G G) as (s1 & -> & S1 & N1). cbn [bind].
  destruct (IH s1 (shrinks_good _ _ S1 G)) as (s' & A & S2 & N2); [intros x Hx; apply Hin; now right|]. exists s'. split; [exact A|]. split; [exact (shrinks_trans _ _ _ S1 S2)|].
  intros o Ho [E|Hx]; [|exact (N2 o Ho Hx)]. apply (N1 o); [apply (proj2 (shrinks_trans _ _ _ S1 S2)), Ho|now symmetry|]. apply (proj2 S2), Ho.
Qed.
Lemma get_issuer_keys s : good s -> get_issuer_key_ids s = Ok (map key_of (get_subs s 16)).
Proof.
  unfold good, get_issuer_key_ids, get_values. generalize (get_subs s 16). intros l. 
  assert (K : Forall issuer_obj l -> mapM (need AKeyId) l = Ok (map (fun o => VText (key_of o)) l) /\ texts (map (fun o => VText (key_of o)) l) = Ok (map key_of l)).
  { induction l as [|o l IH]; [split; reflexivity|]. intros F. destruct (IH (Forall_inv_tail F)) as [E1 E2]. cbn [mapM map]. rewrite (need_key o (Forall_inv F)). cbn [bind]. rewrite E1. split; [reflexivity|].
    unfold texts in *. cbn [mapM bind]. rewrite E2. reflexivity. }
  intros F. destruct (K F) as [-> E]. cbn [bind]. exact E.
Qed.
Lemma clear_issuers fl s order existing : good s -> get_issuer_key_ids s = Ok existing -> (forall k, In k order <-> In k existing) ->
  exists s', set_issuer_key_ids fl s [] order = Ok s' /\ get_issuer_key_ids s' = Ok [] /\ forall ty, ty <> 16 -> get_subs s' ty = get_subs s ty.
Proof.
  intros G Ge O. unfold set_issuer_key_ids. rewrite Ge. cbn [bind]. destruct (clear_each fl existing order s G) as (s' & E & S & N); [intros k Hk; now apply O|].
  exists s'. split; [exact E|]. split; [|exact (proj1 S)]. rewrite (get_issuer_keys s' (shrinks_good _ _ S G)).
  destruct (get_subs s' 16) as [|o l] eqn:L; [reflexivity|]. exfalso. apply (N o); [now left|]. apply O. rewrite (get_issuer_keys s G) in Ge. injection Ge as <-. apply in_map. apply (proj2 S). rewrite L. now left.
Qed.
(** adding *)
Definition fresh_issuer (k : text) : sobj := SObj 16 false [(AKeyId, VText k)] None.
Lemma add_issuer s k : add_values s 16 AKeyId (VText k) = Ok (add_sub s (fresh_issuer k)).
Proof. reflexivity. Qed.
Definition added (existing order : list text) : list text := filter (fun k => negb (existsb (zlist_eqb k) existing)) order.
Lemma add_each fl new existing : new <> [] \/ existing = [] -> forall order s, assign_each fl 16 AKeyId new existing order s = Ok (SigObj (so_hashed s ++ map fresh_issuer (added existing order)) (so_unhashed s)).
Proof.
  intros N. induction order as [|k order IH]; intros s; cbn [assign_each].
  - cbn. rewrite app_nil_r. destruct s; reflexivity.
  - unfold added. cbn [filter]. destruct (existsb (zlist_eqb k) existing) eqn:E; cbn [negb].
    + destruct new; [destruct N as [N|N]; [congruence|rewrite N in E; discriminate E]|]. cbn [bind]. rewrite IH. reflexivity.
    + rewrite add_issuer. cbn [bind]. rewrite IH. unfold add_sub. cbn [so_hashed so_unhashed map]. rewrite <- app_assoc. reflexivity.
Qed.
Lemma existsb_in k l : existsb (zlist_eqb k) l = true <-> In k l.
Proof. rewrite existsb_exists. split; [intros (x & Hx & E); apply zlist_eqb_spec in E; now subst|]. intros H. exists k. split; [exact H|apply zlist_eqb_refl]. Qed.
Lemma subs_add_all s l ty : get_subs (SigObj (so_hashed s ++ map fresh_issuer l) (so_unhashed s)) ty =
  filter (fun o => so_type o =? ty) (so_hashed s) ++ (if ty =? 16 then map fresh_issuer l else []) ++ filter (fun o => so_type o =? ty) (so_unhashed s).
Proof.
  unfold get_subs. cbn [so_hashed so_unhashed]. rewrite !filter_app', <- app_assoc. f_equal. f_equal. destruct (ty =? 16) eqn:T.
  - apply filter_all. intros x Hx. apply in_map_iff in Hx as (k & <- & _). cbn [fresh_issuer so_type]. lia.
  - induction l as [|k l IH]; [reflexivity|]. cbn [map filter fresh_issuer so_type]. replace (16 =? ty) with false by lia. exact IH.
Qed.
Lemma add_issuers fl s new order existing : good s -> get_issuer_key_ids s = Ok existing -> new <> [] \/ existing = [] -> union_of new existing order -> Forall key_id_text new ->
  exists s' l, set_issuer_key_ids fl s new order = Ok s' /\ get_issuer_key_ids s' = Ok l /\ (forall k, In k l <-> In k new \/ In k existing) /\ (existing = [] -> l = order) /\
  forall ty, ty <> 16 -> get_subs s' ty = get_subs s ty.
Proof.
  intros G Ge N [ND U] Fk. unfold set_issuer_key_ids. rewrite Ge. cbn [bind]. rewrite (add_each fl new existing N). eexists. exists (map key_of (filter (fun o => so_type o =? 16) (so_hashed s)) ++ added existing order ++ map key_of (filter (fun o => so_type o =? 16) (so_unhashed s))).
  assert (A : map key_of (map fresh_issuer (added existing order)) = added existing order). { rewrite map_map. cbn. apply map_id. }
  assert (X : existing = map key_of (filter (fun o => so_type o =? 16) (so_hashed s)) ++ map key_of (filter (fun o => so_type o =? 16) (so_unhashed s))).
  { rewrite (get_issuer_keys s G) in Ge. injection Ge as <-. unfold get_subs. now rewrite filter_app', map_app. }
  split; [reflexivity|]. split; [|split; [|split]].
  - rewrite get_issuer_keys.
    + rewrite subs_add_all. change (16 =? 16) with true. cbn iota. rewrite !map_app, A. reflexivity.
    + unfold good in *. rewrite subs_add_all. change (16 =? 16) with true. cbn iota. unfold get_subs in G. rewrite filter_app', Forall_app in G. rewrite !Forall_app. split; [easy|]. split; [|easy].
      rewrite Forall_forall. intros x Hx. apply in_map_iff in Hx as (k & <- & Hk). unfold added in Hk. apply filter_In in Hk as [Hk He]. exists false, k. split; [|reflexivity].
      apply U in Hk as [Hk|Hk]; [rewrite Forall_forall in Fk; now apply Fk|]. apply existsb_in in Hk. rewrite Hk in He. discriminate.
  - intros k. rewrite !in_app_iff. assert (I : In k existing <-> In k (map key_of (filter (fun o => so_type o =? 16) (so_hashed s))) \/ In k (map key_of (filter (fun o => so_type o =? 16) (so_unhashed s)))) by (rewrite X, in_app_iff; reflexivity).
    assert (J : In k (added existing order) <-> (In k new \/ In k existing) /\ ~ In k existing).
    { unfold added. rewrite filter_In, U. pose proof (existsb_in k existing) as Q. destruct (existsb (zlist_eqb k) existing); cbn [negb]; [assert (In k existing) by (now apply Q)|assert (~ In k existing) by (intros Z; apply Q in Z; discriminate)]; intuition congruence. }
    rewrite J. destruct (in_dec (list_eq_dec Z.eq_dec) k existing); tauto.
  - intros ->. symmetry in X. apply app_eq_nil in X as [-> ->]. cbn [app]. rewrite app_nil_r. unfold added. apply filter_all. reflexivity.
  - intros ty Nt. rewrite subs_add_all. replace (ty =? 16) with false by lia. cbn [app]. unfold get_subs. now rewrite filter_app'.
Qed.
Lemma from_packet_good s h u : from_packet s h u -> Forall issuers_ok (h ++ u) -> good s.
Proof.
  intros (Fh & Fu & ->) I. unfold good, get_subs, sig_obj_of. cbn [so_hashed so_unhashed]. rewrite <- map_app. rewrite Forall_forall. intros o Ho. apply filter_In in Ho as [Ho T]. apply in_map_iff in Ho as (x & <- & Hx).
  rewrite Forall_forall in I. specialize (I x Hx). assert (W : well_classed x). { apply in_app_iff in Hx as [Hx|Hx]; rewrite Forall_forall in *; auto. }
  rewrite obj_type in T. destruct x as [ty c b]. unfold well_classed, issuers_ok in *. cbn [sub_type sub_body] in *. assert (ty = 16) by lia. subst ty.
  destruct b; cbn [In] in W; try lia; try tauto. exists c, key_id. split; [exact I|reflexivity].
Qed.
