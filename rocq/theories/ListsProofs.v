(** Proofs: assigning list-valued attributes of signatures. *)
From Verif Require Import Base BaseProofs Spec Text SigPackets SigProofs SigAttrs SpecAttrs AttrsProofs SigLists SpecLists.

Definition obj_bytes (fl : Z -> Z) (o : sobj) : res bytes := do x <- sub_of o;; sub_bytes fl x.
Lemma sub_eq_bytes fl a b p q : so_type a = so_type b -> obj_bytes fl a = Ok p -> obj_bytes fl b = Ok q -> sub_eq fl a b = Ok (zlist_eqb p q).
Proof.
  intros T. unfold obj_bytes, sub_eq. rewrite T, Z.eqb_refl. destruct (sub_of a) as [x|]; [|discriminate]. destruct (sub_of b) as [y|]; [|discriminate]. cbn [bind]. intros -> ->. reflexivity.
Qed.
Definition of_type (ty : Z) (o : sobj) : bool := so_type o =? ty.
Definition same_bytes (fl : Z -> Z) (b : bytes) (o : sobj) : bool := match obj_bytes fl o with Ok q => zlist_eqb b q | _ => false end.
Definition stays (fl : Z -> Z) (ty : Z) (b : bytes) (o : sobj) : bool := negb (of_type ty o && same_bytes fl b o).
Lemma filter_res_stays fl ty o b l : so_type o = ty -> obj_bytes fl o = Ok b -> Forall (writable (obj_bytes fl)) (filter (of_type ty) l) ->
  filter_res (sub_eq fl o) l = Ok (filter (stays fl ty b) l).
Proof.
  intros T B. induction l as [|x l IH]; [reflexivity|]. cbn [filter filter_res]. unfold of_type at 1. intros F. unfold stays at 1, of_type at 1. destruct (so_type x =? ty) eqn:E.
  - destruct (Forall_inv F) as [q Q]. rewrite (sub_eq_bytes fl o x b q) by (lia || assumption). cbn [bind]. rewrite (IH (Forall_inv_tail F)). cbn [bind andb]. unfold same_bytes. rewrite Q. destruct (zlist_eqb b q); reflexivity.
  - assert (N : sub_eq fl o x = Ok false) by (unfold sub_eq; replace (so_type o =? so_type x) with false by lia; reflexivity). rewrite N. cbn [bind]. rewrite (IH F). reflexivity.
Qed.
Definition subs_writable (fl : Z -> Z) (ty : Z) (s : sigobj) : Prop := Forall (writable (obj_bytes fl)) (get_subs s ty).
Lemma remove_gen fl ty s o b : so_type o = ty -> obj_bytes fl o = Ok b -> subs_writable fl ty s ->
  remove_sub fl s o = Ok (SigObj (filter (stays fl ty b) (so_hashed s)) (filter (stays fl ty b) (so_unhashed s))).
Proof.
  intros T B W. unfold subs_writable, get_subs in W. rewrite filter_app', Forall_app in W. destruct W as [W1 W2]. unfold remove_sub.
  rewrite (filter_res_stays fl ty o b _ T B W1). cbn [bind]. rewrite (filter_res_stays fl ty o b _ T B W2). reflexivity.
Qed.
Lemma filter_swap {A} (f g : A -> bool) l : filter f (filter g l) = filter g (filter f l).
Proof. induction l as [|x l IH]; [reflexivity|]. cbn [filter]. destruct (f x) eqn:F, (g x) eqn:G; cbn [filter]; rewrite ?F, ?G, IH; reflexivity. Qed.
Lemma filter_id {A} (f : A -> bool) l : (forall x, In x l -> f x = true) -> filter f l = l.
Proof. induction l as [|x l IH]; [reflexivity|]. intros H. cbn [filter]. rewrite (H x (or_introl eq_refl)). f_equal. apply IH. intros y Hy. apply H. now right. Qed.
Definition removed (fl : Z -> Z) (ty : Z) (b : bytes) (s : sigobj) : sigobj := SigObj (filter (stays fl ty b) (so_hashed s)) (filter (stays fl ty b) (so_unhashed s)).
Lemma removed_subs fl ty b s t : get_subs (removed fl ty b s) t = filter (stays fl ty b) (get_subs s t).
Proof. unfold removed, get_subs. cbn [so_hashed so_unhashed]. rewrite <- filter_app'. apply filter_swap. Qed.
Lemma removed_others fl ty b s : others_same ty s (removed fl ty b s).
Proof.
  unfold others_same, removed. cbn [so_hashed so_unhashed]. split; rewrite filter_swap; apply filter_id; intros x I; apply filter_In in I as [_ I]; unfold stays, of_type; destruct (so_type x =? ty); [discriminate I|reflexivity|discriminate I|reflexivity].
Qed.
Lemma others_refl ty s : others_same ty s s.
Proof. split; reflexivity. Qed.
Lemma others_trans ty a b c : others_same ty a b -> others_same ty b c -> others_same ty a c.
Proof. intros [A1 A2] [B1 B2]. split; congruence. Qed.
Lemma others_subs ty s s' t : others_same ty s s' -> t <> ty -> get_subs s' t = get_subs s t.
Proof.
  intros [H U] N. unfold get_subs. rewrite !filter_app'. assert (E : forall l, filter (fun o => so_type o =? t) l = filter (fun o => so_type o =? t) (filter (fun o => negb (so_type o =? ty)) l)).
  { intros l. rewrite filter_swap. symmetry. apply filter_id. intros x I. apply filter_In in I as [_ I]. lia. }
  rewrite (E (so_hashed s')), (E (so_hashed s)), (E (so_unhashed s')), (E (so_unhashed s)), H, U. reflexivity.
Qed.
Lemma stays_false fl ty b o : stays fl ty b o = false <-> so_type o = ty /\ obj_bytes fl o = Ok b.
Proof.
  unfold stays, of_type, same_bytes. destruct (so_type o =? ty) eqn:E; cbn [andb negb]; [|split; [discriminate|lia]]. destruct (obj_bytes fl o) as [q|e]; [|split; [discriminate|intros [_ X]; discriminate X]].
  destruct (zlist_eqb b q) eqn:Q; [apply zlist_eqb_spec in Q; subst; split; [intros _; split; [lia|reflexivity]|reflexivity]|]. split; [discriminate|]. intros [_ X]. injection X as ->. rewrite zlist_eqb_refl in Q. discriminate Q.
Qed.
Lemma writable_removed fl ty b s : subs_writable fl ty s -> subs_writable fl ty (removed fl ty b s).
Proof. unfold subs_writable. rewrite removed_subs. intros W. rewrite Forall_forall in *. intros x I. apply filter_In in I as [I _]. now apply W. Qed.

Section Objects.
Variable A : Type.
Variable octets : A -> res bytes.
Variable to_sub : A -> subpkt.
Variable fl : Z -> Z.
Variable ty : Z.
Hypothesis to_type : forall k, so_type (obj_of (to_sub k)) = ty.
Lemma holds_spec b l : Forall (writable octets) l -> exists c, holds A octets b l = Ok c /\ (c = true <-> exists x, In x l /\ octets x = Ok b).
Proof.
  induction l as [|x l IH]; intros F; [exists false; split; [reflexivity|]; split; [discriminate|intros (y & [] & _)]|]. cbn [holds]. destruct (Forall_inv F) as [q Q]. rewrite Q. cbn [bind]. destruct (zlist_eqb b q) eqn:E.
  - apply zlist_eqb_spec in E. subst q. exists true. split; [reflexivity|]. split; [|reflexivity]. intros _. exists x. split; [now left|exact Q].
  - destruct (IH (Forall_inv_tail F)) as (c & H & I). exists c. split; [exact H|]. rewrite I. split; [intros (y & J & K); exists y; split; [now right|exact K]|]. intros (y & [<-|J] & K); [|eauto]. rewrite Q in K. injection K as ->. rewrite zlist_eqb_refl in E. discriminate E.
Qed.
(** clearing *)
Definition subs_ok (l : list A) : Prop := forall k, In k l -> writable (obj_bytes fl) (obj_of (to_sub k)).
Lemma clear_objects existing : Forall (writable octets) existing -> subs_ok existing -> forall order s, subs_writable fl ty s -> incl order existing ->
  exists s', assign_objects A octets to_sub fl [] existing order s = Ok s' /\ others_same ty s s' /\ incl (get_subs s' ty) (get_subs s ty) /\
  forall o k, In o (get_subs s' ty) -> In k order -> obj_bytes fl o <> obj_bytes fl (obj_of (to_sub k)).
Proof.
  intros W to_bytes. induction order as [|k order IH]; intros s G I; [exists s; split; [reflexivity|]; split; [apply others_refl|]; split; [apply incl_refl|intros o k _ []]|].
  assert (Wk : writable octets k) by (rewrite Forall_forall in W; apply W, I; now left). cbn [assign_objects]. destruct Wk as [b B]. rewrite B. cbn [bind]. destruct (holds_spec b existing W) as (c & -> & C). cbn [bind].
  replace c with true by (symmetry; apply C; exists k; split; [apply I; now left|exact B]). destruct (to_bytes k (I k (or_introl eq_refl))) as [d D]. rewrite (remove_gen fl ty s _ d (to_type k) D G). cbn [bind].
  destruct (IH (removed fl ty d s) (writable_removed fl ty d s G)) as (s' & E & O & J & N); [intros x X; apply I; now right|]. exists s'. split; [exact E|]. split; [eapply others_trans; [apply removed_others|exact O]|].
  assert (J2 : forall x, In x (get_subs s' ty) -> In x (get_subs s ty) /\ stays fl ty d x = true) by (intros x X; apply J in X; rewrite removed_subs in X; apply filter_In in X; exact X).
  split; [intros x X; now apply J2|]. intros o k' X [<-|K]; [|now apply N]. rewrite D. intros Z. apply J2 in X as [X1 X2]. unfold get_subs in X1. apply filter_In in X1 as [_ X1]. rewrite (proj2 (stays_false fl ty d o)) in X2; [discriminate X2|]. split; [lia|exact Z].
Qed.
(** adding *)
Definition news (existing order : list A) : list A := filter (fun k => match octets k with Ok b => match holds A octets b existing with Ok true => false | _ => true end | _ => true end) order.
Lemma add_objects new existing : Forall (writable octets) existing -> new <> [] \/ existing = [] -> forall order s, Forall (writable octets) order ->
  assign_objects A octets to_sub fl new existing order s = Ok (SigObj (so_hashed s ++ map (fun k => obj_of (to_sub k)) (news existing order)) (so_unhashed s)).
Proof.
  intros W N. induction order as [|k order IH]; intros s F; [cbn; rewrite app_nil_r; destruct s; reflexivity|]. cbn [assign_objects]. unfold news. cbn [filter]. destruct (Forall_inv F) as [b B]. rewrite B. cbn [bind]. destruct (holds_spec b existing W) as (c & C & Ci). rewrite C. cbn [bind].
  destruct c; cbn [bind].
  - destruct new; [destruct N as [N|N]; [easy|]; destruct (proj1 Ci eq_refl) as (x & X & _); rewrite N in X; destruct X|]. cbn [bind]. rewrite (IH s (Forall_inv_tail F)). reflexivity.
  - rewrite (IH _ (Forall_inv_tail F)). unfold add_sub. cbn [so_hashed so_unhashed map]. rewrite <- app_assoc. reflexivity.
Qed.
Lemma news_spec existing order : Forall (writable octets) existing -> Forall (writable octets) order -> forall k, In k (news existing order) <-> In k order /\ ~ listed octets k existing.
Proof.
  intros W F k. unfold news. rewrite filter_In. split.
  - intros [I H]. split; [exact I|]. intros (y & Y1 & Y2). rewrite Forall_forall in F. destruct (F k I) as [b B]. rewrite B in H. destruct (holds_spec b existing W) as (c & C & Ci). rewrite C in H. destruct c; [discriminate H|]. assert (false = true) by (apply Ci; exists y; split; [exact Y1|congruence]). discriminate.
  - intros [I H]. split; [exact I|]. rewrite Forall_forall in F. destruct (F k I) as [b B]. rewrite B. destruct (holds_spec b existing W) as (c & C & Ci). rewrite C. destruct c; [|reflexivity]. exfalso. apply H. destruct (proj1 Ci eq_refl) as (y & Y1 & Y2). exists y. split; [exact Y1|congruence].
Qed.
Lemma added_subs s l t : get_subs (SigObj (so_hashed s ++ map (fun k => obj_of (to_sub k)) l) (so_unhashed s)) t =
  filter (of_type t) (so_hashed s) ++ (if t =? ty then map (fun k => obj_of (to_sub k)) l else []) ++ filter (of_type t) (so_unhashed s).
Proof.
  unfold get_subs. cbn [so_hashed so_unhashed]. rewrite !filter_app', <- app_assoc. f_equal. f_equal. destruct (t =? ty) eqn:T.
  - apply filter_id. intros x Hx. apply in_map_iff in Hx as (k & <- & _). rewrite to_type. lia.
  - induction l as [|k l IH]; [reflexivity|]. cbn [map filter]. rewrite to_type. replace (ty =? t) with false by lia. exact IH.
Qed.
Lemma added_others s l : others_same ty s (SigObj (so_hashed s ++ map (fun k => obj_of (to_sub k)) l) (so_unhashed s)).
Proof.
  split; [|reflexivity]. cbn [so_hashed]. rewrite filter_app'. assert (E : filter (fun o => negb (so_type o =? ty)) (map (fun k => obj_of (to_sub k)) l) = []); [|rewrite E; apply app_nil_r].
  induction l as [|k l IH]; [reflexivity|]. cbn [map filter]. rewrite to_type, Z.eqb_refl. exact IH.
Qed.
(** the whole setter, given a reader that is the inverse of to_sub *)
Variable of_obj : sobj -> res A.
Lemma mapM_cat (l m : list sobj) r : mapM of_obj (l ++ m) = Ok r <-> exists a b, mapM of_obj l = Ok a /\ mapM of_obj m = Ok b /\ r = a ++ b.
Proof.
  revert r. induction l as [|x l IH]; intros r; cbn [app mapM].
  - split; [intros H; exists [], r; auto|]. intros (a & b & E & H & ->). injection E as <-. exact H.
  - destruct (of_obj x) as [y|]; cbn [bind]; [|split; [discriminate|intros (a & b & E & _); discriminate E]]. split.
    + destruct (mapM of_obj (l ++ m)) as [q|]; [|discriminate]. cbn [bind]. intros H. injection H as <-. destruct (proj1 (IH q) eq_refl) as (a & b & Ha & Hb & ->). exists (y :: a), b. rewrite Ha. auto.
    + intros (a & b & E & Hb & ->). destruct (mapM of_obj l) as [q|]; [|discriminate E]. cbn [bind] in E. injection E as <-. rewrite (proj2 (IH (q ++ b))); [reflexivity|]. exists q, b. auto.
Qed.
Lemma mapM_back l : (forall k, In k l -> of_obj (obj_of (to_sub k)) = Ok k) -> mapM of_obj (map (fun k => obj_of (to_sub k)) l) = Ok l.
Proof. induction l as [|k l IH]; intros back; [reflexivity|]. cbn [map mapM]. rewrite (back k) by now left. rewrite IH; [reflexivity|]. intros x X. apply back. now right. Qed.
Lemma mapM_octets l : Forall (writable octets) l -> exists r, mapM octets l = Ok r.
Proof. induction l as [|x l IH]; intros F; [eexists; reflexivity|]. cbn [mapM]. destruct (Forall_inv F) as [b ->]. destruct (IH (Forall_inv_tail F)) as [r ->]. eexists. reflexivity. Qed.
Lemma assign_all s new existing order : (forall k, In k new -> of_obj (obj_of (to_sub k)) = Ok k) -> mapM of_obj (get_subs s ty) = Ok existing -> Forall (writable octets) (new ++ existing) -> new <> [] \/ existing = [] -> set_union octets new existing order ->
  exists s' l, assign_set octets to_sub fl new existing order s = Ok s' /\ mapM of_obj (get_subs s' ty) = Ok l /\ incl l (new ++ existing) /\ incl existing l /\ (forall n, In n new -> listed octets n l) /\ (existing = [] -> l = order) /\ others_same ty s s'.
Proof.
  intros back G W N (U1 & U2 & U3). unfold assign_set. destruct (mapM_octets _ W) as [r ->]. cbn [bind]. assert (We : Forall (writable octets) existing) by (apply Forall_app in W; tauto).
  assert (Wo : Forall (writable octets) order) by (rewrite Forall_forall in *; intros x X; apply W, U1, X). rewrite (add_objects new existing We N order s Wo).
  assert (G' := G). unfold get_subs in G'. rewrite filter_app' in G'. apply mapM_cat in G' as (e1 & e2 & E1 & E2 & E). eexists. exists (e1 ++ news existing order ++ e2). split; [reflexivity|].
  split; [|split; [|split; [|split; [|split]]]].
  - rewrite added_subs, Z.eqb_refl. apply mapM_cat. exists e1, (news existing order ++ e2). split; [exact E1|]. split; [|reflexivity]. apply mapM_cat. exists (news existing order), e2. split; [apply mapM_back|split; [exact E2|reflexivity]]. intros k K. apply news_spec in K as [K1 K2]; [|assumption|assumption]. apply back. apply U1 in K1. apply in_app_or in K1 as [K1|K1]; [exact K1|]. exfalso. apply K2. exists k. auto.
  - intros x X. rewrite !in_app_iff in X. apply in_or_app. destruct X as [X|[X|X]]; [right; rewrite E; apply in_or_app; now left| |right; rewrite E; apply in_or_app; now right]. apply news_spec in X as [X _]; [|assumption|assumption]. apply in_app_or. now apply U1.
  - rewrite E. intros x X. apply in_app_or in X as [X|X]; rewrite !in_app_iff; tauto.
  - intros n I. destruct (U2 n) as (y & Y1 & Y2); [apply in_or_app; now left|]. assert (D : listed octets y existing \/ ~ listed octets y existing).
    { rewrite Forall_forall in Wo. destruct (Wo y Y1) as [b B]. destruct (holds_spec b existing We) as (c & _ & C). destruct c; [left|right].
      - destruct (proj1 C eq_refl) as (z & Z1 & Z2). exists z. split; [exact Z1|congruence].
      - intros (z & Z1 & Z2). assert (X : false = true) by (apply C; exists z; split; [exact Z1|congruence]). discriminate X. }
    destruct D as [(z & Z1 & Z2)|D].
    + exists z. split; [|congruence]. rewrite E in Z1. apply in_app_or in Z1. rewrite !in_app_iff. tauto.
    + exists y. split; [|exact Y2]. rewrite !in_app_iff. right. left. apply news_spec; auto.
  - intros Z. rewrite Z in E. symmetry in E. apply app_eq_nil in E as [-> ->]. cbn [app]. rewrite app_nil_r. unfold news. rewrite Z. apply filter_id. intros x _. cbn [holds]. destruct (octets x); reflexivity.
  - apply added_others.
Qed.
Lemma clear_all s existing order : (forall x y, In x existing -> In y existing -> octets x = octets y -> writable octets x -> obj_bytes fl (obj_of (to_sub x)) = obj_bytes fl (obj_of (to_sub y))) -> mapM of_obj (get_subs s ty) = Ok existing -> Forall (writable octets) existing -> subs_ok existing -> set_union octets [] existing order ->
  (forall o k, In o (get_subs s ty) -> of_obj o = Ok k -> obj_bytes fl o = obj_bytes fl (obj_of (to_sub k))) ->
  exists s', assign_set octets to_sub fl [] existing order s = Ok s' /\ get_subs s' ty = [] /\ others_same ty s s'.
Proof.
  intros same_sub G W to_bytes (U1 & U2 & U3) Fo. unfold assign_set. destruct (mapM_octets _ W) as [r R]. cbn [app]. rewrite R. cbn [bind].
  assert (K : forall o, In o (get_subs s ty) -> exists k, In k existing /\ of_obj o = Ok k).
  { revert G. generalize (get_subs s ty). intros l. revert existing same_sub W to_bytes U1 U2 R. clear. intros existing _ _ _ _ _ _. revert existing. induction l as [|x l IH]; intros e G o []; cbn [mapM] in G; (destruct (of_obj x) as [k|] eqn:E; [|discriminate G]); cbn [bind] in G; (destruct (mapM of_obj l) as [q|]; [|discriminate G]); cbn [bind] in G; injection G as <-.
    - subst. exists k. split; [now left|exact E].
    - destruct (IH q eq_refl o H) as (k' & I & J). exists k'. split; [now right|exact J]. }
  assert (Ws : subs_writable fl ty s). { unfold subs_writable. rewrite Forall_forall. intros o O. destruct (K o O) as (k & K1 & K2). destruct (to_bytes k K1) as [b B]. exists b. now rewrite (Fo o k O K2). }
  destruct (clear_objects existing W to_bytes order s Ws U1) as (s' & E & O & I & N). exists s'. split; [exact E|]. split; [|exact O]. destruct (get_subs s' ty) as [|o l] eqn:L; [reflexivity|]. exfalso.
  assert (Io : In o (get_subs s ty)) by (apply I; now left). destruct (K o Io) as (k & K1 & K2). destruct (U2 k K1) as (y & Y1 & Y2). apply (N o y); [now left|exact Y1|]. rewrite (Fo o k Io K2). symmetry. apply same_sub; [now apply U1|exact K1|exact Y2|]. rewrite Forall_forall in W. apply W. now apply U1.
Qed.
End Objects.

(** ** attributes that are texts *)
Section Texts.
Variable fl : Z -> Z.
Variable ty : Z.
Variable a : attr.
Definition text_obj (o : sobj) : Prop := writable (obj_bytes fl) o /\ exists c k, o = SObj ty c [(a, VText k)] None.
Definition text_of (o : sobj) : text := match look a (so_dict o) with Some (VText k) => k | _ => [] end.
Definition all_text (s : sigobj) : Prop := Forall text_obj (get_subs s ty).
Lemma need_text o : text_obj o -> need a o = Ok (VText (text_of o)).
Proof. intros (_ & c & k & ->). unfold need, text_of. cbn [so_dict look]. destruct (attr_eq_dec a a); [reflexivity|congruence]. Qed.
Lemma text_type o : text_obj o -> so_type o = ty.
Proof. intros (_ & c & k & ->). reflexivity. Qed.
Lemma get_texts s : all_text s -> (do l <- get_values s ty a;; texts l) = Ok (map text_of (get_subs s ty)).
Proof.
  unfold all_text, get_values. generalize (get_subs s ty). intros l F. assert (K : mapM (need a) l = Ok (map (fun o => VText (text_of o)) l) /\ texts (map (fun o => VText (text_of o)) l) = Ok (map text_of l)).
  { induction l as [|o l IH]; [split; reflexivity|]. destruct (IH (Forall_inv_tail F)) as [E1 E2]. cbn [mapM map]. rewrite (need_text o (Forall_inv F)). cbn [bind]. rewrite E1. split; [reflexivity|]. unfold texts in *. cbn [mapM bind]. rewrite E2. reflexivity. }
  destruct K as [-> K]. exact K.
Qed.
Definition text_shrinks (s s' : sigobj) : Prop := others_same ty s s' /\ incl (get_subs s' ty) (get_subs s ty).
Lemma text_shrinks_all s s' : text_shrinks s s' -> all_text s -> all_text s'.
Proof. intros [_ I] G. unfold all_text in *. rewrite Forall_forall in *. intros x X. now apply G, I. Qed.
Lemma remove_text s o : all_text s -> text_obj o -> exists s', remove_sub fl s o = Ok s' /\ text_shrinks s s' /\ ~ In o (get_subs s' ty).
Proof.
  intros G Ho. destruct (proj1 Ho) as [b B]. assert (W : subs_writable fl ty s) by (unfold subs_writable, all_text in *; rewrite Forall_forall in *; intros x X; apply G, X).
  rewrite (remove_gen fl ty s o b (text_type o Ho) B W). exists (removed fl ty b s). split; [reflexivity|]. split; [split; [apply removed_others|]|].
  - rewrite removed_subs. intros x X. now apply filter_In in X.
  - rewrite removed_subs. intros X. apply filter_In in X as [_ X]. rewrite (proj2 (stays_false fl ty b o)) in X; [discriminate X|]. split; [now apply text_type|exact B].
Qed.
Lemma remove_each_text k : forall subs s, all_text s -> Forall text_obj subs ->
  exists s', remove_each fl a (VText k) subs s = Ok s' /\ text_shrinks s s' /\ forall o, In o subs -> text_of o = k -> ~ In o (get_subs s' ty).
Proof.
  induction subs as [|o subs IH]; intros s G F; [exists s; split; [reflexivity|]; split; [split; [apply others_refl|apply incl_refl]|intros o []]|].
  cbn [remove_each]. rewrite (need_text o (Forall_inv F)). cbn [bind value_eqb].
  assert (K : exists s1, (if zlist_eqb (text_of o) k then remove_sub fl s o else Ok s) = Ok s1 /\ text_shrinks s s1 /\ (text_of o = k -> ~ In o (get_subs s1 ty))).
  { destruct (zlist_eqb (text_of o) k) eqn:E.
    - destruct (remove_text s o G (Forall_inv F)) as (s1 & A & B & C). exists s1. auto.
    - exists s. split; [reflexivity|]. split; [split; [apply others_refl|apply incl_refl]|]. intros E2. rewrite E2, zlist_eqb_refl in E. discriminate. }
  destruct K as (s1 & -> & S1 & N1). cbn [bind]. destruct (IH s1 (text_shrinks_all _ _ S1 G) (Forall_inv_tail F)) as (s' & A & S2 & N2). exists s'. split; [exact A|]. destruct S1 as [O1 I1], S2 as [O2 I2]. split; [split; [eapply others_trans; eassumption|eapply incl_tran; eassumption]|].
  intros x [<-|Hx] Hk; [|now apply N2]. intros Hi. apply (N1 Hk). now apply I2.
Qed.
Lemma clear_texts existing : forall order s, all_text s -> incl order existing ->
  exists s', assign_each fl ty a [] existing order s = Ok s' /\ text_shrinks s s' /\ forall o, In o (get_subs s' ty) -> ~ In (text_of o) order.
Proof.
  induction order as [|k order IH]; intros s G Hin; [exists s; split; [reflexivity|]; split; [split; [apply others_refl|apply incl_refl]|intros o _ []]|].
  cbn [assign_each]. replace (existsb (zlist_eqb k) existing) with true.
  2:{ symmetry. apply existsb_exists. exists k. split; [apply Hin; now left|apply zlist_eqb_refl]. }
  unfold remove_values. destruct (remove_each_text k (get_subs s ty) s G G) as (s1 & -> & S1 & N1). cbn [bind].
  destruct (IH s1 (text_shrinks_all _ _ S1 G)) as (s' & A & S2 & N2); [intros x Hx; apply Hin; now right|]. exists s'. split; [exact A|]. destruct S1 as [O1 I1], S2 as [O2 I2]. split; [split; [eapply others_trans; eassumption|eapply incl_tran; eassumption]|].
  intros o Ho [E|Hx]; [|exact (N2 o Ho Hx)]. apply (N1 o); [now apply I1, I2|now symmetry|now apply I2].
Qed.
Hypothesis news_text : forall k, new_sub ty a (VText k) = Ok (SObj ty false [(a, VText k)] None).
Definition unlisted (existing order : list text) : list text := filter (fun k => negb (existsb (zlist_eqb k) existing)) order.
Lemma add_texts new existing : new <> [] \/ existing = [] -> forall order s,
  assign_each fl ty a new existing order s = Ok (SigObj (so_hashed s ++ map (fun k => SObj ty false [(a, VText k)] None) (unlisted existing order)) (so_unhashed s)).
Proof.
  intros N. induction order as [|k order IH]; intros s; cbn [assign_each]; [cbn; rewrite app_nil_r; destruct s; reflexivity|]. unfold unlisted. cbn [filter]. destruct (existsb (zlist_eqb k) existing) eqn:E; cbn [negb].
  - destruct new; [destruct N as [N|N]; [congruence|rewrite N in E; discriminate E]|]. cbn [bind]. rewrite IH. reflexivity.
  - unfold add_values. rewrite news_text. cbn [bind]. rewrite IH. unfold add_sub. cbn [so_hashed so_unhashed map]. rewrite <- app_assoc. reflexivity.
Qed.
End Texts.
