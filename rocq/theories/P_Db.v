(** C89: what a search over the resources of a database finds. *)
From Verif Require Import Base BaseProofs Utils Framing Text Armor KeyPackets SigPackets DataPackets UserAttr Packets Keyring SpecRing RingProofs DbSearch SpecDb P_Ring.

Lemma is_sub_spec x y : is_sub x y = true <-> exists a b, y = a ++ x ++ b.
Proof.
  unfold is_sub. rewrite andb_true_iff, existsb_exists. split.
  - intros [(i & _ & E) _]. apply zlist_eqb_spec in E. exists (firstn i y), (skipn (length x) (skipn i y)). rewrite <- E at 1. rewrite firstn_skipn, firstn_skipn. reflexivity.
  - intros (a & b & ->). split; [|unfold zlen; rewrite !app_length; lia]. exists (length a). split; [apply in_seq; rewrite !app_length; lia|]. rewrite skipn_app, skipn_all, Nat.sub_diag. cbn [skipn app]. rewrite firstn_app, firstn_all, Nat.sub_diag. cbn [firstn]. rewrite app_nil_r. apply zlist_eqb_refl.
Qed.
Lemma first_seen_snoc l x : first_seen (l ++ [x]) = first_seen l ++ (if existsb (zlist_eqb x) l then [] else [x]).
Proof.
  induction l as [|y l IH]; [reflexivity|]. cbn [app first_seen existsb]. rewrite IH, filter_app. cbn [app]. f_equal. f_equal.
  destruct (existsb (zlist_eqb x) l); [now rewrite orb_true_r|]. rewrite orb_false_r. cbn [filter]. destruct (zlist_eqb x y); reflexivity.
Qed.
Lemma first_seen_once l : once l (first_seen l).
Proof.
  induction l as [|x l IH] using rev_ind; [constructor|]. rewrite first_seen_snoc. destruct (existsb (zlist_eqb x) l) eqn:E.
  - rewrite app_nil_r. apply once_old; [|exact IH]. apply existsb_exists in E as (y & I & E). apply zlist_eqb_spec in E as ->. exact I.
  - apply once_new; [|exact IH]. intros I. assert (X : existsb (zlist_eqb x) l = true) by (apply existsb_exists; exists x; split; [exact I|apply zlist_eqb_refl]). congruence.
Qed.
Lemma once_fun l a : once l a -> forall b, once l b -> a = b.
Proof.
  induction 1 as [|x l l' N H IH|x l l' N H IH]; intros b Hb.
  - inversion Hb as [|? ? ? ? ? E|? ? ? ? ? E]; [reflexivity|destruct l; discriminate E|destruct l; discriminate E].
  - remember (l ++ [x]) as m eqn:E. destruct Hb as [|y m b' N' Hb|y m b' N' Hb]; [destruct l; discriminate E| |]; apply app_inj_tail in E as [-> ->]; [f_equal; auto|contradiction].
  - remember (l ++ [x]) as m eqn:E. destruct Hb as [|y m b' N' Hb|y m b' N' Hb]; [destruct l; discriminate E| |]; apply app_inj_tail in E as [-> ->]; [contradiction|auto].
Qed.
Lemma once_in l l' : once l l' -> forall x, In x l' <-> In x l.
Proof.
  induction 1 as [|x l l' N H IH|x l l' N H IH]; intros y; [reflexivity| |]; rewrite ?in_app_iff; cbn [In]; rewrite IH; [tauto|]. split; [tauto|]. intros [A|[<-|[]]]; auto.
Qed.
Lemma once_nodup l : NoDup l -> once l l.
Proof.
  induction l as [|x l IH] using rev_ind; intros N; [constructor|]. apply NoDup_remove in N as [N I]. rewrite app_nil_r in N, I. apply once_new; auto.
Qed.
Lemma short_small f : zlen f <= 8 -> short f = f.
Proof. intros H. unfold short, slice_from, clip. replace (-8 <? 0) with true by lia. rewrite Z.max_l by lia. reflexivity. Qed.
Lemma filter_selects {A} (P : A -> Prop) p l : (forall x, p x = true <-> P x) -> selects P l (filter p l).
Proof. intros H. induction l as [|x l IH]; cbn [filter]; [constructor|]. destruct (p x) eqn:E; [apply sel_yes|apply sel_no]; auto; [now apply H|]. intros X. apply H in X. congruence. Qed.
Lemma selects_in {A} (P : A -> Prop) l l' : selects P l l' -> forall x, In x l' <-> In x l /\ P x.
Proof. induction 1 as [|y l l' Py H IH|y l l' Py H IH]; intros x; cbn [In]; [tauto| |]; rewrite IH; (split; [intros; intuition (subst; auto)|intros ([->|I] & Px); auto]). contradiction. Qed.
Lemma selects_app {A} (P : A -> Prop) a a' b b' : selects P a a' -> selects P b b' -> selects P (a ++ b) (a' ++ b').
Proof. induction 1; intros Hb; cbn [app]; [exact Hb|apply sel_yes; auto|apply sel_no; auto]. Qed.

Section Db.
Variables (fl : Z -> Z) (md5 sha1 : bytes -> bytes) (K : Type) (build : bool -> list pkt -> res K) (lower : text -> text) (uids : K -> list text).
Notation search := (search K build lower uids).
Notation holds := (holds fl md5 sha1 build).
Notation meets := (meets lower uids).
Lemma matches_spec u k : matches_user_id K lower uids k u = true <-> has_uid lower uids u k.
Proof.
  unfold matches_user_id, has_uid. rewrite existsb_exists. split.
  - intros (x & I & E). apply is_sub_spec in E as (a & b & E). exists x, a, b. auto.
  - intros (x & a & b & I & E). exists x. split; [exact I|]. apply is_sub_spec. eauto.
Qed.
Lemma under_obj obj es id e : Forall (fun e => make build e = Ok (obj e)) es -> newest id es = Some e -> make build e = Ok (obj e).
Proof. intros F N. destruct (newest_split _ _ _ N) as (b & E & _). rewrite E in F. apply Forall_app in F as [_ F]. exact (Forall_inv F). Qed.
Definition wanted (u : option text) (k : K) : bool := match u with Some u => matches_user_id K lower uids k u | None => true end.
Lemma wanted_spec u k : wanted u k = true <-> meets u k.
Proof. destruct u; cbn [wanted meets]; [apply matches_spec|tauto]. Qed.
Lemma by_id obj d ess f u : holds obj d ess -> search_in K build lower uids d (Some f) u = Ok (filter (wanted u) (map obj (flat_map (under (short f)) ess))).
Proof.
  intros H. induction H as [|[n r] es d ess [R M] H IH]; [reflexivity|]. cbn [search_in flat_map]. cbn [snd] in R. rewrite (get_rep fl md5 sha1 K build r es f R). unfold under at 1. destruct (newest (short f) es) as [e|] eqn:N; [|exact IH].
  rewrite (under_obj _ _ _ _ M N), IH. cbn [bind app map filter]. destruct u; reflexivity.
Qed.
(** Search by fingerprint or key id: the newest key under its last 8 digits of each resource in turn, if it has the user id asked for. *)
Theorem c89_by_id_partial obj d ess f id u : f <> [] -> holds obj d ess -> exists ks, search d (Some f) id u = Ok ks /\ selects (meets u) (map obj (flat_map (under (short f)) ess)) ks.
Proof.
  intros N H. exists (filter (wanted u) (map obj (flat_map (under (short f)) ess))). split; [|apply filter_selects; apply wanted_spec].
  unfold DbSearch.search, or_else. destruct f as [|c f]; [contradiction|]. cbn [truthy]. destruct id, u; apply by_id; exact H.
Qed.
Theorem c89_by_key_id_partial obj d ess f u : f <> [] -> holds obj d ess -> exists ks, search d None (Some f) u = Ok ks /\ selects (meets u) (map obj (flat_map (under (short f)) ess)) ks.
Proof.
  intros N H. exists (filter (wanted u) (map obj (flat_map (under (short f)) ess))). split; [|apply filter_selects; apply wanted_spec].
  unfold DbSearch.search, or_else. destruct f as [|c f]; [contradiction|]. cbn [truthy]. destruct u; apply by_id; exact H.
Qed.
Lemma each_key_rep obj r es u : rep fl md5 sha1 r es -> Forall (fun e => make build e = Ok (obj e)) es -> forall ids, (forall id, In id ids -> In id (map e_id es)) ->
  each_key K build lower uids r ids (Some u) = Ok (filter (wanted (Some u)) (map obj (flat_map (fun id => under id es) ids))).
Proof.
  intros R M. induction ids as [|i ids IH]; intros I; [reflexivity|]. cbn [each_key flat_map]. rewrite (get_rep fl md5 sha1 K build r es i R).
  assert (L : short i = i). { apply short_small. destruct R as (_ & F & _). specialize (I i (or_introl eq_refl)). apply in_map_iff in I as (e & <- & Ie). rewrite Forall_forall in F. destruct (F e Ie) as (_ & k & tl & kid & _ & _ & _ & -> & _). apply short_len. }
  rewrite L. unfold under at 1. destruct (newest i es) as [e|] eqn:N.
  - rewrite (under_obj _ _ _ _ M N). cbn [bind]. rewrite IH by (intros id Q; apply I; now right). cbn [bind app map filter wanted]. reflexivity.
  - exfalso. specialize (I i (or_introl eq_refl)). clear -I N. induction es as [|x es IH]; [destruct I|]. cbn [newest] in N. destruct (newest i es); [discriminate N|]. destruct (zlist_eqb (e_id x) i) eqn:E; [discriminate N|]. destruct I as [<-|I]; [rewrite zlist_eqb_refl in E; discriminate E|auto].
Qed.
Lemma ring_keys_once r es : rep fl md5 sha1 r es -> once (map e_id es) (ring_keys r).
Proof. intros (_ & _ & _ & _ & _ & T). unfold ring_keys. rewrite T, rev_involutive. apply first_seen_once. Qed.
(** Search by user id only: of the newest key under each id, in the order of the files, those that have the user id. *)
Theorem c89_by_user_id_partial obj d ess u : holds obj d ess ->
  exists kss ks, Forall2 newest_each ess kss /\ search d None None (Some u) = Ok ks /\ selects (has_uid lower uids u) (map obj (concat kss)) ks.
Proof.
  intros H. unfold DbSearch.search, or_else. cbn [truthy]. induction H as [|[n r] es d ess [R M] H IH]; [exists [], []; split; [constructor|split; [reflexivity|constructor]]|].
  destruct IH as (kss & ks & F & E & S). cbn [snd] in R. pose proof (ring_keys_once _ _ R) as O.
  exists (flat_map (fun id => under id es) (ring_keys r) :: kss), (filter (wanted (Some u)) (map obj (flat_map (fun id => under id es) (ring_keys r))) ++ ks). split; [|split].
  - constructor; [exists (ring_keys r); auto|exact F].
  - cbn [search_in]. rewrite (each_key_rep obj r es u R M) by (intros id I; now apply (once_in _ _ O)). cbn [bind]. rewrite E. reflexivity.
  - cbn [concat]. rewrite map_app. apply selects_app; [|exact S]. apply filter_selects. apply wanted_spec.
Qed.
Lemma newest_each_nodup es r : NoDup (map e_id es) -> newest_each es r -> r = es.
Proof.
  intros N (ids & O & ->). rewrite (once_fun _ _ O _ (once_nodup _ N)). clear O ids. rewrite flat_map_concat_map, map_map.
  assert (G : forall e, In e es -> under (e_id e) es = [e]). { intros e I. unfold under. induction es as [|x es IH]; [destruct I|]. cbn [map] in N. apply NoDup_cons_iff in N as [Nx N]. cbn [newest]. destruct I as [->|I].
    - replace (newest (e_id e) es) with (@None entry); [rewrite zlist_eqb_refl; reflexivity|]. symmetry. destruct (newest (e_id e) es) as [y|] eqn:Q; [|reflexivity]. exfalso. apply Nx. destruct (newest_split _ _ _ Q) as (b & Es & Hid & _). rewrite <- Hid. apply in_map. rewrite Es. apply in_or_app. right. now left.
    - specialize (IH N I). destruct (newest (e_id e) es) as [y|]; [exact IH|discriminate IH]. }
  rewrite (map_ext_in _ (fun e => [e])) by exact G. clear. induction es as [|e es IH]; [reflexivity|]. cbn [map concat app]. now rewrite IH.
Qed.
(** If no two keys of a file share the last 8 digits of their ids, a key is found iff it is in a file and has the user id. *)
Theorem c89_every_key_partial obj d ess u : holds obj d ess -> Forall (fun es => NoDup (map e_id es)) ess -> exists ks, search d None None (Some u) = Ok ks /\
  selects (has_uid lower uids u) (map obj (concat ess)) ks.
Proof.
  intros H N. destruct (c89_by_user_id_partial obj d ess u H) as (kss & ks & F & E & S). exists ks. split; [exact E|]. replace kss with ess in S; [exact S|]. clear -F N. induction F as [|es r ess kss Q F IH]; [reflexivity|]. rewrite (newest_each_nodup _ _ (Forall_inv N) Q), IH by exact (Forall_inv_tail N). reflexivity.
Qed.
(** A key that a later one in its file hides is not found by any search. *)
Theorem c89_hidden_refuted obj n r a e b fp id u ks : rep fl md5 sha1 r (a ++ e :: b) -> Forall (fun e => make build e = Ok (obj e)) (a ++ e :: b) -> In (e_id e) (map e_id b) -> (forall e', In e' (a ++ b) -> obj e' <> obj e) ->
  search [(n, r)] fp id u = Ok ks -> ~ In (obj e) ks.
Proof.
  intros R M I D H X. set (es := a ++ e :: b) in *. assert (Hd : holds obj [(n, r)] [es]) by (constructor; [split; [exact R|exact M]|constructor]).
  assert (G : forall i x, newest i es = Some x -> obj x <> obj e).
  { intros i x Nx. destruct (newest_split _ _ _ Nx) as (c & Es & Hid & Nc). intros Ex. assert (Ix : In x es) by (rewrite Es; apply in_or_app; right; now left). unfold es in Ix. apply in_app_or in Ix as [Ix|[<-|Ix]]; [apply (D x); [apply in_or_app; auto|exact Ex]| |apply (D x); [apply in_or_app; auto|exact Ex]].
    rewrite <- Hid in Nx. unfold es in Nx. rewrite newest_app in Nx. cbn [newest] in Nx. destruct (newest (e_id e) b) as [y|] eqn:Q; [injection Nx as ->|].
    - destruct (newest_split _ _ _ Q) as (c' & Eb & _). apply (D e); [|reflexivity]. apply in_or_app. right. rewrite Eb. apply in_or_app. right. now left.
    - clear -I Q. induction b as [|z b IH]; [destruct I|]. cbn [newest] in Q. destruct (newest (e_id e) b); [discriminate Q|]. destruct (zlist_eqb (e_id z) (e_id e)) eqn:E; [discriminate Q|]. destruct I as [I|I]; [rewrite I, zlist_eqb_refl in E; discriminate E|auto]. }
  assert (U : forall i x, In x (under i es) -> obj x <> obj e). { intros i x Ix. unfold under in Ix. destruct (newest i es) eqn:Q; [|destruct Ix]. destruct Ix as [<-|[]]. exact (G _ _ Q). }
  assert (B : forall f ks', search_in K build lower uids [(n, r)] (Some f) u = Ok ks' -> ~ In (obj e) ks').
  { intros f ks' Hs. rewrite (by_id obj _ _ f u Hd) in Hs. injection Hs as <-. intros Y. apply filter_In in Y as [Y _]. apply in_map_iff in Y as (x & Ex & Ix). cbn [flat_map] in Ix. rewrite app_nil_r in Ix. exact (U _ _ Ix Ex). }
  assert (C : search_in K build lower uids [(n, r)] None u = Ok ks -> False).
  { cbn [search_in]. destruct u as [u|].
    - rewrite (each_key_rep obj r es u R M) by (intros i Q; now apply (once_in _ _ (ring_keys_once _ _ R))). cbn [bind]. rewrite app_nil_r. intros Q. injection Q as <-. apply filter_In in X as [X _]. apply in_map_iff in X as (x & Ex & Ix). apply in_flat_map in Ix as (i & _ & Ix). exact (U _ _ Ix Ex).
    - intros Q. assert (Z : forall ids l, each_key K build lower uids r ids None = Ok l -> l = []). { induction ids as [|i ids IH]; intros l; cbn [each_key]; [congruence|]. destruct (get K build r i) as [k|]; cbn [bind]; [|discriminate]. destruct (uids k); [apply IH|discriminate]. }
      destruct (each_key K build lower uids r (ring_keys r) None) as [l|] eqn:El; cbn [bind] in Q; [|discriminate Q]. rewrite (Z _ _ El) in Q. injection Q as <-. destruct X. }
  unfold DbSearch.search, or_else in H. destruct fp as [[|c f]|], id as [[|c' f']|]; cbn [truthy] in H; try (exact (B _ _ H X)); try (exact (C H)). destruct u; [exact (C H)|]. injection H as <-. destruct X.
Qed.
(** Only the last 8 digits of the fingerprint matter: keys with other fingerprints are found by it. *)
Theorem c89_eight_digits_refuted d f f' id u : f <> [] -> f' <> [] -> short f = short f' -> search d (Some f) id u = search d (Some f') id u.
Proof.
  intros N N' E. unfold DbSearch.search, or_else. destruct f as [|c f]; [contradiction|]. destruct f' as [|c' f']; [contradiction|]. cbn [truthy].
  assert (G : search_in K build lower uids d (Some (c :: f)) u = search_in K build lower uids d (Some (c' :: f')) u); [|destruct id, u; exact G].
  induction d as [|[n r] d IH]; [reflexivity|]. cbn [search_in]. unfold get. rewrite E, IH. reflexivity.
Qed.
(** A fingerprint makes the key id meaningless. *)
Theorem c89_fingerprint_first d f id u : f <> [] -> search d (Some f) id u = search d (Some f) None u.
Proof. intros N. unfold DbSearch.search, or_else. destruct f as [|c f]; [contradiction|]. cbn [truthy]. destruct id, u; reflexivity. Qed.
(** No criterion: nothing. An empty one instead: AttributeError, as soon as some key has a user id. *)
Theorem c89_no_criterion d : search d None None None = Ok []. Proof. reflexivity. Qed.
Theorem c89_empty_criterion_refuted obj n r e es d id : rep fl md5 sha1 r (e :: es) -> Forall (fun e => make build e = Ok (obj e)) (e :: es) -> Forall (fun e => uids (obj e) <> []) (e :: es) -> In id [None; Some []] -> search ((n, r) :: d) (Some []) id None = Err AttributeError.
Proof.
  intros R M U I. assert (E : search ((n, r) :: d) (Some []) id None = search_in K build lower uids ((n, r) :: d) None None) by (unfold DbSearch.search, or_else; cbn [In] in I; destruct I as [<-|[<-|[]]]; reflexivity). rewrite E. cbn [search_in].
  pose proof (ring_keys_once _ _ R) as O. destruct (ring_keys r) as [|i ids] eqn:Q; [exfalso; apply (once_in _ _ O (e_id e)); now left|].
  assert (Ii : In i (map e_id (e :: es))) by (apply (once_in _ _ O); now left). cbn [each_key]. rewrite (get_rep fl md5 sha1 K build r _ i R).
  assert (L : short i = i). { apply short_small. destruct R as (_ & F & _). apply in_map_iff in Ii as (x & <- & Ix). rewrite Forall_forall in F. destruct (F x Ix) as (_ & k & tl & kid & _ & _ & _ & -> & _). apply short_len. }
  rewrite L. destruct (newest i (e :: es)) as [x|] eqn:N.
  - rewrite (under_obj _ _ _ _ M N). cbn [bind]. assert (Ux : uids (obj x) <> []). { rewrite Forall_forall in U. apply U. destruct (newest_split _ _ _ N) as (b & -> & _). apply in_or_app. right. now left. } destruct (uids (obj x)); [contradiction|reflexivity].
  - exfalso. clear -Ii N. remember (e :: es) as l. clear Heql. induction l as [|z b IH]; [destruct Ii|]. cbn [newest] in N. destruct (newest i b); [discriminate N|]. destruct (zlist_eqb (e_id z) i) eqn:E; [discriminate N|]. destruct Ii as [I|I]; [rewrite I, zlist_eqb_refl in E; discriminate E|auto].
Qed.
End Db.

(** ** registering resources *)
Lemma has_name_spec d n : has_name d n = true <-> In n (names d).
Proof. unfold has_name. rewrite existsb_exists. split; [intros (x & I & E); apply zlist_eqb_spec in E as ->; exact I|intros I; exists n; split; [exact I|apply zlist_eqb_refl]]. Qed.
Lemma set_default_spec d n r : NoDup (names d) -> NoDup (names (set_default d n r)) /\ In n (names (set_default d n r)) /\
  forall m q, resource (set_default d n r) m q <-> resource d m q \/ (m = n /\ q = r /\ ~ In n (names d)).
Proof.
  intros N. unfold set_default, resource. destruct (has_name d n) eqn:H.
  - apply has_name_spec in H. split; [exact N|]. split; [exact H|]. intros m q. tauto.
  - assert (Nn : ~ In n (names d)) by (rewrite <- has_name_spec; congruence). unfold names in *. rewrite map_app. split; [|split; [apply in_or_app; right; now left|]].
    + cbn [map]. clear H. induction (map fst d) as [|x l IH]; [constructor; [intros []|constructor]|]. cbn [app fst]. apply NoDup_cons_iff in N as [A B]. constructor; [|apply IH; [exact B|intros X; apply Nn; now right]]. intros X. apply in_app_or in X as [X|[X|[]]]; [contradiction|]. apply Nn. left. auto.
    + intros m q. rewrite in_app_iff. cbn [In]. split; [intros [A|[A|[]]]; [auto|injection A as <- <-; auto]|intros [A|(-> & -> & _)]; auto].
Qed.
(** A name is registered once: the first resource under it stays; the others are not touched and keep their order; a primary resource comes first. *)
Theorem c89_register d n r primary : NoDup (names d) -> let d' := register_resource d n r primary in
  NoDup (names d') /\ (forall m q, resource d' m q <-> resource d m q \/ (m = n /\ q = r /\ ~ In n (names d))) /\
  filter (fun x => negb (zlist_eqb n (fst x))) d' = filter (fun x => negb (zlist_eqb n (fst x))) d /\ (primary = true -> exists q t, d' = (n, q) :: t).
Proof.
  intros N d'. destruct (set_default_spec d n r N) as (A & B & C). set (d1 := set_default d n r) in *.
  assert (F1 : filter (fun x => negb (zlist_eqb n (fst x))) d1 = filter (fun x => negb (zlist_eqb n (fst x))) d). { unfold d1, set_default. destruct (has_name d n); [reflexivity|]. rewrite filter_app. cbn [filter fst]. rewrite zlist_eqb_refl. cbn [negb]. apply app_nil_r. }
  assert (G : primary = false -> d' = d1) by (intros ->; reflexivity). destruct primary; [clear G|rewrite (G eq_refl); split; [exact A|]; split; [exact C|]; split; [exact F1|discriminate]].
  assert (E : d' = filter (fun x => zlist_eqb n (fst x)) d1 ++ filter (fun x => negb (zlist_eqb n (fst x))) d1) by reflexivity.
  assert (P : forall l : db, filter (fun x => negb (zlist_eqb n (fst x))) (filter (fun x => zlist_eqb n (fst x)) l) = [] /\ filter (fun x => negb (zlist_eqb n (fst x))) (filter (fun x => negb (zlist_eqb n (fst x))) l) = filter (fun x => negb (zlist_eqb n (fst x))) l).
  { induction l as [|x l [IH1 IH2]]; [split; reflexivity|]. cbn [filter]. destruct (zlist_eqb n (fst x)) eqn:Q; cbn [negb filter]; rewrite ?Q; cbn [negb]; rewrite ?IH1, ?IH2; split; reflexivity. }
  split; [|split; [|split]].
  - rewrite E. clear -A. unfold names in *. rewrite map_app. induction d1 as [|[m q] l IH]; [constructor|]. cbn [map fst] in A. apply NoDup_cons_iff in A as [A1 A2]. specialize (IH A2). cbn [filter fst]. destruct (zlist_eqb n m) eqn:Q; cbn [negb map app fst].
    + constructor; [|exact IH]. intros X. apply A1. apply in_app_or in X as [X|X]; apply in_map_iff in X as (y & <- & Iy); apply filter_In in Iy as [Iy _]; now apply in_map.
    + apply NoDup_Add with (a := m) (l := map fst (filter (fun x => zlist_eqb n (fst x)) l) ++ map fst (filter (fun x => negb (zlist_eqb n (fst x))) l)); [apply Add_app|]. split; [exact IH|]. intros X. apply A1. apply in_app_or in X as [X|X]; apply in_map_iff in X as (y & <- & Iy); apply filter_In in Iy as [Iy _]; now apply in_map.
  - intros m q. rewrite <- C. unfold resource. rewrite E, in_app_iff, !filter_In. destruct (zlist_eqb n (fst (m, q))); cbn [negb]; intuition congruence.
  - rewrite E, filter_app. destruct (P d1) as [-> ->]. exact F1.
  - intros _. rewrite E. apply in_map_iff in B as ([m q] & Em & Im). cbn [fst] in Em. subst m. clear -Im. induction d1 as [|[m q'] l IH]; [destruct Im|]. cbn [filter fst]. destruct (zlist_eqb n m) eqn:Q.
    + apply zlist_eqb_spec in Q as <-. cbn [app]. eauto.
    + destruct Im as [Im|Im]; [injection Im as -> ->; rewrite zlist_eqb_refl in Q; discriminate Q|]. destruct (IH Im) as (q2 & t & Et). cbn [negb]. destruct (filter (fun x => zlist_eqb n (fst x)) l) as [|y z] eqn:Fz; [|cbn [app] in *; injection Et as -> _; eauto].
      exfalso. assert (X : In (n, q) (filter (fun x => zlist_eqb n (fst x)) l)) by (apply filter_In; split; [exact Im|apply zlist_eqb_refl]). rewrite Fz in X. destruct X.
Qed.
Print Assumptions c89_by_id_partial. Print Assumptions c89_by_key_id_partial. Print Assumptions c89_by_user_id_partial. Print Assumptions c89_every_key_partial. Print Assumptions c89_hidden_refuted.
Print Assumptions c89_eight_digits_refuted. Print Assumptions c89_fingerprint_first. Print Assumptions c89_no_criterion. Print Assumptions c89_empty_criterion_refuted. Print Assumptions c89_register.

(** ** examples: two files with keys 1, 2 and 3; user ids A, A and B; letters are lowered by 32 *)
Definition c89_lower (t : text) : text := map (fun c => if (65 <=? c) && (c <=? 90) then c + 32 else c) t.
Definition c89_uids (k : bool * list pkt) : list text := flat_map (fun p => match p_body p with BData (PUserId u) => [u] | _ => [] end) (snd k).
Definition c89_ring : ring := match open_ring Z.log2 ex_sha ex_sha (file_of [ex_entry 3 66]) false false with Ok r => r | Err _ => Ring [] [] None true true end.
Definition c89_db : db := [([1], ex_ring); ([2], c89_ring)].
Definition c89_obj (e : entry) : bool * list pkt := match make seen e with Ok k => k | Err _ => (true, []) end.
Example c89_holds_ex : holds Z.log2 ex_sha ex_sha seen c89_obj c89_db [[ex_entry 1 65; ex_entry 2 65]; [ex_entry 3 66]] /\ Forall (fun es => NoDup (map e_id es)) [[ex_entry 1 65; ex_entry 2 65]; [ex_entry 3 66]].
Proof.
  split.
  - constructor; [split; [exact ex_rep|repeat (apply Forall_cons || apply Forall_nil); reflexivity]|]. constructor; [|constructor]. split; [|repeat (apply Forall_cons || apply Forall_nil); reflexivity].
    destruct (open_rep Z.log2 ex_sha ex_sha [ex_entry 3 66] false) as (r & E & R & _). { repeat (apply Forall_cons || apply Forall_nil); apply ex_entry_ok; cbn; auto. } cbn [snd]. unfold c89_ring. rewrite E. exact R.
  - constructor; [constructor; [cbn [map In]; intros [H|[]]; vm_compute in H; discriminate H|constructor; [intros []|constructor]]|]. constructor; [constructor; [intros []|constructor]|constructor].
Qed.
Example c89_ex : search _ seen c89_lower c89_uids c89_db None None (Some [97]) = Ok [c89_obj (ex_entry 1 65); c89_obj (ex_entry 2 65)] /\ search _ seen c89_lower c89_uids c89_db None None (Some []) = Ok [c89_obj (ex_entry 1 65); c89_obj (ex_entry 2 65); c89_obj (ex_entry 3 66)] /\
  search _ seen c89_lower c89_uids c89_db (Some (ex_fp 3)) None None = Ok [c89_obj (ex_entry 3 66)] /\ search _ seen c89_lower c89_uids c89_db (Some (ex_fp 3)) None (Some [65]) = Ok [].
Proof. split; [vm_compute; reflexivity|]. split; [vm_compute; reflexivity|]. split; [vm_compute; reflexivity|vm_compute; reflexivity]. Qed.
(** a compressed data packet in the file is not part of the key *)
Example c89_compressed_ex : let e := Entry (ex_id 1) [(ex_packet 1, ex_octets 1); (Pkt NewH (BData (PCompressed 1 [7])), [200; 2; 1; 7]); ex_uid 65] in
  match open_ring Z.log2 ex_sha ex_sha (file_of [e]) false false with Ok r => get _ seen r (ex_fp 1) = Ok (c89_obj (ex_entry 1 65)) | Err _ => False end.
Proof. vm_compute. reflexivity. Qed.
(** a second key with the same last 8 digits hides the first *)
Example c89_hidden_ex : let a := ex_entry 1 65 in let b := ex_entry 1 66 in In (e_id a) (map e_id [b]) /\ c89_obj b <> c89_obj a /\
  match open_ring Z.log2 ex_sha ex_sha (file_of [a; b]) false false with Ok r => search _ seen c89_lower c89_uids [([1], r)] None None (Some [65]) = Ok [] | Err _ => False end.
Proof. split; [left; reflexivity|]. split; [vm_compute; discriminate|vm_compute; reflexivity]. Qed.
