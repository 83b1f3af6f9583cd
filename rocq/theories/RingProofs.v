(** Proofs: keyring files. *)
From Verif Require Import Base BaseProofs Utils Framing SpecFraming FramingProofs Text Armor S2k SessionKeys KeyPackets SigPackets DataPackets UserAttr Packets Keyring SpecRing.

Lemma file_of_app a b : file_of (a ++ b) = file_of a ++ file_of b.
Proof. unfold file_of. now rewrite map_app, concat_app. Qed.
Lemma octets_app a b : octets (a ++ b) = octets a ++ octets b.
Proof. unfold octets. now rewrite map_app, concat_app. Qed.
Lemma file_of_cons e es : file_of (e :: es) = e_bytes e ++ file_of es.
Proof. reflexivity. Qed.
Definition parts (es : list entry) : list (pkt * bytes) := concat (map e_parts es).
Lemma parts_octets es : octets (parts es) = file_of es.
Proof. induction es as [|e es IH]; [reflexivity|]. unfold parts in *. cbn [map concat]. rewrite octets_app, IH. reflexivity. Qed.
Lemma short_len f : zlen (short f) <= 8.
Proof. unfold short, slice_from, zlen. rewrite skipn_length. unfold clip. change (-8 <? 0) with true. cbn iota. unfold zlen. lia. Qed.

(** the packets of a file, with their positions *)
Fixpoint lay (o : Z) (l : list (pkt * bytes)) : list (Z * pkt * Z) := match l with [] => [] | (p, x) :: t => (o, p, o + zlen x) :: lay (o + zlen x) t end.
Lemma lay_app o a b : lay o (a ++ b) = lay o a ++ lay (o + zlen (octets a)) b.
Proof.
  revert o. induction a as [|[p x] a IH]; intros o.
  - cbn [app lay]. f_equal. change (zlen (octets [])) with 0. lia.
  - cbn [app lay]. rewrite IH. f_equal. f_equal. f_equal. unfold octets. cbn [map concat snd]. rewrite zlen_app. lia.
Qed.
Lemma packets_at_lay l : forall fuel size, Forall part_ok l -> (length (octets l) < fuel)%nat -> packets_at fuel size (octets l) = (lay (size - zlen (octets l)) l, None).
Proof.
  induction l as [|[p x] l IH]; intros fuel size F L.
  - destruct fuel; [lia|]. reflexivity.
  - destruct fuel as [|fuel]; [lia|]. destruct (Forall_inv F) as (r & R & D). cbn [fst snd] in *. change (octets ((p, x) :: l)) with (x ++ octets l) in *. pose proof (rfc_packet_len _ _ _ R) as Lx.
    cbn [packets_at]. destruct (x ++ octets l) as [|b0 s0] eqn:Es. { apply app_eq_nil in Es as [-> _]. change (zlen []) with 0 in Lx. lia. } rewrite <- Es in *. clear b0 s0 Es.
    rewrite (packet_from_stream_rfc pkt_dec r x _ R), D. cbn [bind]. rewrite IH; [|exact (Forall_inv_tail F)|rewrite app_length in L; unfold zlen in Lx; lia].
    rewrite zlen_app. cbn [lay]. replace (size - (zlen x + zlen (octets l)) + zlen x) with (size - zlen (octets l)) by lia. reflexivity.
Qed.
Section Ring.
Variables (fl : Z -> Z) (md5 sha1 : bytes -> bytes).
Let eok := entry_ok fl md5 sha1.
Lemma parts_ok es : Forall eok es -> Forall part_ok (parts es).
Proof. induction 1 as [|e es [F _] _ IH]; [constructor|]. unfold parts. cbn [map concat]. apply Forall_app. split; [exact F|exact IH]. Qed.
Lemma packets_from_lay a b : Forall eok b -> packets_from (file_of (a ++ b)) (zlen (file_of a)) = (lay (zlen (file_of a)) (parts b), None).
Proof.
  intros F. unfold packets_from. rewrite file_of_app, slice_from_app, <- (parts_octets b). rewrite packets_at_lay; [|exact (parts_ok b F)|rewrite app_length; lia]. rewrite zlen_app. do 2 f_equal. lia.
Qed.
Lemma is_key_spec p : is_key p = true <-> pkt_type p = 5 \/ pkt_type p = 6.
Proof. unfold is_key. lia. Qed.
Fixpoint tab (o : Z) (es : list entry) (t : list (text * Z)) : list (text * Z) := match es with [] => t | e :: es => tab (o + zlen (e_bytes e)) es ((e_id e, o) :: t) end.
Lemma scan_tail l : forall o e pref t rest, Forall (fun x => pkt_type (fst x) <> 5 /\ pkt_type (fst x) <> 6) l -> pref <> None -> scan fl md5 sha1 (lay o l ++ rest) e pref t = scan fl md5 sha1 rest e pref t.
Proof.
  induction l as [|[p x] l IH]; intros o e pref t rest F N; [reflexivity|]. cbn [lay app scan]. destruct pref as [h|]; [|congruence]. pose proof (Forall_inv F) as [A B]. cbn [fst] in A, B.
  destruct (is_key p) eqn:E; [apply is_key_spec in E; lia|]. apply IH; [exact (Forall_inv_tail F)|exact N].
Qed.
Lemma scan_entries es : forall o pref t, Forall eok es -> scan fl md5 sha1 (lay o (parts es)) None pref t = (file_fmt pref es, Ok (tab o es t)).
Proof.
  induction es as [|e es IH]; intros o pref t F.
  - cbn. destruct pref; reflexivity.
  - destruct (Forall_inv F) as (P & k & tl & kid & E & Tk & Hk & Hid & Ft). unfold parts. cbn [map concat]. fold (parts es). rewrite lay_app. unfold e_pkts in E. destruct e as [id ps]. cbn [e_parts e_id] in *. destruct ps as [|[k' x] ps]; [discriminate E|]. cbn [map fst] in E. injection E as -> <-.
    cbn [lay app scan]. assert (Kk : is_key k = true) by (apply is_key_spec; exact Tk). rewrite Kk, Hk. rewrite scan_tail.
    + change (octets ((k, x) :: ps)) with (e_bytes (Entry id ((k, x) :: ps))). rewrite IH by exact (Forall_inv_tail F). cbn [tab e_id]. rewrite Hid. destruct pref; reflexivity.
    + rewrite Forall_map in Ft. eapply Forall_impl; [|exact Ft]. cbn beta. intros; tauto.
    + destruct pref; discriminate.
Qed.
Lemma lookup_cons {A} id (v : A) t x : lookup ((id, v) :: t) x = if zlist_eqb id x then Some v else lookup t x.
Proof. unfold lookup. cbn [find fst]. destruct (zlist_eqb id x); reflexivity. Qed.
Lemma lookup_tab es : forall o t id, lookup (tab o es t) id = match newest id es with Some _ => Some (o + zlen (file_of (before_newest id es))) | None => lookup t id end.
Proof.
  induction es as [|e es IH]; intros o t id; [reflexivity|]. cbn [tab newest before_newest]. rewrite IH. destruct (newest id es) as [y|] eqn:N.
  - rewrite file_of_cons, zlen_app. f_equal. lia.
  - rewrite lookup_cons. destruct (zlist_eqb (e_id e) id); [|reflexivity]. change (zlen (file_of [])) with 0. f_equal. lia.
Qed.
Lemma newest_split id es e : newest id es = Some e -> exists b, es = before_newest id es ++ e :: b /\ e_id e = id /\ newest id b = None.
Proof.
  induction es as [|x es IH]; intros H; [discriminate H|]. cbn [newest before_newest] in *. destruct (newest id es) as [y|] eqn:N.
  - injection H as ->. destruct IH as (b & E & I & M); [reflexivity|]. exists b. split; [cbn [app]; now rewrite <- E|auto].
  - destruct (zlist_eqb (e_id x) id) eqn:Q; [|discriminate H]. injection H as ->. exists es. split; [reflexivity|]. split; [now apply zlist_eqb_spec|exact N].
Qed.
Lemma newest_app id a b : newest id (a ++ b) = match newest id b with Some e => Some e | None => newest id a end.
Proof. induction a as [|x a IH]; cbn [app newest]; [destruct (newest id b); reflexivity|]. rewrite IH. destruct (newest id b); reflexivity. Qed.
Lemma before_app id a b : before_newest id (a ++ b) = match newest id b with Some e => a ++ before_newest id b | None => before_newest id a end.
Proof.
  induction a as [|x a IH].
  - cbn [app]. destruct (newest id b) eqn:N; [reflexivity|]. destruct b as [|y b]; [reflexivity|]. cbn [newest] in N. cbn [before_newest]. destruct (newest id b); [discriminate N|reflexivity].
  - cbn [app before_newest]. rewrite newest_app, IH. destruct (newest id b); reflexivity.
Qed.
Lemma tab_ids es : forall o t, map fst (tab o es t) = rev (map e_id es) ++ map fst t.
Proof. induction es as [|e es IH]; intros o t; [reflexivity|]. cbn [tab map rev]. rewrite IH, <- app_assoc. reflexivity. Qed.
(** storing a list of keys *)
Lemma store_rep r es : Forall eok es -> r_read_only r = false -> exists r', store fl md5 sha1 r (file_of es) = (r', Ok tt) /\ rep fl md5 sha1 r' es /\ r_pref r' = file_fmt (r_pref r) es /\ r_secret r' = r_secret r.
Proof.
  intros F RO. unfold store, update_table. cbn [r_file r_pref r_table r_read_only r_secret]. pose proof (packets_from_lay [] es F) as E. cbn [app] in E. change (zlen (file_of [])) with 0 in E. rewrite E. rewrite scan_entries by exact F.
  eexists. split; [reflexivity|]. split; [|split; reflexivity]. unfold rep. cbn [r_file r_table r_read_only r_pref]. split; [reflexivity|]. split; [exact F|]. split; [exact RO|]. split.
  - intros id. rewrite lookup_tab. destruct (newest id es); [f_equal; lia|reflexivity].
  - split; [unfold file_fmt; destruct (r_pref r); [reflexivity|]; destruct es as [|e es]; [reflexivity|]; destruct (e_fmt e); reflexivity|]. rewrite tab_ids. apply app_nil_r.
Qed.
Lemma open_rep es secret : Forall eok es -> exists r, open_ring fl md5 sha1 (file_of es) secret false = Ok r /\ rep fl md5 sha1 r es /\ r_secret r = secret.
Proof.
  intros F. destruct (store_rep (Ring [] [] None false secret) es F eq_refl) as (r & E & R & _ & S). unfold open_ring. unfold store in E. cbn [r_table r_pref r_read_only r_secret] in E. rewrite E. eauto.
Qed.
Lemma collect_tail l : forall o rest e acc, acc <> [] -> Forall (fun x => pkt_type (fst x) <> 5 /\ pkt_type (fst x) <> 6) l -> collect (lay o l ++ rest) e acc = collect rest e (acc ++ filter (fun q => negb (pkt_type q =? 8)) (map fst l)).
Proof.
  induction l as [|[p x] l IH]; intros o rest e acc N F; [cbn; now rewrite app_nil_r|]. cbn [lay app collect map fst filter]. pose proof (Forall_inv F) as (A & B). cbn [fst] in *. destruct (pkt_type p =? 8) eqn:E8; cbn [negb].
  - apply IH; [exact N|exact (Forall_inv_tail F)].
  - assert (E : is_key p = false) by (unfold is_key; lia). rewrite E, andb_false_r. rewrite IH; [|destruct acc; discriminate|exact (Forall_inv_tail F)]. now rewrite <- app_assoc.
Qed.
Lemma get_rep (K : Type) (build : bool -> list pkt -> res K) r es f : rep fl md5 sha1 r es -> get K build r f = match newest (short f) es with Some e => make build e | None => Err KeyError end.
Proof.
  intros (Ef & F & _ & L & _). unfold get. rewrite L. destruct (newest (short f) es) as [e|] eqn:N; [|reflexivity]. destruct (newest_split _ _ _ N) as (b & Es & Hid & _). unfold get_key. rewrite Ef. rewrite Es at 1.
  set (a := before_newest (short f) es) in *. rewrite Es in F. apply Forall_app in F as [_ F]. rewrite packets_from_lay by exact F. destruct (Forall_inv F) as (P & k & tl & kid & E & Tk & Hk & Hi & Ft). unfold make. destruct e as [id ps]. unfold e_pkts in *. cbn [e_parts e_id] in *. destruct ps as [|[k' x] ps]; [discriminate E|]. cbn [map fst] in E. injection E as -> <-.
  unfold parts. cbn [map concat e_parts]. fold (parts b). rewrite lay_app. cbn [lay app collect].
  replace (pkt_type k =? 8) with false by lia. cbn [negb andb app]. rewrite collect_tail; [|discriminate|rewrite Forall_map in Ft; exact Ft].
  assert (C : forall o, collect (lay o (parts b)) None ([k] ++ filter (fun q => negb (pkt_type q =? 8)) (map fst ps)) = Ok (k :: filter (fun q => negb (pkt_type q =? 8)) (map fst ps))).
  { intros o. destruct b as [|e2 b2]; [reflexivity|]. pose proof (Forall_inv_tail F) as F2. destruct (Forall_inv F2) as (_ & k2 & tl2 & kid2 & E2 & Tk2 & _). unfold parts. cbn [map concat]. destruct e2 as [id2 ps2]. unfold e_pkts in E2. cbn [e_parts] in *. destruct ps2 as [|[k2' x2] ps2]; [discriminate E2|]. cbn [map fst] in E2. injection E2 as -> _.
    cbn [app lay collect]. replace (pkt_type k2 =? 8) with false by lia. assert (Q : is_key k2 = true) by (apply is_key_spec; exact Tk2). rewrite Q. reflexivity. }
  rewrite C. cbn [bind map fst]. destruct Tk as [T|T]; rewrite T; reflexivity.
Qed.
Lemma rep_ids r es id o : rep fl md5 sha1 r es -> lookup (r_table r) id = Some o -> zlen id <= 8.
Proof.
  intros (_ & F & _ & L & _) H. rewrite L in H. destruct (newest id es) as [e|] eqn:N; [|discriminate H]. destruct (newest_split _ _ _ N) as (b & Es & Hid & _). rewrite Es in F. apply Forall_app in F as [_ F]. destruct (Forall_inv F) as (_ & k & tl & kid & _ & _ & _ & Hi & _). rewrite <- Hid, Hi. apply short_len.
Qed.
Lemma add_rep r es k f ent : rep fl md5 sha1 r es -> writes fl md5 sha1 k f ent -> exists r', add fl md5 sha1 r k = (r', Ok tt) /\ rep fl md5 sha1 r' (es ++ [ent (r_pref r)]) /\ r_pref r' = file_fmt (r_pref r) (es ++ [ent (r_pref r)]) /\ r_secret r' = r_secret r.
Proof.
  intros R (Hf & Lf & W). unfold add. destruct R as (Ef & F & RO & L & Pf) eqn:ER. clear ER. rewrite RO, Hf. destruct (lookup (r_table r) f) as [o|] eqn:Lk; [exfalso; pose proof (rep_ids r es f o (conj Ef (conj F (conj RO (conj L Pf)))) Lk); lia|].
  destruct (W (r_pref r)) as (Wb & We & _). rewrite Wb. replace (r_file r ++ e_bytes (ent (r_pref r))) with (file_of (es ++ [ent (r_pref r)])) by (rewrite file_of_app, Ef, file_of_cons; unfold file_of at 2; cbn [map concat]; now rewrite app_nil_r).
  apply store_rep; [|exact RO]. apply Forall_app. split; [exact F|]. constructor; [exact We|constructor].
Qed.
Lemma without_rep r es id e : rep fl md5 sha1 r es -> newest id es = Some e -> without r (zlen (file_of (before_newest id es))) = Ok (file_of (before_newest id es), e_fmt e).
Proof.
  intros (Ef & F & RO & L & Pf) N. destruct (newest_split _ _ _ N) as (b & Es & Hid & _). set (a := before_newest id es) in *. unfold without. rewrite Ef. rewrite Es in F |- * . apply Forall_app in F as [_ F]. rewrite packets_from_lay by exact F.
  destruct (Forall_inv F) as (P & k & tl & kid & E & Tk & Hk & Hi & Ft). assert (Pn : exists q x, parts (e :: b) = q ++ [x]).
  { destruct (exists_last (l := parts (e :: b))) as (q & x & Q); [|eauto]. unfold parts. cbn [map concat]. unfold e_pkts in E. destruct (e_parts e); [discriminate E|discriminate]. }
  destruct Pn as (q & [p x] & Q). assert (Sz : zlen (file_of (a ++ e :: b)) = zlen (file_of a) + zlen (octets q) + zlen x). { rewrite file_of_app, zlen_app, <- (parts_octets (e :: b)), Q, octets_app, zlen_app. unfold octets at 2. cbn [map concat snd]. rewrite app_nil_r. lia. }
  rewrite Q, lay_app, rev_app_distr. cbn [lay rev app]. rewrite <- Sz. f_equal. f_equal.
  - rewrite <- (app_nil_r (file_of (a ++ e :: b))) at 2. rewrite slice_from_app, app_nil_r. rewrite file_of_app. apply (slice_app' [] (file_of a)); [reflexivity|]. change (zlen []) with 0. lia.
  - assert (G : exists x0 t0, parts (e :: b) = (k, x0) :: t0). { unfold parts. cbn [map concat]. unfold e_pkts in E. destruct (e_parts e) as [|[k' x0] t0]; [discriminate E|]. cbn [map fst] in E. injection E as -> _. cbn [app]. eauto. }
    destruct G as (x0 & t0 & G). unfold e_fmt. rewrite E. rewrite G in Q. destruct q as [|[q0 y0] q].
    + cbn [app] in Q. injection Q as <- _ _. reflexivity.
    + cbn [app] in Q. injection Q as <- _ _. reflexivity.
Qed.
Lemma change_rep new r es k f ent : rep fl md5 sha1 r es -> writes fl md5 sha1 k f ent ->
  match newest (short f) es with
  | None => change fl md5 sha1 new r k = (r, Err KeyError)
  | Some e => exists r', change fl md5 sha1 new r k = (r', Ok tt) /\ let es' := before_newest (short f) es ++ (if new then [ent (e_fmt e)] else []) in rep fl md5 sha1 r' es' /\ r_pref r' = file_fmt (r_pref r) es' /\ r_secret r' = r_secret r
  end.
Proof.
  intros R (Hf & Lf & W). unfold change. destruct R as (Ef & F & RO & L & Pf) eqn:ER. clear ER. rewrite RO, Hf, L. destruct (newest (short f) es) as [e|] eqn:N; [|reflexivity].
  rewrite (without_rep r es _ e (conj Ef (conj F (conj RO (conj L Pf)))) N). destruct (newest_split _ _ _ N) as (b & Es & _ & _). set (a := before_newest (short f) es) in *. assert (Fa : Forall eok a) by (rewrite Es in F; now apply Forall_app in F).
  destruct new.
  - destruct (W (e_fmt e)) as (Wb & We & _). rewrite Wb. replace (file_of a ++ e_bytes (ent (e_fmt e))) with (file_of (a ++ [ent (e_fmt e)])) by (rewrite file_of_app, file_of_cons; unfold file_of at 2; cbn [map concat]; now rewrite app_nil_r).
    apply store_rep; [|exact RO]. apply Forall_app. split; [exact Fa|]. constructor; [exact We|constructor].
  - rewrite app_nil_r. apply store_rep; [exact Fa|exact RO].
Qed.
(** ** histories *)
Lemma step_rep ent r es o : rep fl md5 sha1 r es -> (exists f, writes fl md5 sha1 (of_op o) f (ent (of_op o))) ->
  rep fl md5 sha1 (apply fl md5 sha1 r o) (fst (list_step ent (es, r_pref r) o)) /\ r_pref (apply fl md5 sha1 r o) = snd (list_step ent (es, r_pref r) o).
Proof.
  intros R (f & W). assert (Hid : e_id (ent (of_op o) None) = short f) by (destruct W as (_ & _ & W); apply W).
  assert (Pf : r_pref r = file_fmt (r_pref r) es) by apply R.
  unfold list_step. rewrite Hid. destruct o as [k|k|k]; cbn [of_op] in *; unfold apply.
  - destruct (add_rep r es k f _ R W) as (r' & E & R' & P' & _). rewrite E. cbn [fst snd]. auto.
  - pose proof (change_rep true r es k f _ R W) as C. unfold update. destruct (newest (short f) es) as [e|]; [destruct C as (r' & E & R' & P' & _); rewrite E; cbn [fst snd]; auto|]. rewrite C. cbn [fst snd]. auto.
  - pose proof (change_rep false r es k f _ R W) as C. unfold delete. destruct (newest (short f) es) as [e|]; [destruct C as (r' & E & R' & P' & _); rewrite E; cbn [fst snd]; rewrite app_nil_r in R', P'; auto|]. rewrite C. cbn [fst snd]. auto.
Qed.
Lemma run_rep ent ops : forall r es, rep fl md5 sha1 r es -> all_write fl md5 sha1 ent ops -> rep fl md5 sha1 (run fl md5 sha1 r ops) (fst (list_run ent ops (es, r_pref r))).
Proof.
  induction ops as [|o ops IH]; intros r es R W; [exact R|]. destruct (step_rep ent r es o R (Forall_inv W)) as [R' P']. unfold run, list_run in *. cbn [fold_left]. destruct (list_step ent (es, r_pref r) o) as [es' p'] eqn:E. cbn [fst snd] in *. subst p'. exact (IH _ _ R' (Forall_inv_tail W)).
Qed.
(** tidy histories *)
Definition agrees (es : list entry) (m : stored) : Prop := forall id, match newest id es with Some e => exists g h, m id = Some g /\ g h = e | None => m id = None end.
Lemma newest_unique id es l e : NoDup (map e_id es) -> es = l ++ [e] -> e_id e = id -> newest id es = Some e /\ before_newest id es = l.
Proof.
  intros N -> H. rewrite newest_app, before_app. cbn [newest before_newest]. rewrite H, zlist_eqb_refl. split; [reflexivity|now rewrite app_nil_r].
Qed.
Lemma newest_none id es : newest id es = None <-> ~ In id (map e_id es).
Proof.
  induction es as [|e es IH]; cbn [newest map In]; [split; auto|]. destruct (newest id es) as [y|] eqn:N.
  - split; [discriminate|]. intros H. exfalso. assert (I : In id (map e_id es)). { destruct (newest_split _ _ _ N) as (b & -> & Hid & _). rewrite map_app. apply in_app_iff. right. left. exact Hid. } tauto.
  - destruct (zlist_eqb (e_id e) id) eqn:E.
    + apply zlist_eqb_spec in E. split; [discriminate|tauto].
    + assert (e_id e <> id) by (intros Q; rewrite Q, zlist_eqb_refl in E; discriminate). split; [|reflexivity]. intros _ [Q|Q]; [congruence|]. apply IH in Q; [exact Q|reflexivity].
Qed.
Lemma tidy_step ent s o m : NoDup (map e_id (fst s)) -> agrees (fst s) m -> (exists f, writes fl md5 sha1 (of_op o) f (ent (of_op o))) -> tidy ent s [o] ->
  NoDup (map e_id (fst (list_step ent s o))) /\ agrees (fst (list_step ent s o)) (map_step ent m o).
Proof.
  intros N A (f & W) [T _]. destruct s as [es pref]. cbn [fst] in *. assert (Ids : forall h, e_id (ent (of_op o) h) = short f) by (destruct W as (_ & _ & W); intros h; apply W).
  unfold list_step, map_step. rewrite Ids in *. destruct o as [k|k|k]; cbn [of_op fst] in *.
  - split.
    + rewrite map_app. cbn [map]. rewrite Ids. apply newest_none in T. clear -N T. induction (map e_id es) as [|x l IH]; cbn [app]; [constructor; [intros []|constructor]|]. inversion N; subst. constructor.
      * rewrite in_app_iff. intros [I|[I|[]]]; [auto|]. apply T. left. now symmetry.
      * apply IH; [assumption|]. intros I. apply T. now right.
    + intros id. rewrite newest_app. cbn [newest]. rewrite Ids. unfold set_id. destruct (zlist_eqb (short f) id) eqn:E.
      * apply zlist_eqb_spec in E as <-. rewrite zlist_eqb_refl. eauto.
      * assert (E' : zlist_eqb id (short f) = false) by (apply zlist_eqb_neq; intros ->; rewrite zlist_eqb_refl in E; discriminate). rewrite E'. exact (A id).
  - destruct T as (l & e & -> & He). destruct (newest_unique _ _ _ _ N eq_refl He) as [E1 E2]. rewrite E1, E2. rewrite map_app in N. cbn [map] in N. rewrite He in N. split.
    + rewrite map_app. cbn [map]. now rewrite Ids.
    + intros id. rewrite newest_app. cbn [newest]. rewrite Ids. unfold set_id. destruct (zlist_eqb (short f) id) eqn:E.
      * apply zlist_eqb_spec in E as <-. rewrite zlist_eqb_refl. eauto.
      * assert (E' : zlist_eqb id (short f) = false) by (apply zlist_eqb_neq; intros ->; rewrite zlist_eqb_refl in E; discriminate). rewrite E'. pose proof (A id) as A'. rewrite newest_app in A'. cbn [newest] in A'. rewrite He, E in A'. exact A'.
  - destruct T as (l & e & -> & He). destruct (newest_unique _ _ _ _ N eq_refl He) as [E1 E2]. rewrite E1, E2. rewrite map_app in N. cbn [map] in N. rewrite He in N. pose proof (NoDup_remove _ _ _ N) as [N1 N2]. rewrite app_nil_r in N1, N2. split; [exact N1|].
    intros id. unfold set_id. destruct (zlist_eqb id (short f)) eqn:E.
    + apply zlist_eqb_spec in E as ->. apply newest_none in N2. now rewrite N2.
    + assert (E' : zlist_eqb (short f) id = false) by (apply zlist_eqb_neq; intros <-; rewrite zlist_eqb_refl in E; discriminate). pose proof (A id) as A'. rewrite newest_app in A'. cbn [newest] in A'. rewrite He, E' in A'. exact A'.
Qed.
Lemma tidy_run ent ops : forall s m, NoDup (map e_id (fst s)) -> agrees (fst s) m -> all_write fl md5 sha1 ent ops -> tidy ent s ops -> agrees (fst (list_run ent ops s)) (fold_left (map_step ent) ops m).
Proof.
  induction ops as [|o ops IH]; intros s m N A W T; [exact A|]. destruct T as [T1 T2]. destruct (tidy_step ent s o m N A (Forall_inv W) (conj T1 I)) as [N' A']. unfold list_run. cbn [fold_left]. exact (IH _ _ N' A' (Forall_inv_tail W) T2).
Qed.
Lemma initial_agrees es : agrees es (initial es).
Proof. intros id. unfold initial. destruct (newest id es) as [e|]; [|reflexivity]. exists (fun _ => e), None. auto. Qed.
End Ring.
