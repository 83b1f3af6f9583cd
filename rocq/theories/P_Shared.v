(** C76-C77: several users of one keyring file, and crashes. *)
From Verif Require Import Base BaseProofs Utils Framing SpecFraming Text Armor S2k SessionKeys KeyPackets SigPackets DataPackets UserAttr Packets Keyring SpecRing RingProofs P_Ring SharedRing.

Section Shared.
Variables (fl : Z -> Z) (md5 sha1 : bytes -> bytes) (K : Type) (build : bool -> list pkt -> res K).
Notation eok := (entry_ok fl md5 sha1).
Notation rep := (rep fl md5 sha1).
(** a file of keys, and resources that saw the first of these keys when they last read the whole file *)
Definition shares (s : shared) (es : list entry) : Prop :=
  sh_file s = file_of es /\ Forall eok es /\ Forall (fun r => exists es0 new, es = es0 ++ new /\ rep (seeing (file_of es0) r) es0) (sh_rings s).
(** what was added by a sequence of additions: each key with some header format *)
Inductive added (ent : kobj -> option header_format -> entry) : list (nat * op) -> list entry -> Prop :=
| added_nil : added ent [] []
| added_cons i k h l es : added ent l es -> added ent ((i, Add k) :: l) (ent k h :: es).

Lemma rep_seeing r es : rep r es -> seeing (file_of es) r = r.
Proof. intros (E & _). unfold seeing. rewrite <- E. now destruct r. Qed.
Lemma seeing_seeing a b r : seeing a (seeing b r) = seeing a r. Proof. reflexivity. Qed.
Lemma stale_add r es0 new k f ent : rep (seeing (file_of es0) r) es0 -> Forall eok (es0 ++ new) -> writes fl md5 sha1 k f ent ->
  exists r', add fl md5 sha1 (seeing (file_of (es0 ++ new)) r) k = (r', Ok tt) /\ rep r' ((es0 ++ new) ++ [ent (r_pref r)]).
Proof.
  intros R F (Hf & Lf & W). pose proof R as (_ & _ & RO & _). unfold add. cbn [seeing r_read_only r_table r_pref r_file] in *. rewrite RO, Hf. destruct (lookup (r_table r) f) as [o|] eqn:Lk; [exfalso; pose proof (rep_ids fl md5 sha1 _ es0 f o R Lk); lia|].
  destruct (W (r_pref r)) as (Wb & We & _). rewrite Wb. replace (file_of (es0 ++ new) ++ e_bytes (ent (r_pref r))) with (file_of ((es0 ++ new) ++ [ent (r_pref r)])) by (rewrite (file_of_app (es0 ++ new)), file_of_cons; f_equal; unfold file_of; cbn [map concat]; now rewrite app_nil_r).
  destruct (store_rep fl md5 sha1 (seeing (file_of (es0 ++ new)) r) ((es0 ++ new) ++ [ent (r_pref r)])) as (r' & E & R' & _); [apply Forall_app; split; [exact F|constructor; [exact We|constructor]]|exact RO|]. exists r'. split; [exact E|exact R'].
Qed.
Lemma put_forall {A} (P Q : A -> Prop) l i v : Forall P l -> (forall x, P x -> Q x) -> Q v -> Forall Q (put l i v).
Proof. intros F I V. revert i. induction F as [|x l Px F IH]; intros [|i]; cbn [put]; constructor; auto. clear -F I. eapply Forall_impl; [|exact F]. exact I. Qed.
Lemma put_nth {A} (l : list A) i v x : nth_error l i = Some x -> nth_error (put l i v) i = Some v.
Proof. revert i. induction l as [|y l IH]; intros [|i] H; try discriminate H; [reflexivity|exact (IH i H)]. Qed.
Lemma put_other {A} (l : list A) i j v : i <> j -> nth_error (put l j v) i = nth_error l i.
Proof. revert i j. induction l as [|x l IH]; intros [|i] [|j] N; try reflexivity; try contradiction. cbn [put nth_error]. apply IH. congruence. Qed.
Lemma put_length {A} (l : list A) i v : length (put l i v) = length l.
Proof. revert i. induction l as [|y l IH]; intros [|i]; cbn [put length]; auto. Qed.

(** C76. However the additions of any number of users are interleaved, none is lost: the file holds the keys that were there, then every key
    that was added, in the order of the additions. *)
Theorem c76_adds_partial ent ops s es : shares s es -> Forall (fun x => (fst x < length (sh_rings s))%nat /\ exists k f, snd x = Add k /\ writes fl md5 sha1 k f (ent k)) ops ->
  exists new, added ent ops new /\ shares (sh_run fl md5 sha1 s ops) (es ++ new).
Proof.
  revert s es. induction ops as [|[i o] ops IH]; intros s es S F; [exists []; rewrite app_nil_r; split; [constructor|exact S]|].
  destruct (Forall_inv F) as (Li & k & f & Ho & W). cbn [fst snd] in Li, Ho. subst o. destruct S as (Sf & Se & Sr). destruct (nth_error (sh_rings s) i) as [r|] eqn:Ei; [|apply nth_error_None in Ei; lia].
  pose proof Sr as Sr'. rewrite Forall_forall in Sr'. destruct (Sr' r (nth_error_In _ _ Ei)) as (es0 & new0 & E0 & R0). rewrite E0 in Se. destruct (stale_add r es0 new0 k f (ent k) R0 Se W) as (r' & Ea & Rr). rewrite <- E0 in Ea, Rr, Se.
  assert (St : sh_step fl md5 sha1 s i (Add k) = Shared (r_file r') (put (sh_rings s) i r')). { unfold sh_step. rewrite Ei. unfold apply. rewrite Sf, Ea. reflexivity. }
  assert (S2 : shares (sh_step fl md5 sha1 s i (Add k)) (es ++ [ent k (r_pref r)])).
  { rewrite St. pose proof Rr as (Ef & Fe & _). split; [exact Ef|]. split; [exact Fe|]. cbn [sh_rings]. apply (put_forall _ _ _ _ _ Sr); [|].
    - intros x (a & b & Eab & Rab). exists a, (b ++ [ent k (r_pref r)]). rewrite app_assoc, <- Eab. split; [reflexivity|exact Rab].
    - exists (es ++ [ent k (r_pref r)]), []. rewrite app_nil_r. split; [reflexivity|]. rewrite rep_seeing; exact Rr. }
  destruct (IH _ _ S2) as (new & A & B).
  - rewrite St. cbn [sh_rings]. rewrite put_length. exact (Forall_inv_tail F).
  - exists (ent k (r_pref r) :: new). split; [constructor; exact A|]. rewrite <- app_assoc in B. exact B.
Qed.
(** Meanwhile each user still finds the keys it knows about. *)
Lemma get_key_at r a e b : r_file r = file_of (a ++ e :: b) -> Forall eok (e :: b) -> get_key K build r (zlen (file_of a)) = make build e.
Proof.
  intros Ef F. unfold get_key. rewrite Ef. rewrite (packets_from_lay fl md5 sha1) by exact F. destruct (Forall_inv F) as (P & k & tl & kid & E & Tk & Hk & Hi & Ft). unfold make. destruct e as [id ps]. unfold e_pkts in *. cbn [e_parts e_id] in *. destruct ps as [|[k' x] ps]; [discriminate E|]. cbn [map fst] in E. injection E as -> <-.
  unfold parts. cbn [map concat e_parts]. fold (parts b). rewrite lay_app. cbn [lay app collect].
  replace (pkt_type k =? 8) with false by lia. cbn [negb andb app]. rewrite collect_tail; [|discriminate|rewrite Forall_map in Ft; exact Ft].
  assert (C : forall o, collect (lay o (parts b)) None ([k] ++ filter (fun q => negb (pkt_type q =? 8)) (map fst ps)) = Ok (k :: filter (fun q => negb (pkt_type q =? 8)) (map fst ps))).
  { intros o. destruct b as [|e2 b2]; [reflexivity|]. pose proof (Forall_inv_tail F) as F2. destruct (Forall_inv F2) as (_ & k2 & tl2 & kid2 & E2 & Tk2 & _). unfold parts. cbn [map concat]. destruct e2 as [id2 ps2]. unfold e_pkts in E2. cbn [e_parts] in *. destruct ps2 as [|[k2' x2] ps2]; [discriminate E2|]. cbn [map fst] in E2. injection E2 as -> _.
    cbn [app lay collect]. replace (pkt_type k2 =? 8) with false by lia. assert (Q : is_key k2 = true) by (apply is_key_spec; exact Tk2). rewrite Q. reflexivity. }
  rewrite C. cbn [bind map fst]. destruct Tk as [T|T]; rewrite T; reflexivity.
Qed.
Theorem c76_known_keys_partial s es i r es0 new f : shares s es -> nth_error (sh_rings s) i = Some r -> es = es0 ++ new -> rep (seeing (file_of es0) r) es0 ->
  sh_get K build s i f = match newest (short f) es0 with Some e => make build e | None => Err KeyError end.
Proof.
  intros (Sf & Se & _) Ei E R. unfold sh_get. rewrite Ei, Sf. unfold get. pose proof R as (_ & _ & _ & L & _). cbn [seeing r_table] in *. rewrite L. destruct (newest (short f) es0) as [e|] eqn:N; [|reflexivity]. destruct (newest_split _ _ _ N) as (b & Es & _ & _).
  apply (get_key_at _ _ e (b ++ new)).
  - cbn [seeing r_file]. rewrite E. rewrite Es at 1. now rewrite <- app_assoc.
  - rewrite E in Se. rewrite Es in Se. rewrite <- app_assoc in Se. apply Forall_app in Se as [_ Se]. exact Se.
Qed.
(** But when another user has replaced the last key by a different one, a user that looks up the key that is gone gets the other key. *)
Theorem c76_stale_refuted a e2 s i j r1 k2 k3 f2 f3 ent2 ent3 : i <> j -> (j < length (sh_rings s))%nat -> shares s (a ++ [e2]) -> nth_error (sh_rings s) i = Some r1 -> rep (seeing (file_of (a ++ [e2])) r1) (a ++ [e2]) ->
  (forall r2, nth_error (sh_rings s) j = Some r2 -> rep (seeing (file_of (a ++ [e2])) r2) (a ++ [e2])) ->
  e_id e2 = short f2 -> writes fl md5 sha1 k2 f2 ent2 -> writes fl md5 sha1 k3 f3 ent3 ->
  exists h, sh_get K build (sh_run fl md5 sha1 s [(j, Delete k2); (j, Add k3)]) i f2 = make build (ent3 h) /\
    sh_file (sh_run fl md5 sha1 s [(j, Delete k2); (j, Add k3); (i, Delete k2)]) = file_of a.
Proof.
  intros Nij Lj (Sf & Se & Sr) E1 R1 Rj Hid W2 W3. destruct (nth_error (sh_rings s) j) as [r2|] eqn:E2; [|apply nth_error_None in E2; lia]. specialize (Rj r2 eq_refl).
  assert (N : newest (short f2) (a ++ [e2]) = Some e2 /\ before_newest (short f2) (a ++ [e2]) = a). { rewrite newest_app, before_app. cbn [newest before_newest]. rewrite Hid, zlist_eqb_refl. now rewrite app_nil_r. }
  destruct N as [N1 N2]. pose proof (change_rep fl md5 sha1 false _ _ k2 f2 ent2 Rj W2) as C. rewrite N1, N2, app_nil_r in C. destruct C as (r3 & D & R3 & _). destruct (add_rep fl md5 sha1 r3 a k3 f3 ent3 R3 W3) as (r4 & A & R4 & _).
  assert (S1 : sh_step fl md5 sha1 s j (Delete k2) = Shared (file_of a) (put (sh_rings s) j r3)). { unfold sh_step. rewrite E2. unfold apply, delete. rewrite Sf, D. cbn [fst]. pose proof R3 as (Q & _). now rewrite Q. }
  set (s1 := Shared (file_of a) (put (sh_rings s) j r3)) in *.
  assert (S2 : sh_step fl md5 sha1 s1 j (Add k3) = Shared (file_of (a ++ [ent3 (r_pref r3)])) (put (sh_rings s1) j r4)). { unfold sh_step, s1. cbn [sh_rings sh_file]. rewrite (put_nth _ _ _ _ E2). unfold apply. rewrite (rep_seeing _ _ R3), A. cbn [fst]. pose proof R4 as (Q & _). rewrite Q. reflexivity. }
  assert (Ei : nth_error (put (sh_rings s1) j r4) i = Some r1). { unfold s1. cbn [sh_rings]. rewrite !put_other by exact Nij. exact E1. }
  assert (F4 : Forall eok (a ++ [ent3 (r_pref r3)])) by apply R4. pose proof R1 as (_ & _ & RO & L & _). cbn [seeing r_table r_read_only] in L, RO.
  exists (r_pref r3). unfold sh_run. cbn [fold_left fst snd]. rewrite S1, S2. split.
  - unfold sh_get. cbn [sh_rings sh_file]. rewrite Ei. unfold get. cbn [seeing r_table]. rewrite L, N1, N2. apply (get_key_at _ a (ent3 (r_pref r3)) []); [reflexivity|]. apply Forall_app in F4 as [_ F4]. exact F4.
  - unfold sh_step. cbn [sh_rings sh_file]. rewrite Ei. cbn [sh_file]. unfold apply, delete, change. cbn [seeing r_read_only r_table]. rewrite RO. destruct W2 as (Hf & _). rewrite Hf, L, N1, N2.
    unfold without. cbn [seeing r_file]. apply Forall_app in F4 as [Fa Fe]. rewrite (packets_from_lay fl md5 sha1) by exact Fe.
    destruct (Forall_inv Fe) as (_ & k & tl & kid & E & _). set (e3 := ent3 (r_pref r3)) in *. assert (Pn : exists q x, parts [e3] = q ++ [x]). { destruct (exists_last (l := parts [e3])) as (q & x & Q); [|eauto]. unfold parts. cbn [map concat]. unfold e_pkts in E. destruct (e_parts e3); [discriminate E|discriminate]. }
    destruct Pn as (q & [p x] & Q). assert (Sz : zlen (file_of (a ++ [e3])) = zlen (file_of a) + zlen (octets q) + zlen x). { rewrite file_of_app, zlen_app, <- (parts_octets [e3]), Q, octets_app, zlen_app. unfold octets at 2. cbn [map concat snd]. rewrite app_nil_r. lia. }
    rewrite Q, lay_app, rev_app_distr. cbn [lay rev app]. rewrite <- Sz.
    assert (X : slice (file_of (a ++ [e3])) 0 (zlen (file_of a)) ++ slice_from (file_of (a ++ [e3])) (zlen (file_of (a ++ [e3]))) = file_of a).
    { rewrite <- (app_nil_r (file_of (a ++ [e3]))) at 2. rewrite slice_from_app, app_nil_r. rewrite file_of_app. apply (slice_app' [] (file_of a)); [reflexivity|]. change (zlen []) with 0. lia. }
    rewrite X. destruct (store_rep fl md5 sha1 (Ring (file_of (a ++ [e3])) (r_table r1) (r_pref r1) (r_read_only r1) (r_secret r1)) a Fa RO) as (r5 & St & R5 & _). unfold seeing. rewrite St. cbn [fst r_file]. apply R5.
Qed.

(** ** C77 *)
Lemma store_file r d : r_file (fst (store fl md5 sha1 r d)) = d.
Proof. unfold store, update_table. cbn [r_file]. destruct (packets_from d 0) as [ps e]. cbn [r_pref]. destruct (scan fl md5 sha1 ps e (r_pref r) []) as [pref [t|x]]; reflexivity. Qed.
(** What an operation that is not interrupted leaves in the file is what it writes, or else the file as it was. *)
Theorem c77_completed_partial r o : r_file (apply fl md5 sha1 r o) = match written r o with Some d => d | None => r_file r end.
Proof.
  unfold apply, written. destruct o as [k|k|k].
  - unfold add. destruct (r_read_only r); [reflexivity|]. destruct (ko_fp k) as [f|]; [|reflexivity]. destruct (lookup (r_table r) f); [reflexivity|]. destruct (ko_bytes k (r_pref r)); [|reflexivity]. apply store_file.
  - unfold update, change. destruct (r_read_only r); [reflexivity|]. destruct (ko_fp k) as [f|]; [|reflexivity]. destruct (lookup (r_table r) (short f)); [|reflexivity]. destruct (without r z) as [[d h]|]; [|reflexivity]. destruct (ko_bytes k h); [|reflexivity]. apply store_file.
  - unfold delete, change. destruct (r_read_only r); [reflexivity|]. destruct (ko_fp k) as [f|]; [|reflexivity]. destruct (lookup (r_table r) (short f)); [|reflexivity]. destruct (without r z) as [[d h]|]; [|reflexivity]. apply store_file.
Qed.
(** If the crash comes before the file is opened for writing, or after the last octet is written, the file that is left is one of the two
    lists of keys, and opens as such. Missing: crashes between. *)
Theorem c77_old_or_new_partial ent r es o secret file : rep r es -> (exists f, writes fl md5 sha1 (of_op o) f (ent (of_op o))) -> after_crash r o file ->
  (file = r_file r \/ match written r o with Some d => zlen d <= zlen file | None => True end) ->
  exists es', (es' = es \/ es' = fst (list_step ent (es, r_pref r) o)) /\ exists r', open_ring fl md5 sha1 file secret false = Ok r' /\ rep r' es'.
Proof.
  intros R W C Q. assert (D : file = file_of es \/ file = file_of (fst (list_step ent (es, r_pref r) o))).
  { pose proof R as (Ef & _). destruct C as [C|C]; [left; congruence|]. pose proof (c77_completed_partial r o) as A. destruct (written r o) as [d|]; [|contradiction]. destruct C as [n C].
    destruct Q as [Q|Q]; [left; congruence|]. right. assert (file = d). { subst file. apply firstn_all2. unfold zlen in Q. rewrite firstn_length in Q. lia. }
    subst file. rewrite H, <- A. destruct W as (f & W). pose proof (step_rep fl md5 sha1 ent r es o R (ex_intro _ f W)) as S. destruct S as [S _]. exact (proj1 S). }
  assert (F : Forall eok es) by apply R. assert (F' : Forall eok (fst (list_step ent (es, r_pref r) o))). { pose proof (step_rep fl md5 sha1 ent r es o R W) as [S _]. apply S. }
  destruct D as [D|D]; subst file.
  - exists es. split; [auto|]. destruct (open_rep fl md5 sha1 es secret F) as (r' & E & R' & _). eauto.
  - exists (fst (list_step ent (es, r_pref r) o)). split; [auto|]. destruct (open_rep fl md5 sha1 _ secret F') as (r' & E & R' & _). eauto.
Qed.
(** Right after the file is opened for writing it is empty: whatever the operation, a crash there loses every key, and the keyring cannot even
    be opened afterwards. *)
Theorem c77_crash_refuted r o d abspath fs hg name force secret read_only : written r o = Some d -> starts kr_prefix name = false -> starts kbx_prefix name = false -> fs (abspath name) = Some [] ->
  after_crash r o [] /\ get_resource fl md5 sha1 abspath fs hg name force secret read_only = Err (if hg then AttributeError else RuntimeError).
Proof. intros W P1 P2 H. split; [|exact (c68_empty_refuted fl md5 sha1 abspath fs hg name force secret read_only P1 P2 H)]. right. rewrite W. exists 0%nat. reflexivity. Qed.
(** A crash after some packets of the new key leaves a key without the rest, for instance without its revocations; it opens without an error. *)
Theorem c77_cut_key_refuted r es k f ent p q secret : rep r es -> writes fl md5 sha1 k f ent -> e_parts (ent (r_pref r)) = p ++ q -> p <> [] ->
  exists file r', after_crash r (Add k) file /\ open_ring fl md5 sha1 file secret false = Ok r' /\ get K build r' f = make build (Entry (short f) p).
Proof.
  intros R W E Np. destruct W as (Hf & Lf & W). destruct (W (r_pref r)) as (Wb & We & Wi). set (e := ent (r_pref r)) in *. exists (file_of (es ++ [Entry (short f) p])).
  assert (Fe : eok (Entry (short f) p)).
  { destruct We as (P & k0 & t & kid & Ek & T & Kk & Ki & Ft). rewrite E in P. apply Forall_app in P as [P _]. split; [exact P|]. unfold e_pkts in *. rewrite E, map_app in Ek. destruct p as [|x p]; [contradiction|]. cbn [map app] in Ek. injection Ek as <- <-. apply Forall_app in Ft as [Ft _].
    exists (fst x), (map fst p), kid. cbn [e_parts e_id map]. rewrite <- Wi. auto. }
  assert (F : Forall eok (es ++ [Entry (short f) p])) by (apply Forall_app; split; [apply R|constructor; [exact Fe|constructor]]).
  destruct (open_rep fl md5 sha1 _ secret F) as (r' & O & R' & _). exists r'. split; [|split; [exact O|]].
  - right. assert (Q : written r (Add k) = Some (r_file r ++ e_bytes e)). { unfold written. pose proof R as (_ & _ & RO & _). rewrite RO, Hf. destruct (lookup (r_table r) f) as [o|] eqn:Lk; [exfalso; pose proof (rep_ids fl md5 sha1 r es f o R Lk); lia|]. now rewrite Wb. }
    rewrite Q. exists (length (file_of (es ++ [Entry (short f) p]))). pose proof R as (Ef & _). rewrite Ef. unfold e_bytes. rewrite E, octets_app, app_assoc. replace (file_of es ++ octets p) with (file_of (es ++ [Entry (short f) p])) by (rewrite file_of_app, file_of_cons; unfold file_of at 2; cbn [map concat]; rewrite app_nil_r; reflexivity).
    now rewrite firstn_app, Nat.sub_diag, firstn_all, firstn_O, app_nil_r.
  - rewrite (get_rep fl md5 sha1 K build _ _ f R'), newest_app. cbn [newest e_id]. now rewrite zlist_eqb_refl.
Qed.
End Shared.
Print Assumptions c76_adds_partial. Print Assumptions c76_known_keys_partial. Print Assumptions c76_stale_refuted.
Print Assumptions c77_completed_partial. Print Assumptions c77_old_or_new_partial. Print Assumptions c77_crash_refuted. Print Assumptions c77_cut_key_refuted.

(** ** two users of the file of two keys *)
Definition ex_shared : shared := Shared (file_of [ex_entry 1 65; ex_entry 2 65]) [ex_ring; ex_ring].
Definition ex_make (s : bool) (l : list pkt) : res (bool * list pkt) := Ok (s, l).
Lemma ex_shares : shares Z.log2 ex_sha ex_sha ex_shared [ex_entry 1 65; ex_entry 2 65].
Proof.
  pose proof ex_rep as R. split; [reflexivity|]. split; [apply R|].
  repeat (apply Forall_cons || apply Forall_nil); (exists [ex_entry 1 65; ex_entry 2 65], []; split; [reflexivity|rewrite rep_seeing with (es := [ex_entry 1 65; ex_entry 2 65]) (fl := Z.log2) (md5 := ex_sha) (sha1 := ex_sha); exact R]).
Qed.
Example c76_adds_ex : sh_file (sh_run Z.log2 ex_sha ex_sha ex_shared [(0%nat, Add (ex_kobj 3 65)); (1%nat, Add (ex_kobj 3 66))]) = file_of [ex_entry 1 65; ex_entry 2 65; ex_entry 3 65; ex_entry 3 66].
Proof. vm_compute. reflexivity. Qed.
Example c76_adds_hyp : Forall (fun x => (fst x < length (sh_rings ex_shared))%nat /\ exists k f, snd x = Add k /\ writes Z.log2 ex_sha ex_sha k f (fun _ => match ko_bytes k None with Ok b => if zlist_eqb b (e_bytes (ex_entry 3 65)) then ex_entry 3 65 else ex_entry 3 66 | Err _ => ex_entry 3 65 end)) [(0%nat, Add (ex_kobj 3 65)); (1%nat, Add (ex_kobj 3 66))].
Proof.
  repeat (apply Forall_cons || apply Forall_nil); (split; [cbn; lia|]); cbn [snd].
  - exists (ex_kobj 3 65), (ex_fp 3). split; [reflexivity|]. assert (Q : zlist_eqb (e_bytes (ex_entry 3 65)) (e_bytes (ex_entry 3 65)) = true) by reflexivity. cbn [ko_bytes ex_kobj]. rewrite Q. apply ex_writes; cbn; auto.
  - exists (ex_kobj 3 66), (ex_fp 3). split; [reflexivity|]. assert (Q : zlist_eqb (e_bytes (ex_entry 3 66)) (e_bytes (ex_entry 3 65)) = false) by reflexivity. cbn [ko_bytes ex_kobj]. rewrite Q. apply ex_writes; cbn; auto.
Qed.
(** the second user deletes key 2 and adds key 3; the first user asks for key 2 and gets key 3, then deletes key 2 and deletes key 3 *)
Example c76_stale_ex : sh_get _ ex_make (sh_run Z.log2 ex_sha ex_sha ex_shared [(1%nat, Delete (ex_kobj 2 65)); (1%nat, Add (ex_kobj 3 66))]) 0 (ex_fp 2) = make ex_make (ex_entry 3 66) /\
  sh_file (sh_run Z.log2 ex_sha ex_sha ex_shared [(1%nat, Delete (ex_kobj 2 65)); (1%nat, Add (ex_kobj 3 66)); (0%nat, Delete (ex_kobj 2 65))]) = file_of [ex_entry 1 65].
Proof.
  destruct (c76_stale_refuted Z.log2 ex_sha ex_sha _ ex_make [ex_entry 1 65] (ex_entry 2 65) ex_shared 0 1 ex_ring (ex_kobj 2 65) (ex_kobj 3 66) (ex_fp 2) (ex_fp 3) (fun _ => ex_entry 2 65) (fun _ => ex_entry 3 66)) as (h & A & B).
  - discriminate.
  - cbn. lia.
  - exact ex_shares.
  - reflexivity.
  - change ([ex_entry 1 65] ++ [ex_entry 2 65]) with [ex_entry 1 65; ex_entry 2 65]. rewrite (rep_seeing Z.log2 ex_sha ex_sha _ _ ex_rep). exact ex_rep.
  - intros r2 H. injection H as <-. change ([ex_entry 1 65] ++ [ex_entry 2 65]) with [ex_entry 1 65; ex_entry 2 65]. rewrite (rep_seeing Z.log2 ex_sha ex_sha _ _ ex_rep). exact ex_rep.
  - reflexivity.
  - apply ex_writes; cbn; auto.
  - apply ex_writes; cbn; auto.
  - split; [exact A|exact B].
Qed.
Example c77_ex : written ex_ring (Add (ex_kobj 3 66)) = Some (file_of [ex_entry 1 65; ex_entry 2 65; ex_entry 3 66]) /\ after_crash ex_ring (Add (ex_kobj 3 66)) (file_of [ex_entry 1 65; ex_entry 2 65; ex_entry 3 66]).
Proof. assert (W : written ex_ring (Add (ex_kobj 3 66)) = Some (file_of [ex_entry 1 65; ex_entry 2 65; ex_entry 3 66])) by (vm_compute; reflexivity). split; [exact W|]. right. rewrite W. exists 100%nat. reflexivity. Qed.
Example c77_cut_ex : exists file r', after_crash ex_ring (Add (ex_kobj 3 66)) file /\ open_ring Z.log2 ex_sha ex_sha file false false = Ok r' /\ get _ ex_make r' (ex_fp 3) = Ok (false, [ex_packet 3]).
Proof.
  apply (c77_cut_key_refuted Z.log2 ex_sha ex_sha _ ex_make ex_ring [ex_entry 1 65; ex_entry 2 65] (ex_kobj 3 66) (ex_fp 3) (fun _ => ex_entry 3 66) [(ex_packet 3, ex_octets 3)] [ex_uid 66] false ex_rep); [apply ex_writes; cbn; auto|reflexivity|discriminate].
Qed.
(** Cut inside a packet, the file opens too, with a user id that nobody wrote. *)
Theorem c77_cut_packet_refuted : exists r k file r', written r (Add k) <> None /\ after_crash r (Add k) file /\ open_ring Z.log2 ex_sha ex_sha file false false = Ok r' /\
  get _ ex_make r' (ex_fp 3) = Ok (false, [ex_packet 3; Pkt NewH (BData (PUserId []))]) /\ make ex_make (ex_entry 3 66) = Ok (false, [ex_packet 3; Pkt NewH (BData (PUserId [66]))]).
Proof.
  exists ex_ring, (ex_kobj 3 66), (firstn 50 (file_of [ex_entry 1 65; ex_entry 2 65; ex_entry 3 66])).
  assert (W : written ex_ring (Add (ex_kobj 3 66)) = Some (file_of [ex_entry 1 65; ex_entry 2 65; ex_entry 3 66])) by (vm_compute; reflexivity).
  destruct (open_ring Z.log2 ex_sha ex_sha (firstn 50 (file_of [ex_entry 1 65; ex_entry 2 65; ex_entry 3 66])) false false) as [r'|] eqn:E; [|vm_compute in E; discriminate E]. exists r'. split; [rewrite W; discriminate|]. split; [right; rewrite W; exists 50%nat; reflexivity|]. split; [reflexivity|]. split; [|reflexivity].
  vm_compute in E. injection E as <-. vm_compute. reflexivity.
Qed.
Print Assumptions c77_cut_packet_refuted.
