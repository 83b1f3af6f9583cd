(** C95: comparing packets *)
From Verif Require Import Base BaseProofs Utils Framing Text Armor S2k SessionKeys KeyPackets SigPackets DataPackets UserAttr Packets PacketEq SpecPacketEq SignVerify.

Lemma opt_spec {A} (eq : A -> A -> bool) a b : (forall x y, eq x y = true <-> x = y) -> (opt_eq eq a b = true <-> a = b).
Proof. intros H; destruct a, b; cbn; try (split; [discriminate|discriminate]); [|split; reflexivity]. rewrite H. split; [now intros ->|congruence]. Qed.
Lemma list_spec {A} (eq : A -> A -> bool) : (forall x y, eq x y = true <-> x = y) -> forall a b, list_eq eq a b = true <-> a = b.
Proof.
  intros H; induction a as [|x a IH]; intros [|y b]; cbn; try (split; [discriminate|discriminate]); [split; reflexivity|].
  rewrite Bool.andb_true_iff, H, IH. split; [intros [-> ->]; reflexivity|intros E; now inversion E].
Qed.
Definition ob := @opt_spec bytes zlist_eqb. Definition oz := @opt_spec Z Z.eqb.
Lemma obs a b : opt_eq zlist_eqb a b = true <-> a = b. Proof. apply opt_spec, zlist_eqb_spec. Qed.
Lemma ozs a b : opt_eq Z.eqb a b = true <-> a = b. Proof. apply opt_spec, Z.eqb_eq. Qed.
Lemma hf_spec a b : hf_eq a b = true <-> a = b. Proof. destruct a, b; cbn; split; congruence. Qed.
Ltac spec := rewrite ?Bool.andb_true_iff, ?Z.eqb_eq, ?zlist_eqb_spec, ?obs, ?ozs, ?Bool.eqb_true_iff in *.
Ltac eqs := spec; split; [intros H; decompose [and] H; subst; congruence|intros H; inversion H; subst; repeat split].
Lemma s2k_spec a b : s2k_eq a b = true <-> a = b.
Proof. destruct a, b; cbn; try (split; [discriminate|discriminate]); eqs. Qed.
Lemma os2k a b : opt_eq s2k_eq a b = true <-> a = b. Proof. apply opt_spec, s2k_spec. Qed.
Lemma pkesk_spec a b : pkesk_eq a b = true <-> a = b. Proof. destruct a, b; unfold pkesk_eq; cbn; eqs. Qed.
Lemma skesk_spec a b : skesk_eq a b = true <-> a = b. Proof. destruct a, b; unfold skesk_eq; cbn; rewrite !Bool.andb_true_iff, s2k_spec; eqs. Qed.
Lemma pub_spec a b : pub_eq a b = true <-> a = b. Proof. destruct a, b; unfold pub_eq; cbn; eqs. Qed.
Lemma sec_spec a b : sec_eq a b = true <-> a = b. Proof. destruct a, b; unfold sec_eq; cbn; rewrite !Bool.andb_true_iff, pub_spec, os2k; eqs. Qed.
Lemma attr_spec a b : attr_eq a b = true <-> a = b.
Proof. destruct a, b; cbn; try (split; [discriminate|discriminate]); eqs. Qed.
Lemma ltime_spec a b : ltime_eq a b = true <-> a = b.
Proof. destruct a, b; cbn; try (split; [discriminate|discriminate]); eqs. Qed.
Lemma ldata_spec a b : ldata_eq a b = true <-> a = b.
Proof. destruct a, b; cbn; try (split; [discriminate|discriminate]); eqs. Qed.
Lemma data_spec a b : (match a with POther _ _ => False | _ => True end) -> (data_eq a b = true <-> a = b).
Proof.
  destruct a, b; cbn; intros N; try contradiction; try (split; [discriminate|discriminate]); rewrite ?Bool.andb_true_iff, ?ltime_spec, ?ldata_spec; eqs.
Qed.

Lemma mapM_some {A B} (f : A -> res B) l r a : mapM f l = Ok r -> In a l -> exists b, f a = Ok b /\ In b r.
Proof.
  revert r; induction l as [|x l IH]; intros r H I; [destruct I|]. cbn in H. destruct (f x) as [y|] eqn:Y; cbn in H; [|discriminate]. destruct (mapM f l) as [ys|]; cbn in H; [|discriminate].
  inversion H; subst. destruct I as [<-|I]; [exists y; split; [exact Y|now left]|]. destruct (IH ys eq_refl I) as (b & B1 & B2). exists b. split; [exact B1|now right].
Qed.
Lemma class_spec s t : opt_eq Z.eqb (sub_class s) (sub_class t) = true <-> ((unknown s /\ unknown t) \/ (~ unknown s /\ ~ unknown t /\ kind s = kind t)).
Proof.
  assert (U : forall ty c b, sub_class (Sub ty c b) = None /\ unknown (Sub ty c b) \/ sub_class (Sub ty c b) = Some ty /\ ~ unknown (Sub ty c b)).
  { intros ty c b; destruct b; try (right; split; [reflexivity|]; intros (?&?&K); discriminate K). left; split; [reflexivity|]. now exists ty, c. }
  rewrite ozs. destruct s as [ty c b], t as [ty' c' b']. destruct (U ty c b) as [[-> A]|[-> A]], (U ty' c' b') as [[-> B]|[-> B]]; cbn.
  - split; [now left|reflexivity].
  - split; [discriminate|intros [[_ K]|[K _]]; contradiction].
  - split; [discriminate|intros [[K _]|[_ [K _]]]; contradiction].
  - split; [intros K; right; repeat split; [assumption|assumption|congruence]|intros [[K _]|[_ [_ K]]]; [contradiction|congruence]].
Qed.
Lemma key_spec x y : key_eq x y = true <-> x = y.
Proof. destruct x, y; unfold key_eq; cbn. spec. split; [intros [-> ->]; reflexivity|intros E; inversion E; now split]. Qed.
Lemma key_ok fl s k : sub_key fl s = Ok k -> exists b, sub_bytes fl s = Ok b /\ k = (sub_class s, b).
Proof. unfold sub_key. destruct (sub_bytes fl s) as [b|]; cbn; [|discriminate]. intros E; inversion E. now exists b. Qed.
Lemma same_keys fl s t k m : sub_key fl s = Ok k -> sub_key fl t = Ok m -> (same_sub fl s t <-> k = m).
Proof.
  intros K M. apply key_ok in K as (b & B & ->), M as (d & D & ->). unfold same_sub. rewrite <- class_spec, ozs, B, D.
  split; [intros [A E]; inversion E; congruence|intros E; inversion E; now split].
Qed.
Lemma writes_keys fl l : writes fl l <-> exists ks, mapM (sub_key fl) l = Ok ks.
Proof.
  split.
  - intros W. apply mapM_all. intros a Ia. destruct (proj1 (Forall_forall _ _) W a Ia) as [b B]. exists (sub_class a, b). unfold sub_key. now rewrite B.
  - intros [ks K]. apply Forall_forall. intros s Is. destruct (mapM_some _ _ _ _ K Is) as (k & Ek & _). apply key_ok in Ek as (b & B & _). now exists b.
Qed.
Lemma half fl l m ks ms : mapM (sub_key fl) l = Ok ks -> mapM (sub_key fl) m = Ok ms ->
  (forallb (fun x => existsb (key_eq x) ms) ks = true <-> forall s, In s l -> exists t, In t m /\ same_sub fl s t).
Proof.
  intros K M. rewrite forallb_forall. split.
  - intros H s Is. destruct (mapM_some _ _ _ _ K Is) as (k & Ek & Ik). specialize (H _ Ik). apply existsb_exists in H as (y & Iy & E).
    apply key_spec in E. subst y. apply (mapM_in _ _ _ _ M) in Iy as (t & It & Et). exists t. split; [exact It|]. now apply (same_keys fl s t k k).
  - intros H k Ik. apply (mapM_in _ _ _ _ K) in Ik as (s & Is & Es). destruct (H _ Is) as (t & It & Sst).
    destruct (mapM_some _ _ _ _ M It) as (n & En & In'). apply existsb_exists. exists n. split; [exact In'|]. apply key_spec.
    now apply (same_keys fl s t k n).
Qed.
Lemma sets_spec fl l m : writes fl l -> writes fl m -> exists r, sets_eq fl l m = Ok r /\ (r = true <-> same_set fl l m).
Proof.
  intros L M. apply writes_keys in L as [ks K]. apply writes_keys in M as [ms M]. unfold sets_eq. rewrite K, M. cbn. eexists. split; [reflexivity|].
  rewrite Bool.andb_true_iff, (half fl l m ks ms K M), (half fl m l ms ks M K). reflexivity.
Qed.
Lemma heads_spec v st pk ha h2 vs v' st' pk' ha' h2' vs' :
  heads_eq v st pk ha h2 vs v' st' pk' ha' h2' vs' = true <-> (v = v' /\ st = st' /\ pk = pk' /\ ha = ha' /\ h2 = h2' /\ vs = vs').
Proof. unfold heads_eq. spec. tauto. Qed.

(** C95a. For every packet but a signature, a one-pass signature and one of a type without a class, and whatever it is compared
    with: == answers, and says True exactly if the two are the same in all their fields; they then have the same octets. *)
Theorem c95_same : forall fl a b, plain a ->
  (pkt_eq fl a b = Ok true <-> a = b) /\ (a <> b -> pkt_eq fl a b = Ok false) /\
  (pkt_eq fl a b = Ok true -> forall rec, pkt_bytes fl rec a = pkt_bytes fl rec b).
Proof.
  intros fl a b P.
  assert (K : exists r, pkt_eq fl a b = Ok r /\ (r = true <-> a = b)).
  { destruct a as [f x], b as [g y]. unfold pkt_eq, plain in *. cbn [p_fmt p_body] in *. destruct (hf_eq f g) eqn:F.
    - apply hf_spec in F. subst g.
      assert (Q : exists r, body_eq fl x y = Ok r /\ (r = true <-> x = y)).
      { destruct x, y; cbn in *; try contradiction; (eexists; split; [reflexivity|]);
          try (split; [discriminate|discriminate]); rewrite ?Bool.andb_true_iff, ?Bool.eqb_true_iff, ?pkesk_spec, ?skesk_spec, ?sec_spec, ?pub_spec, ?(list_spec attr_eq attr_spec).
        1-5: split; [intros K; decompose [and] K; subst; congruence|intros K; inversion K; subst; repeat split].
        rewrite data_spec by (destruct d; auto). split; [now intros ->|congruence]. }
      destruct Q as (r & R & E). exists r. split; [exact R|]. rewrite E. split; [now intros ->|congruence].
    - exists false. split; [reflexivity|]. split; [discriminate|]. intros E. inversion E; subst. assert (hf_eq g g = true) by now apply hf_spec. congruence. }
  destruct K as (r & R & E). rewrite R. repeat split.
  - intros T. apply E. congruence.
  - intros T. apply E in T. now subst.
  - intros N. destruct r; [exfalso; apply N, E; reflexivity|reflexivity].
  - intros T rec. assert (a = b) as -> by (apply E; congruence). reflexivity.
Qed.
Print Assumptions c95_same.
Example c95_same_met : plain (Pkt NewH (BData (PUserId (str "a")))) /\
  pkt_eq Z.log2 (Pkt NewH (BData (PUserId (str "a")))) (Pkt OldH (BData (PUserId (str "a")))) = Ok false.
Proof. split; reflexivity. Qed.

(** C95b. Signatures of version 4 (and later): with subpackets that can be written, == answers, and says True exactly if the
    packets have the same header format and the same fields, and the same sets of hashed and of unhashed subpackets. *)
Theorem c95_signature : forall fl f v st pk ha h2 vs hs us f' v' st' pk' ha' h2' vs' hs' us',
  writes fl hs -> writes fl us -> writes fl hs' -> writes fl us' ->
  exists r, pkt_eq fl (Pkt f (BSig (SigV4 v st pk ha h2 vs hs us))) (Pkt f' (BSig (SigV4 v' st' pk' ha' h2' vs' hs' us'))) = Ok r /\
  (r = true <-> f = f' /\ v = v' /\ st = st' /\ pk = pk' /\ ha = ha' /\ h2 = h2' /\ vs = vs' /\ same_set fl hs hs' /\ same_set fl us us').
Proof.
  intros *. intros A B C D. unfold pkt_eq. cbn [p_fmt p_body body_eq sig_eq].
  destruct (hf_eq f f') eqn:F.
  - apply hf_spec in F. destruct (heads_eq v st pk ha h2 vs v' st' pk' ha' h2' vs') eqn:H.
    + apply heads_spec in H. destruct (sets_spec fl hs hs' A C) as (r & R & E). rewrite R. cbn [bind]. destruct r.
      * destruct (sets_spec fl us us' B D) as (q & Q & G). exists q. split; [exact Q|]. tauto.
      * exists false. split; [reflexivity|]. split; [discriminate|]. intros K. apply E. tauto.
    + exists false. split; [reflexivity|]. split; [discriminate|]. intros K. rewrite <- H. apply heads_spec. tauto.
  - exists false. split; [reflexivity|]. split; [discriminate|]. intros [-> _]. rewrite <- F. now apply hf_spec.
Qed.
Print Assumptions c95_signature.
(** C95c. A packet is never equal to one of another kind, type or header format. *)
Theorem c95_kinds : forall fl a b, pkt_eq fl a b = Ok true -> p_fmt a = p_fmt b /\ pkt_type a = pkt_type b.
Proof.
  intros fl [f x] [g y]. unfold pkt_eq, pkt_type. cbn [p_fmt p_body]. destruct (hf_eq f g) eqn:F; [|discriminate]. intros E. split; [now apply hf_spec|].
  destruct x, y; cbn in E; try discriminate; try reflexivity.
  - inversion E as [K]. spec. destruct K as [-> _]. reflexivity.
  - inversion E as [K]. spec. destruct K as [-> _]. reflexivity.
  - destruct d, d0; cbn in *; try discriminate; try reflexivity; inversion E as [K]; spec; [destruct K as [-> _]; reflexivity|exact K].
Qed.
Print Assumptions c95_kinds.


Lemma same_sub_refl fl s : same_sub fl s s.
Proof. split; [|reflexivity]. apply class_spec, ozs. reflexivity. Qed.
Lemma same_sub_trans fl s t u : same_sub fl s t -> same_sub fl t u -> same_sub fl s u.
Proof. intros [A B] [C D]. split; [|congruence]. apply class_spec, ozs in A, C. apply class_spec, ozs. congruence. Qed.
Lemma same_sub_sym fl s t : same_sub fl s t -> same_sub fl t s.
Proof. intros [A B]. split; [|congruence]. apply class_spec, ozs in A. apply class_spec, ozs. congruence. Qed.
Lemma same_set_refl fl l : same_set fl l l.
Proof. split; intros s I; exists s; auto using same_sub_refl. Qed.
Lemma same_set_sym fl l m : same_set fl l m -> same_set fl m l.
Proof. intros [A B]. now split. Qed.
Lemma same_set_trans fl l m n : same_set fl l m -> same_set fl m n -> same_set fl l n.
Proof.
  intros [A B] [C D]. split; intros s I.
  - destruct (A s I) as (t & It & Q). destruct (C t It) as (u & Iu & W). exists u. split; [exact Iu|now apply (same_sub_trans fl s t u)].
  - destruct (D s I) as (t & It & Q). destruct (B t It) as (u & Iu & W). exists u. split; [exact Iu|now apply (same_sub_trans fl s t u)].
Qed.
(** what == means on packets that can be compared *)
Definition alike (fl : Z -> Z) (a b : pkt) : Prop :=
  p_fmt a = p_fmt b /\
  match p_body a, p_body b with
  | BSig (SigV4 v st pk ha h2 vs hs us), BSig (SigV4 v' st' pk' ha' h2' vs' hs' us') =>
      v = v' /\ st = st' /\ pk = pk' /\ ha = ha' /\ h2 = h2' /\ vs = vs' /\ same_set fl hs hs' /\ same_set fl us us'
  | BOnePass x, BOnePass y => op_sigtype x = op_sigtype y /\ op_hash x = op_hash y /\ op_pk x = op_pk y /\ op_key_id x = op_key_id y /\ op_nested x = op_nested y
  | BData (POther t _), BData (POther u _) => t = u
  | x, y => x = y
  end.
Lemma body_alike (x y : pbody) f : (match x with BSig _ | BOnePass _ => False | BData (POther _ _) => False | _ => True end) ->
  (forall fl, alike fl (Pkt f x) (Pkt f y) <-> x = y).
Proof. intros P fl. unfold alike. cbn. destruct x; try contradiction; try tauto. destruct d; try contradiction; tauto. Qed.
Lemma eq_alike fl a b : comparable fl a -> comparable fl b -> exists r, pkt_eq fl a b = Ok r /\ (r = true <-> alike fl a b).
Proof.
  destruct a as [f x], b as [g y]. intros A B.
  assert (Q : plain (Pkt f x) \/ ~ plain (Pkt f x)).
  { unfold plain. cbn. destruct x; auto. destruct d; auto. }
  destruct (hf_eq f g) eqn:F.
  2: { exists false. unfold pkt_eq. cbn [p_fmt p_body]. rewrite F. split; [reflexivity|]. split; [discriminate|]. intros [K _]. cbn in K. apply hf_spec in K. congruence. }
  apply hf_spec in F. subst g. destruct Q as [P|P].
  - destruct (c95_same fl (Pkt f x) (Pkt f y) P) as (E & N & _).
    assert (W : alike fl (Pkt f x) (Pkt f y) <-> Pkt f x = Pkt f y).
    { rewrite body_alike by (unfold plain in P; cbn in P; exact P). split; [now intros ->|congruence]. }
    assert (D : Pkt f x = Pkt f y \/ Pkt f x <> Pkt f y).
    { destruct (pkt_eq fl (Pkt f x) (Pkt f y)) as [[]|] eqn:R; [left; now apply E|right|right]; intros K; rewrite K in *; pose proof (proj2 E eq_refl); congruence. }
    destruct D as [D|D].
    + exists true. split; [now apply E|]. tauto.
    + exists false. split; [now apply N|]. split; [discriminate|]. intros K. apply W in K. contradiction.
  - destruct x as [|s| |o| | | |d]; unfold plain in P; cbn in P; try (exfalso; apply P; exact Logic.I).
    + destruct s as [|v st pk ha h2 vs hs us]; [destruct A|]. destruct y as [|[|v' st' pk' ha' h2' vs' hs' us']| | | | | |];
        try (exists false; split; [unfold pkt_eq; cbn; destruct f; reflexivity|split; [discriminate|intros [_ K]; cbn in K; discriminate]]).
      * destruct B.
      * destruct A as [A1 A2], B as [B1 B2].
        destruct (c95_signature fl f v st pk ha h2 vs hs us f v' st' pk' ha' h2' vs' hs' us' A1 A2 B1 B2) as (r & R & E). exists r. split; [exact R|].
        rewrite E. unfold alike. cbn. tauto.
    + destruct y as [|s| |o'| | | |]; try (exists false; split; [unfold pkt_eq; cbn; destruct f; reflexivity|split; [discriminate|intros [_ K]; cbn in K; discriminate]]).
      exists (onepass_eq o o'). split; [unfold pkt_eq; cbn; destruct f; reflexivity|]. unfold onepass_eq, alike. cbn. spec. tauto.
    + destruct d; try (exfalso; apply P; exact Logic.I). destruct y as [|s| |o'| | | |d']; try (exists false; split; [unfold pkt_eq; cbn; destruct f; reflexivity|split; [discriminate|intros [_ K]; cbn in K; discriminate]]).
      exists (data_eq (POther ty data) d'). split; [unfold pkt_eq; cbn; destruct f; reflexivity|]. unfold alike. cbn. destruct d'; try (split; [discriminate|intros [_ K]; discriminate]). rewrite Z.eqb_eq. tauto.
Qed.
(** C95d. On the packets that can be compared, == always answers and is an equivalence. *)
Theorem c95_equivalence : forall fl, 
  (forall a b, comparable fl a -> comparable fl b -> exists r, pkt_eq fl a b = Ok r) /\
  (forall a, comparable fl a -> pkt_eq fl a a = Ok true) /\
  (forall a b, comparable fl a -> comparable fl b -> pkt_eq fl a b = pkt_eq fl b a) /\
  (forall a b c, comparable fl a -> comparable fl b -> comparable fl c -> pkt_eq fl a b = Ok true -> pkt_eq fl b c = Ok true -> pkt_eq fl a c = Ok true).
Proof.
  intros fl.
  assert (Sy : forall a b, alike fl a b -> alike fl b a).
  { intros [f x] [g y] [K L]. unfold alike in *. cbn in *. split; [congruence|]. destruct x, y; try discriminate; try (destruct s; discriminate); try (destruct d; discriminate); try congruence.
    - destruct s, s0; try congruence. destruct L as (?&?&?&?&?&?&?&?). repeat (split; [congruence|]). split; apply same_set_sym; assumption.
    - destruct L as (?&?&?&?&?). repeat split; congruence.
    - destruct d, d0; congruence. }
  assert (Re : forall a, alike fl a a).
  { intros [f x]. unfold alike. cbn. split; [reflexivity|]. destruct x; try reflexivity.
    - destruct s; try reflexivity. repeat (split; [reflexivity|]). split; apply same_set_refl.
    - repeat split.
    - destruct d; reflexivity. }
  assert (Tr : forall a b c, alike fl a b -> alike fl b c -> alike fl a c).
  { intros [f x] [g y] [h z] [K L] [M N]. unfold alike in *. cbn in *. split; [congruence|]. destruct x, y; try discriminate; try (destruct s; discriminate); try (destruct d; discriminate); destruct z; try discriminate; try (destruct s0; discriminate); try (destruct d0; discriminate); try congruence.
    - destruct s, s0; try discriminate; destruct s1; try discriminate; try congruence. destruct L as (?&?&?&?&?&?&L1&L2), N as (?&?&?&?&?&?&N1&N2). repeat (split; [congruence|]).
      split; [exact (same_set_trans _ _ _ _ L1 N1)|exact (same_set_trans _ _ _ _ L2 N2)].
    - destruct L as (?&?&?&?&?), N as (?&?&?&?&?). repeat split; congruence.
    - destruct d, d0; try discriminate; destruct d1; try discriminate; try congruence. }
  split; [|split; [|split]].
  - intros a b A B. destruct (eq_alike fl a b A B) as (r & R & _). now exists r.
  - intros a A. destruct (eq_alike fl a a A A) as (r & R & E). rewrite R. f_equal. apply E, Re.
  - intros a b A B. destruct (eq_alike fl a b A B) as (r & R & E), (eq_alike fl b a B A) as (q & Q & G). rewrite R, Q. f_equal.
    destruct r, q; auto; [symmetry; apply G, Sy, E; reflexivity|apply E, Sy, G; reflexivity].
  - intros a b c A B C X Y. destruct (eq_alike fl a b A B) as (r & R & E), (eq_alike fl b c B C) as (q & Q & G), (eq_alike fl a c A C) as (p & P & H). rewrite P. f_equal. apply H.
    apply (Tr a b c); [apply E; congruence|apply G; congruence].
Qed.
Print Assumptions c95_equivalence.
Example c95_comparable_met : comparable Z.log2 (Pkt NewH (BSig (SigV4 4 16 1 8 [0; 0] [5] [Sub 2 false (SbTime 9)] []))).
Proof. cbn. split; [|constructor]. constructor; [|constructor]. eexists. vm_compute. reflexivity. Qed.

(** C95e, what == does not see. Two signatures that differ in the order of their hashed subpackets, or in how often one occurs, are
    equal, though their octets (and what was signed) differ. *)
Theorem c95_order_refuted : forall fl rec, exists a b c x y z,
  pkt_eq fl a b = Ok true /\ pkt_eq fl a c = Ok true /\ pkt_bytes fl rec a = Ok x /\ pkt_bytes fl rec b = Ok y /\ pkt_bytes fl rec c = Ok z /\
  x <> y /\ x <> z.
Proof.
  intros fl rec.
  exists (Pkt NewH (BSig (SigV4 4 16 1 8 [0; 0] [] [Sub 2 false (SbTime 9); Sub 4 false (SbBool true)] []))),
         (Pkt NewH (BSig (SigV4 4 16 1 8 [0; 0] [] [Sub 4 false (SbBool true); Sub 2 false (SbTime 9)] []))),
         (Pkt NewH (BSig (SigV4 4 16 1 8 [0; 0] [] [Sub 2 false (SbTime 9); Sub 4 false (SbBool true); Sub 2 false (SbTime 9)] []))).
  do 3 eexists. split; [reflexivity|]. split; [reflexivity|]. split; [reflexivity|]. split; [reflexivity|]. split; [reflexivity|]. split; discriminate.
Qed.
Print Assumptions c95_order_refuted.
(** Signatures of version 2 and 3 cannot be compared: unless they differ in a field looked at before, == raises AttributeError,
    even for a packet and itself; and the creation time and the key id are never looked at. *)
Theorem c95_version_3_refuted : forall fl f v st pk ha h2 vs ct ct' kid kid',
  pkt_eq fl (Pkt f (BSig (SigV3 v st pk ha h2 vs ct kid))) (Pkt f (BSig (SigV3 v st pk ha h2 vs ct' kid'))) = Err AttributeError.
Proof.
  intros. unfold pkt_eq. cbn [p_fmt p_body body_eq sig_eq]. replace (hf_eq f f) with true by (symmetry; now apply hf_spec).
  replace (heads_eq v st pk ha h2 vs v st pk ha h2 vs) with true by (symmetry; now apply heads_spec). reflexivity.
Qed.
Print Assumptions c95_version_3_refuted.
(** and otherwise a signature of version 2 or 3 is unequal *)
Theorem c95_version_3 : forall fl f f' v st pk ha h2 vs ct kid v' st' pk' ha' h2' vs' ct' kid',
  f <> f' \/ v <> v' \/ st <> st' \/ pk <> pk' \/ ha <> ha' \/ h2 <> h2' \/ vs <> vs' ->
  pkt_eq fl (Pkt f (BSig (SigV3 v st pk ha h2 vs ct kid))) (Pkt f' (BSig (SigV3 v' st' pk' ha' h2' vs' ct' kid'))) = Ok false.
Proof.
  intros *. intros D. unfold pkt_eq. cbn [p_fmt p_body body_eq sig_eq]. destruct (hf_eq f f') eqn:F; [|reflexivity].
  destruct (heads_eq v st pk ha h2 vs v' st' pk' ha' h2' vs') eqn:H; [|reflexivity]. apply hf_spec in F. apply heads_spec in H. tauto.
Qed.
Print Assumptions c95_version_3.
(** a signature of version 2 or 3 and one of version 4 are unequal, in either order *)
Theorem c95_versions_differ : forall fl f f' v st pk ha h2 vs ct kid v' st' pk' ha' h2' vs' hs us, v <> v' ->
  pkt_eq fl (Pkt f (BSig (SigV3 v st pk ha h2 vs ct kid))) (Pkt f' (BSig (SigV4 v' st' pk' ha' h2' vs' hs us))) = Ok false /\
  pkt_eq fl (Pkt f' (BSig (SigV4 v' st' pk' ha' h2' vs' hs us))) (Pkt f (BSig (SigV3 v st pk ha h2 vs ct kid))) = Ok false.
Proof.
  intros *. intros D. unfold pkt_eq. cbn [p_fmt p_body body_eq sig_eq]. split.
  - destruct (hf_eq f f'); [|reflexivity]. destruct (heads_eq v st pk ha h2 vs v' st' pk' ha' h2' vs') eqn:H; [|reflexivity]. apply heads_spec in H. tauto.
  - destruct (hf_eq f' f); [|reflexivity]. destruct (heads_eq v' st' pk' ha' h2' vs' v st pk ha h2 vs) eqn:H; [|reflexivity]. apply heads_spec in H. destruct H as [H _]. symmetry in H. contradiction.
Qed.
Print Assumptions c95_versions_differ.
(** The packets of a type the library has no class for are all equal whatever they contain, and one-pass signatures of different
    versions are. *)
Theorem c95_content_refuted : forall fl f ty d d' v v' st ha pk kid n,
  pkt_eq fl (Pkt f (BData (POther ty d))) (Pkt f (BData (POther ty d'))) = Ok true /\
  pkt_eq fl (Pkt f (BOnePass (OnePass v st ha pk kid n))) (Pkt f (BOnePass (OnePass v' st ha pk kid n))) = Ok true.
Proof.
  intros. unfold pkt_eq. cbn [p_fmt p_body body_eq data_eq]. replace (hf_eq f f) with true by (symmetry; now apply hf_spec). rewrite Z.eqb_refl.
  unfold onepass_eq. cbn. rewrite !Z.eqb_refl, zlist_eqb_refl. split; reflexivity.
Qed.
Print Assumptions c95_content_refuted.
(** one-pass signatures: everything else is compared *)
Theorem c95_one_pass : forall fl f f' x y, pkt_eq fl (Pkt f (BOnePass x)) (Pkt f' (BOnePass y)) = Ok true <->
  f = f' /\ op_sigtype x = op_sigtype y /\ op_hash x = op_hash y /\ op_pk x = op_pk y /\ op_key_id x = op_key_id y /\ op_nested x = op_nested y.
Proof.
  intros. destruct (eq_alike fl (Pkt f (BOnePass x)) (Pkt f' (BOnePass y)) Logic.I Logic.I) as (r & R & E). rewrite R. unfold alike in E. cbn in E.
  split; [intros K; apply E; congruence|intros K; f_equal; now apply E].
Qed.
Print Assumptions c95_one_pass.
