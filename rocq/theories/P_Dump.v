(** C81 (the old parser's check of packet order), C82 (streams of keys), C83 (canonical concatenation and order of packets). *)
From Verif Require Import Base BaseProofs Utils TransKey DumpKeys SpecDump DumpProofs DumpOrder.

Definition pk6 (v : Z) : dpkt := Dpkt 6 0 v [1].
Definition sg (t : Z) : dpkt := Dpkt 2 t 0 [2].
Definition uid : dpkt := Dpkt 13 0 0 [3].
Definition uat : dpkt := Dpkt 17 0 0 [4].
Definition sub : dpkt := Dpkt 14 0 0 [5].
Definition good : list dpkt := [pk6 4; sg 31; sg 32; uid; sg 19; sg 16; uid; uat; sg 18; sub; sg 24; sg 40; sub; sg 24].

(** ** C81 *)
(** A list of packets is accepted exactly when it reads: a public key; signatures directly on it and revocations of it; user ids, each
    with its certifications; user attributes, each with its certifications; subkeys, each with one binding signature and at most one
    revocation; and the key is of version 4 or later if there are subkeys. *)
Theorem c81_accepts_exactly l : dump_validate l = Ok tt <-> dump_key l.
Proof. apply dump_grammar. Qed.
Print Assumptions c81_accepts_exactly.
Example c81_accepts_exactly_ex : dump_validate good = Ok tt /\ dump_validate [pk6 4; uid; sg 31] = Err InvalidKeyPacketOrder /\ dump_validate [pk6 3; uid; sub; sg 24] = Err InvalidKeyPacketType.
Proof. split; [vm_compute; reflexivity|split; vm_compute; reflexivity]. Qed.

(** Everything else is rejected with InvalidKeyPacketOrder or InvalidKeyPacketType, except that an empty list and a list that ends with a
    subkey may give IndexError. *)
Theorem c81_errors l : dump_key l \/ dump_validate l = Err InvalidKeyPacketOrder \/ dump_validate l = Err InvalidKeyPacketType \/
  (dump_validate l = Err IndexError /\ (l = [] \/ exists t x, l = t ++ [x] /\ d_raw x = 14)).
Proof.
  destruct (dump_validate l) as [[]|e] eqn:E; [left; now apply dump_grammar|]. right. destruct (dump_errors l e E) as [-> | [-> | (-> & H)]]; auto.
Qed.
Print Assumptions c81_errors.
Example c81_errors_ex : dump_validate [] = Err IndexError /\ dump_validate [pk6 4; uid; sub] = Err IndexError /\ dump_validate [uid] = Err InvalidKeyPacketOrder.
Proof. split; [|split]; vm_compute; reflexivity. Qed.

(** Against RFC 4880, 11.1: a certification revocation (0x30) makes any key invalid, wherever it stands; ... *)
Theorem c81_revoked_certification_refuted a s b : d_raw s = 2 -> d_sig s = 0x30 -> dump_validate (a ++ s :: b) <> Ok tt.
Proof.
  intros H1 H2 H. apply dump_grammar in H as (k & ds & us & uas & subs & E & Hk & Fd & Fu & Fa & Fs & _).
  assert (I : In s (k :: ds ++ concat us ++ concat uas ++ concat subs)) by (rewrite <- E; apply in_or_app; right; now left).
  assert (C : forall t g, certified t g -> t <> 2 -> ~ In s g).
  { intros t g (x & cs & -> & Hx & Hc) Nt [<- | J]; [congruence|]. rewrite Forall_forall in Hc. destruct (Hc s J) as [_ Q]. rewrite H2 in Q. cbn in Q. lia. }
  cbn [In] in I. rewrite !in_app_iff in I. destruct I as [-> | [I | [I | [I | I]]]]; [congruence| | | |].
  - rewrite Forall_forall in Fd. destruct (Fd s I) as [_ Q]. rewrite H2 in Q. cbn in Q. lia.
  - apply in_concat in I as (g & Ig & Is). rewrite Forall_forall in Fu. now apply (C 13 g (Fu g Ig)).
  - apply in_concat in I as (g & Ig & Is). rewrite Forall_forall in Fa. now apply (C 17 g (Fa g Ig)).
  - apply in_concat in I as (g & Ig & Is). rewrite Forall_forall in Fs. destruct (Fs g Ig) as (x & y & r & -> & Hx & [_ Hy] & Hr). cbn [In] in Is. destruct Is as [-> | [-> | Is]]; [congruence|rewrite H2 in Hy; cbn in Hy; lia|].
    destruct Hr as [-> | (z & -> & [_ Hz])]; [destruct Is|]. destruct Is as [-> | []]. rewrite H2 in Hz. cbn in Hz. lia.
Qed.
Print Assumptions c81_revoked_certification_refuted.
(** ... a subkey bound by two signatures is rejected; ... *)
Theorem c81_two_bindings_refuted a x b1 b2 r : d_raw x = 14 -> is_sig b1 [0x18] -> is_sig b2 [0x18] -> dump_validate (a ++ x :: b1 :: b2 :: r) <> Ok tt.
Proof.
  intros Hx [R1 S1] [R2 S2] H. assert (V : forall l v pre, dump_validate_from v pre (l ++ x :: b1 :: b2 :: r) <> Ok tt).
  { induction l as [|y l IH]; intros v pre E; cbn [app dump_validate_from] in E; apply bind_ok in E as (u & _ & E); [|now apply IH in E].
    cbn [dump_validate_from] in E. apply bind_ok in E as (u1 & _ & E). apply bind_ok in E as (u2 & E & _). unfold dump_step in E. cbv zeta in E. cbn in S2. destruct S2 as [S2|[]].
    rewrite R2, <- S2, rev_app_distr in E. cbn [rev app] in E. cbn [Z.eqb Pos.eqb] in E. rewrite R1 in E. destruct (filter _ _) in E; discriminate E. }
  destruct a as [|k a]; cbn [app] in H; unfold dump_validate in H; destruct (negb _) in H; try discriminate H; [exact (V [] _ _ H)|exact (V (k :: a) _ _ H)].
Qed.
Print Assumptions c81_two_bindings_refuted.
(** ... and a key without any user id is accepted. *)
Theorem c81_no_user_id_refuted k : d_raw k = 6 -> dump_validate [k] = Ok tt.
Proof. intros H. apply dump_grammar. exists k, [], [], [], []. repeat split; auto. congruence. Qed.
Print Assumptions c81_no_user_id_refuted.
Example c81_refuted_ex : dump_validate [pk6 4; uid; sg 19; sg 0x30] = Err InvalidKeyPacketType /\ dump_validate [pk6 4; uid; sub; sg 24; sg 24] = Err InvalidKeyPacketOrder /\ dump_validate [pk6 4] = Ok tt.
Proof. split; [|split]; vm_compute; reflexivity. Qed.

Lemma built {K} (build : list dpkt -> res K) gs ks : Forall2 (fun g k => dump_key g /\ build g = Ok k) gs ks -> Forall2 (fun g k => fin build dump_validate g = Ok k) gs ks.
Proof. induction 1 as [|g k gs ks [V B] _ IH]; constructor; [|exact IH]. unfold fin, finish. apply dump_grammar in V. rewrite V. exact B. Qed.
(** ** C82 *)
(** A stream without read errors in which every key is valid and can be built gives exactly those keys, in order. *)
Theorem c82_all_keys_in_order {K} (build : list dpkt -> res K) gs ks : Forall key_group gs -> Forall2 (fun g k => dump_key g /\ build g = Ok k) gs ks ->
  parse build dump_validate (map Pk (concat gs)) = (ks, None).
Proof.
  intros F F2. apply (clean build dump_validate gs ks F). now apply built.
Qed.
Print Assumptions c82_all_keys_in_order.
Example c82_all_keys_in_order_ex : parse (fun g => Ok (length g)) dump_validate (map Pk (good ++ [pk6 3; uid; sg 16] ++ [pk6 4])) = ([14%nat; 3%nat; 1%nat], None).
Proof. vm_compute. reflexivity. Qed.
(** The first key that is not valid, or that cannot be built, ends the iteration with its exception: the keys before it have been given,
    those after it are not. *)
Theorem c82_first_failure_ends {K} (build : list dpkt -> res K) gs ks g e later : Forall key_group gs -> Forall2 (fun g k => dump_key g /\ build g = Ok k) gs ks ->
  key_group g -> (dump_validate g = Err e \/ dump_key g /\ build g = Err e) -> (later = [] \/ starts later) ->
  parse build dump_validate (map Pk (concat gs) ++ map Pk g ++ later) = (ks, Some e).
Proof.
  intros F F2 G Hg L. apply (stops build dump_validate gs ks g e later F); [|exact G| |exact L].
  - now apply built.
  - unfold fin, finish. destruct Hg as [-> | [V B]]; [reflexivity|]. apply dump_grammar in V. rewrite V. exact B.
Qed.
Print Assumptions c82_first_failure_ends.
Example c82_first_failure_ends_ex : parse (fun g => Ok (length g)) dump_validate (map Pk (good ++ [pk6 3; uid; sub; sg 24] ++ good)) = ([14%nat], Some InvalidKeyPacketType).
Proof. vm_compute. reflexivity. Qed.
(** Against the intention of the recovery code. When reading fails and no further key follows (after an exception a generator always is at
    its end), the key being read is dropped and the iteration ends as if the stream had been read completely: no exception. *)
Theorem c82_read_error_is_silent_refuted {K} (build : list dpkt -> res K) gs ks g e junk : Forall key_group gs -> Forall2 (fun g k => dump_key g /\ build g = Ok k) gs ks ->
  key_group g -> Forall no_key junk -> parse build dump_validate (map Pk (concat gs) ++ map Pk g ++ Bad e :: junk) = (ks, None).
Proof.
  intros F F2 G J. pose proof (from_groups build dump_validate gs ks (map Pk g ++ Bad e :: junk) F) as X. unfold from in X. rewrite X.
  - pose proof (from_fault build dump_validate g e junk G) as Y. unfold from in Y. rewrite Y. destruct (skip_none junk None 1 J Logic.I) as (m & S). unfold skip_to_next_key. rewrite S. cbn. now rewrite app_nil_r.
  - now apply built.
  - destruct G as (k & t & -> & H & _). exists k. eexists. split; [reflexivity|exact H].
Qed.
Print Assumptions c82_read_error_is_silent_refuted.
(** When another key follows, the recovery puts its public key packet into the list twice, so that key is always reported as invalid,
    whatever it is, and the iteration ends there. *)
Theorem c82_recovery_always_fails_refuted {K} (build : list dpkt -> res K) gs ks g e junk p t later : Forall key_group gs -> Forall2 (fun g k => dump_key g /\ build g = Ok k) gs ks ->
  key_group g -> Forall no_key junk -> key_group (p :: t) -> (later = [] \/ starts later) ->
  parse build dump_validate (map Pk (concat gs) ++ map Pk g ++ Bad e :: junk ++ map Pk (p :: t) ++ later) = (ks, Some InvalidKeyPacketOrder).
Proof.
  intros F F2 G J (p' & t' & E & Hp & Ft) L. injection E as <- <-. pose proof (from_groups build dump_validate gs ks (map Pk g ++ Bad e :: junk ++ map Pk (p :: t) ++ later) F) as X. unfold from in X. rewrite X.
  - pose proof (from_fault build dump_validate g e (junk ++ map Pk (p :: t) ++ later) G) as Y. unfold from in Y. rewrite Y. cbn [map app]. destruct (skip_some junk None 1 p (map Pk t ++ later) J Logic.I Hp) as (m & S). unfold skip_to_next_key. rewrite S.
    rewrite (after_fault build dump_validate p t later) with (e := InvalidKeyPacketOrder); [cbn; now rewrite app_nil_r|rewrite app_length, map_length; lia|exact Ft|exact L|].
    unfold fin, finish, dump_validate. rewrite Hp. cbn [Z.eqb Pos.eqb negb dump_validate_from hd_error app]. unfold dump_step. cbv zeta. rewrite Hp. reflexivity.
  - now apply built.
  - destruct G as (k & t' & -> & H & _). exists k. eexists. split; [reflexivity|exact H].
Qed.
Print Assumptions c82_recovery_always_fails_refuted.
Example c82_recovery_ex : parse (fun g => Ok (length g)) dump_validate (map Pk (good ++ [pk6 4; uid]) ++ Bad ValueError :: Pk uid :: map Pk good) = ([14%nat], Some InvalidKeyPacketOrder) /\
  parse (fun g => Ok (length g)) dump_validate (map Pk (good ++ [pk6 4; uid]) ++ [Bad ValueError]) = ([14%nat], None).
Proof. split; vm_compute; reflexivity. Qed.
(** skip_to_next_key gives the first public key packet that can be read and leaves the stream just after it; if every packet in between can
    be read, the number reported is theirs plus one (and one if there is none). *)
Theorem c82_skips_to_the_next_key junk p r : Forall no_key junk -> d_raw p = 6 ->
  (exists m, skip_to_next_key (junk ++ Pk p :: r) = (Some p, m, r)) /\ (exists m, skip_to_next_key junk = (None, m, [])) /\
  (forall l, junk = map Pk l -> skip_to_next_key (junk ++ Pk p :: r) = (Some p, zlen l + 1, r)).
Proof.
  intros J Hp. split; [exact (skip_some junk None 1 p r J Logic.I Hp)|]. split; [exact (skip_none junk None 1 J Logic.I)|]. intros l ->.
  assert (F : Forall (fun q => d_raw q <> 6) l) by (clear -J; induction l as [|q l IH]; constructor; [exact (Forall_inv J)|exact (IH (Forall_inv_tail J))]).
  unfold skip_to_next_key. destruct l as [|c l]; cbn [map app skip].
  - destruct r as [|[?|?] ?]; cbn [skip]; rewrite Hp; reflexivity.
  - rewrite skip_count; [|exact (Forall_inv_tail F)|exact Hp|exact (Forall_inv F)]. rewrite zlen_cons. replace (1 + zlen l + 1) with (1 + zlen l + 1) by lia. replace (zlen l + 1 + 1) with (1 + zlen l + 1) by lia. reflexivity.
Qed.
Print Assumptions c82_skips_to_the_next_key.
(** With its default arguments the parser yields no key at all: building a key begins with hash_key_data, which fails on Python 3. *)
Theorem c82_default_yields_nothing_refuted {K} md5 (rest : bytes -> list dpkt -> res K) evs : exists o, parse (parse_key_default md5 rest) dump_validate evs = ([], o).
Proof.
  assert (X : forall l, exists e, finish (parse_key_default md5 rest) dump_validate l = Err e). { intros l. unfold finish. destruct (dump_validate l); cbn; eauto. }
  destruct evs as [|[p|e] t]; cbn [parse]; [eauto| |eauto]. generalize (S (length t)) (@nil dpkt) p. intros f. revert t. induction f as [|f IH]; intros t kp q; cbn [parse_stream]; [eauto|].
  destruct t as [|[n|e] t]; [destruct (X (kp ++ [q])) as (e & ->); eauto| |destruct (skip_to_next_key t) as [[[?|] ?] ?]; eauto]. destruct (d_raw n =? 6); [destruct (X (kp ++ [q])) as (e & ->); eauto|apply IH].
Qed.
Print Assumptions c82_default_yields_nothing_refuted.

(** ** C83 *)
(** Different lists of packets have different concatenations (types below 256, contents below 4 GiB). *)
Theorem c83_concatenation_is_injective l m x : Forall key_pkt l -> Forall key_pkt m -> concat_key l = Ok x -> concat_key m = Ok x ->
  map (fun p => (d_raw p, d_data p)) l = map (fun p => (d_raw p, d_data p)) m.
Proof. apply concat_key_inj. Qed.
Print Assumptions c83_concatenation_is_injective.
Theorem c83_concatenation_is_defined l : Forall key_pkt l -> exists x, concat_key l = Ok x.
Proof.
  induction 1 as [|p l [B _] _ (x & IH)]; [exists []; reflexivity|]. cbn [concat_key]. rewrite mk_bytes_wf by (constructor; [exact B|constructor]). cbn [bind]. rewrite IH. cbn [bind]. eauto.
Qed.
Print Assumptions c83_concatenation_is_defined.
Example c83_concatenation_ex : concat_key [pk6 4; uid] = Ok [6; 0; 0; 0; 1; 1; 13; 0; 0; 0; 1; 3] /\ key_pkt (pk6 4) /\ key_pkt uid.
Proof. repeat split; try (vm_compute; reflexivity); vm_compute; congruence. Qed.
(** The comparison of packets is a total order on types and contents. *)
Theorem c83_comparison_is_an_order p q r :
  In (compare_packets p q) [-1; 0; 1] /\ compare_packets q p = - compare_packets p q /\ (compare_packets p q = 0 <-> d_raw p = d_raw q /\ d_data p = d_data q) /\
  (compare_packets p q <= 0 -> compare_packets q r <= 0 -> compare_packets p r <= 0) /\ (d_raw p < d_raw q -> compare_packets p q = -1).
Proof.
  split; [apply compare_range|]. split; [apply compare_opp|]. split; [apply compare_zero|]. split; [apply compare_trans|]. intros H. unfold compare_packets. replace (d_raw q <? d_raw p) with false by lia. now replace (d_raw p <? d_raw q) with true by lia.
Qed.
Print Assumptions c83_comparison_is_an_order.
(** But the canonical hash of a key cannot be computed: sorted() takes no cmp in Python 3. *)
Theorem c83_no_canonical_hash_refuted md5 l : hash_key_data md5 l = Err TypeError.
Proof. reflexivity. Qed.
Print Assumptions c83_no_canonical_hash_refuted.
