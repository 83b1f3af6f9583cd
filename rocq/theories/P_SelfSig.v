(** C40, C41, C67: what a key reports from its self-signatures. *)
From Verif Require Import Base BaseProofs Spec Text SigPackets SigAttrs SpecAttrs AttrsProofs IssuerProofs SelfSig SpecSelf SelfProofs.

Definition kid1 : text := hex_text [1; 2; 3; 4; 5; 6; 7; 8].
Definition kid2 : text := hex_text [8; 8; 8; 8; 8; 8; 8; 8].
Definition secs (t : Z) : res Z := Ok (t * 1000000).
Lemma secs_modern : modern (fun t => if 0 <=? t then secs t else Err ValueError).
Proof. intros t c H. destruct (0 <=? t) eqn:E; [|discriminate H]. injection H as <-. lia. Qed.
Definition ex_sig (ty t : Z) (issuer : text) (more : list subpkt) : ksig := KSig ty (V4 (sig_obj_of ([Sub 2 false (SbTime t); Sub 16 false (SbIssuer issuer)] ++ more) [])) [] None.

(** ** C40 *)
(** The governing self-signature is the last one in the list: none of its kind follows it. *)
Theorem c40_last_wins local o rev : modern local ->
  (forall i, most_recent local o rev = Ok (Some i) -> exists k c, nth_error (sd_sigs o) i = Some k /\ candidate local (sd_own o) (if rev then sd_rev o else sd_self o) k c /\
     forall j k' c', (i < j)%nat -> nth_error (sd_sigs o) j = Some k' -> ~ candidate local (sd_own o) (if rev then sd_rev o else sd_self o) k' c') /\
  (most_recent local o rev = Ok None -> forall j k c, nth_error (sd_sigs o) j = Some k -> ~ candidate local (sd_own o) (if rev then sd_rev o else sd_self o) k c).
Proof.
  intros M. unfold most_recent. split.
  - intros i H. destruct (most_recent_loop local _ _ M _ _ _ _ H) as [(j & k & c & E & C & Er & L)|(Er & _)]; [|discriminate Er]. injection Er as ->. exists k, c. auto.
  - intros H. destruct (most_recent_loop local _ _ M _ _ _ _ H) as [(j & k & c & _ & _ & Er & _)|(_ & L)]; [discriminate Er|exact L].
Qed.
Print Assumptions c40_last_wins.
(** So the latest governs, and supplies the attribute, whenever the self-signatures are listed in order of time; missing: any other order. *)
Theorem c40_latest_partial local o n i : modern local -> 4 <= sd_version o -> most_recent local o (snd (mixin_table n)) = Ok (Some i) ->
  (forall a b ka kb ca cb, (a < b)%nat -> nth_error (sd_sigs o) a = Some ka -> nth_error (sd_sigs o) b = Some kb ->
     candidate local (sd_own o) (if snd (mixin_table n) then sd_rev o else sd_self o) ka ca -> candidate local (sd_own o) (if snd (mixin_table n) then sd_rev o else sd_self o) kb cb -> ca <= cb) ->
  latest local (sd_own o) (if snd (mixin_table n) then sd_rev o else sd_self o) (sd_sigs o) i /\
  forall p k s v, same_named n = Some p -> nth_error (sd_sigs o) i = Some k -> k_body k = V4 s -> get_prop s p = Ok v -> key_get local o n = Ok (KVal v).
Proof.
  intros M V H S. split.
  - destruct (proj1 (c40_last_wins local o _ M) i H) as (k & c & E & C & L). exists k, c. split; [exact E|]. split; [exact C|]. intros j k' c' E' C'.
    destruct (Nat.lt_trichotomy j i) as [Q|[->|Q]]; [exact (S j i k' k c' c Q E' E C' C)| |exfalso; exact (L j k' c' Q E' C')].
    rewrite E in E'. injection E' as <-. rewrite (candidate_fun local _ _ k c c' C C'). lia.
  - intros p k s v Sn E B G. unfold key_get, mixin_get. assert (T : fst (fst (mixin_table n)) = AProp p) by (destruct n; try discriminate Sn; injection Sn as <-; reflexivity).
    destruct (mixin_table n) as [[a d] rev]. cbn [fst snd] in *. subst a. replace (4 <=? sd_version o) with true by lia. rewrite H. cbn [bind]. rewrite E. unfold sig_attr. rewrite B, G. reflexivity.
Qed.
Print Assumptions c40_latest_partial.
Definition ex_key : signed := Signed 4 [31] [32] [kid1] [ex_sig 31 100 kid1 [Sub 26 false (SbUri [97])]; ex_sig 16 900 kid2 []; ex_sig 31 200 kid1 [Sub 26 false (SbUri [98])]].
Example c40_example : most_recent secs ex_key false = Ok (Some 2%nat) /\ key_get secs ex_key K_policy_uri = Ok (KVal (VText [98])).
Proof. split; vm_compute; reflexivity. Qed.
(** Refuted: a newer self-signature listed before an older one is ignored. *)
Theorem c40_latest_refuted local own types newer older cn co v rv : modern local -> candidate local own types newer cn -> candidate local own types older co -> co < cn ->
  most_recent local (Signed v types rv own [newer; older]) false = Ok (Some 1%nat) /\ ~ latest local own types [newer; older] 1.
Proof.
  intros M Cn Co L. assert (K : forall k c, candidate local own types k c -> exists ids, sig_issuers k = Ok ids /\ meet ids own = true /\ is_in (k_type k) types = true /\ sig_created local k = Ok c /\ year_1900 <? c = true).
  { intros k c ((ids & x & E & X1 & X2) & It & Ec). exists ids. split; [exact E|]. split; [apply meet_spec; eauto|]. split; [now apply is_in_spec|]. split; [exact Ec|].
    unfold sig_created in Ec. destruct (k_body k) as [s|]; [|discriminate Ec]. unfold get_creation_time in Ec. destruct (get_value s 2 ATime) as [w|]; [|discriminate Ec]. cbn [bind] in Ec. unfold year_1900.
    destruct w; try discriminate Ec; apply M in Ec; lia. }
  split.
  - destruct (K _ _ Cn) as (i1 & A1 & B1 & C1 & D1 & E1). destruct (K _ _ Co) as (i2 & A2 & B2 & C2 & D2 & E2).
    unfold most_recent. cbn [sd_sigs sd_own sd_self most_recent_from]. rewrite A1. cbn [bind]. rewrite B1, C1, D1. cbn [negb bind]. rewrite A2. cbn [bind]. rewrite B2, C2, D2. cbn [negb bind]. rewrite E2. reflexivity.
  - intros (k & c & E & C & Lt). injection E as <-. rewrite (candidate_fun local _ _ _ _ _ C Co) in Lt. specialize (Lt 0%nat newer cn eq_refl Cn). lia.
Qed.
Print Assumptions c40_latest_refuted.
Example c40_refuted_example : key_get secs (Signed 4 [31] [32] [kid1] [ex_sig 31 200 kid1 [Sub 26 false (SbUri [98])]; ex_sig 31 100 kid1 [Sub 26 false (SbUri [97])]]) K_policy_uri = Ok (KVal (VText [97])).
Proof. vm_compute. reflexivity. Qed.
(** Refuted: with a version 3 signature anywhere among the signatures no attribute can be read; and none of a version 3 key. *)
Theorem c40_version3_refuted local o n : (4 <= sd_version o -> forall i k t d, nth_error (sd_sigs o) i = Some k -> k_body k = V3 t d -> forall r, key_get local o n <> Ok r) /\
  (sd_version o < 4 -> key_get local o n = Err UnboundLocalError).
Proof.
  unfold key_get. destruct (mixin_table n) as [[a d] rev]. unfold mixin_get. split.
  - intros V i k t dd E B r H. replace (4 <=? sd_version o) with true in H by lia. destruct (most_recent local o rev) as [m|] eqn:Em; [|discriminate H]. exact (most_recent_v3 local _ _ _ i None k t dd E B _ _ Em).
  - intros V. replace (4 <=? sd_version o) with false by lia. reflexivity.
Qed.
Print Assumptions c40_version3_refuted.
Example c40_version3_example : key_get secs (Signed 4 [31] [32] [kid1] [ex_sig 31 200 kid1 []; KSig 16 (V3 5 kid2) [] None]) K_sign = Err AttributeError.
Proof. vm_compute. reflexivity. Qed.
(** Refuted: the expiration time of a key with one self-signature is not reported, whatever its key expiration subpacket says: it reads as None,
    or as 0 if the subpacket is 0. *)
Theorem c40_expiration_refuted local ty s vals vd sk rv own n stored : n <> 0 -> get_value s 9 ATime = Ok (VInt n) -> get_subs s 31 = [] ->
  most_recent local (Signed 4 sk rv own [KSig ty (V4 s) vals vd]) false = Ok (Some 0%nat) ->
  key_expiration local (Signed 4 sk rv own [KSig ty (V4 s) vals vd]) stored = Ok (KVal VNone).
Proof.
  intros Hn G T M. unfold key_expiration. cbn [sd_version]. cbn [Z.eqb Pos.eqb orb Z.leb Z.compare]. unfold key_get. cbn [mixin_table]. unfold mixin_get. cbn [sd_version sd_sigs]. cbn [Z.leb Z.compare Pos.compare Pos.compare_cont]. rewrite M. cbn [bind nth_error sig_attr k_body].
  unfold get_key_expiration. rewrite G. cbn [bind truthy]. replace (negb (negb (n =? 0))) with false by lia. unfold target_of. rewrite T. destruct (get_issuer_key_ids s) as [ids|] eqn:Gi; cbn [bind]; [reflexivity|].
  exfalso. unfold most_recent in M. cbn [sd_sigs most_recent_from] in M. unfold sig_issuers in M. cbn [k_body] in M. rewrite Gi in M. discriminate M.
Qed.
Print Assumptions c40_expiration_refuted.
Example c40_expiration_example : key_expiration secs (Signed 4 [31] [32] [kid1] [ex_sig 31 100 kid1 [Sub 9 false (SbTime 60)]]) None = Ok (KVal VNone) /\
  key_expiration secs (Signed 4 [31] [32] [kid1] [ex_sig 31 100 kid1 [Sub 9 false (SbTime 60)]; ex_sig 16 5000 kid1 []]) None = Ok (KTime 5060000000).
Proof. split; vm_compute; reflexivity. Qed.

(** ** C41 *)
(** Certify, sign, encrypt communications, split and multiple owners report their own flag, for every combination of flags. *)
Theorem c41_flags_partial local o n i k f j : In n [K_certify; K_sign; K_comms; K_split; K_owners] -> 4 <= sd_version o ->
  most_recent local o false = Ok (Some i) -> nth_error (sd_sigs o) i = Some k -> has_flags k f -> flag_index n = Some j ->
  exists b, nth_error f j = Some b /\ key_get local o n = Ok (KVal (VBool b)).
Proof.
  intros I V M E (h & u & c & a1 & a2 & a3 & a4 & a5 & a6 & a7 & B & F & ->) J. destruct (first_flags h u _ F) as (l & G). unfold key_get, mixin_get. replace (4 <=? sd_version o) with true by lia.
  cbn [In] in I. repeat destruct I as [<-|I]; try contradiction; cbn [flag_index] in J; injection J as <-; cbn [mixin_table]; rewrite M; cbn [bind]; rewrite E; unfold sig_attr; rewrite B; unfold get_prop, get_value; cbn [getter fst snd]; rewrite G;
    eexists; (split; [cbn [nth_error]; reflexivity|]); reflexivity.
Qed.
Print Assumptions c41_flags_partial.
Definition ex_flags (a3 a4 : bool) : signed := Signed 4 [24] [40] [kid1] [ex_sig 24 100 kid1 [Sub 27 false (SbFlags false true a3 a4 false false true)]].
Example c41_example : most_recent secs (ex_flags true false) false = Ok (Some 0%nat) /\ key_get secs (ex_flags true false) K_sign = Ok (KVal (VBool true)) /\ key_get secs (ex_flags true false) K_split = Ok (KVal (VBool false)).
Proof. repeat split; vm_compute; reflexivity. Qed.
(** Refuted: may_encrypt_storage and may_be_used_for_auth report the communications flag, supports_modification_detection the owners flag. *)
Theorem c41_storage_refuted local o i k f : 4 <= sd_version o -> most_recent local o false = Ok (Some i) -> nth_error (sd_sigs o) i = Some k -> has_flags k f ->
  (exists b, nth_error f 2 = Some b /\ key_get local o K_storage = Ok (KVal (VBool b)) /\ key_get local o K_auth = Ok (KVal (VBool b))) /\
  (exists b, nth_error f 6 = Some b /\ key_get local o K_modification_detection = Ok (KVal (VBool b))).
Proof.
  intros V M E H. split.
  - destruct (c41_flags_partial local o K_comms i k f 2 ltac:(cbn; tauto) V M E H eq_refl) as (b & B & G). exists b. split; [exact B|]. split; exact G.
  - destruct (c41_flags_partial local o K_owners i k f 6 ltac:(cbn; tauto) V M E H eq_refl) as (b & B & G). exists b. split; [exact B|exact G].
Qed.
Print Assumptions c41_storage_refuted.
Example c41_refuted_example : key_get secs (ex_flags true false) K_storage = Ok (KVal (VBool true)) /\ key_get secs (ex_flags false true) K_storage = Ok (KVal (VBool false)).
Proof. split; vm_compute; reflexivity. Qed.
(** Assigning an attribute of a key reads back (it is stored in the governing self-signature) ... *)
Theorem c41_set_get local o n p v o' : same_named n = Some p -> 4 <= sd_version o -> key_set local o n v = Ok o' -> key_get local o' n = Ok (KVal v).
Proof.
  intros Sn V H. apply (key_set_get local o n p v o'); [destruct n; try discriminate Sn; injection Sn as <-; reflexivity| |exact H|exact V].
  destruct n; try discriminate Sn; injection Sn as <-; cbn; tauto.
Qed.
Print Assumptions c41_set_get.
(** ... refuted: assigning may_encrypt_storage or may_be_used_for_auth assigns the communications flag. *)
Theorem c41_set_refuted local o n v o' : In n [K_storage; K_auth] -> 4 <= sd_version o -> key_set local o n v = Ok o' -> key_get local o' K_comms = Ok (KVal v).
Proof.
  intros I V H. assert (H' : key_set local o K_comms v = Ok o') by (cbn [In] in I; repeat destruct I as [<-|I]; try contradiction; exact H). exact (c41_set_get local o K_comms P_comms v o' eq_refl V H').
Qed.
Print Assumptions c41_set_refuted.
Example c41_set_example : (do o <- key_set secs (ex_flags true false) K_auth (VBool false);; key_get secs o K_comms) = Ok (KVal (VBool false)).
Proof. vm_compute. reflexivity. Qed.

(** ** C67 *)
(** A key is reported revoked exactly when one of its self-signatures is a revocation that has not expired; missing: that the revocation verifies. *)
Theorem c67_revoked_partial local now o b : is_revoked local now o = Ok b ->
  (b = true <-> exists k ids x, In k (sd_sigs o) /\ In (k_type k) (sd_rev o) /\ sig_issuers k = Ok ids /\ In x ids /\ In x (sd_own o) /\
    (forall s e, k_body k = V4 s -> get_expiration_time local s = Ok (Some e) -> now <= e)).
Proof.
  assert (X : forall k b, sig_expired local now k = Ok b -> b = false <-> forall s e, k_body k = V4 s -> get_expiration_time local s = Ok (Some e) -> now <= e).
  { intros k b' E. unfold sig_expired in E. destruct (k_body k) as [s|c i]; [|injection E as <-; split; [discriminate|reflexivity]]. apply bind_ok in E as ([e|] & E1 & E2); injection E2 as <-.
    - split; [intros Q s' e' E E'; injection E as <-; rewrite E1 in E'; injection E' as <-; lia|]. intros Q. specialize (Q s e eq_refl E1). lia.
    - split; [intros _ s' e' E E'; injection E as <-; rewrite E1 in E'; discriminate E'|reflexivity]. }
  unfold is_revoked. intros H. apply bind_ok in H as (l & Hl & H). apply bind_ok in H as (r & Hr & H). injection H as <-.
  assert (A : forall sigs l, self_signatures (sd_own o) sigs = Ok l -> forall k, In k l <-> In k sigs /\ exists ids x, sig_issuers k = Ok ids /\ In x ids /\ In x (sd_own o)).
  { induction sigs as [|k sigs IH]; intros l0 H; cbn [self_signatures] in H; [injection H as <-; intros k; cbn [In]; tauto|].
    destruct (sig_issuers k) as [ids|] eqn:Ei; [|discriminate H]. cbn [bind] in H. apply bind_ok in H as (r0 & H0 & H). injection H as <-. intros k'. specialize (IH r0 H0 k'). destruct (meet (sd_own o) ids) eqn:Em.
    - apply meet_spec in Em as (x & X1 & X2). cbn [In]. rewrite IH. split; [intros [<-|[I W]]; [split; [now left|]; exists ids, x; auto|auto]|]. intros [[<-|I] W]; auto.
    - cbn [In]. rewrite IH. split; [intros [I W]; auto|]. intros [[<-|I] W]; [|auto]. exfalso. destruct W as (ids' & x & E & X1 & X2). rewrite Ei in E. injection E as <-. assert (meet (sd_own o) ids = true) by (apply meet_spec; eauto). congruence. }
  assert (B : forall sigs l, live_revocations local now (sd_rev o) sigs = Ok l -> forall k, In k l <-> In k sigs /\ In (k_type k) (sd_rev o) /\ (forall s e, k_body k = V4 s -> get_expiration_time local s = Ok (Some e) -> now <= e)).
  { induction sigs as [|k sigs IH]; intros l0 H; cbn [live_revocations] in H; [injection H as <-; intros k; cbn [In]; tauto|].
    destruct (is_in (k_type k) (sd_rev o)) eqn:Et.
    - destruct (sig_expired local now k) as [e|] eqn:Ee; [|discriminate H]. cbn [bind] in H. apply bind_ok in H as (r0 & H0 & H). injection H as <-. apply is_in_spec in Et. intros k'. specialize (IH r0 H0 k'). pose proof (X k e Ee) as Xk.
      destruct e; cbn [negb In]; rewrite IH; split; [intros W; tauto|intros [[<-|I] W]; [destruct W as [_ W]; apply Xk in W; discriminate W|tauto]|intros [<-|W]; [split; [now left|]; split; [exact Et|now apply Xk]|tauto]|tauto].
    - cbn [bind] in H. apply bind_ok in H as (r0 & H0 & H). injection H as <-. intros k'. specialize (IH r0 H0 k'). cbn [In]. rewrite IH. split; [tauto|]. intros [[<-|I] W]; [|tauto]. exfalso. destruct W as [W _]. apply is_in_spec in W. congruence. }
  specialize (A _ _ Hl). specialize (B _ _ Hr). split.
  - intros Hn. destruct r as [|k r]; [discriminate Hn|]. destruct (proj1 (B k) (or_introl eq_refl)) as (I & T & E). apply A in I as (I & ids & x & W1 & W2 & W3). exists k, ids, x. auto 10.
  - intros (k & ids & x & I & T & W1 & W2 & W3 & E). assert (In k r) as Q by (apply B; split; [apply A; split; [exact I|]; exists ids, x; auto|auto]). destruct r; [destruct Q|]. reflexivity.
Qed.
Print Assumptions c67_revoked_partial.
(** Refuted: nothing but the claims of the signatures matters. A revocation with arbitrary signature values, even one already found invalid, revokes. *)
Theorem c67_unverified_refuted local now v sk rv own a b : Forall2 same_claims a b -> is_revoked local now (Signed v sk rv own a) = is_revoked local now (Signed v sk rv own b).
Proof.
  intros F. unfold is_revoked. cbn [sd_own sd_sigs sd_rev].
  assert (G : match self_signatures own a, self_signatures own b with Ok x, Ok y => Forall2 same_claims x y | Err e, Err e' => e = e' | _, _ => False end).
  { induction F as [|x y a b [E1 E2] F IH]; [constructor|]. cbn [self_signatures]. assert (E : sig_issuers x = sig_issuers y) by (unfold sig_issuers; now rewrite E2). rewrite E. destruct (sig_issuers y) as [ids|]; cbn [bind]; [|reflexivity].
    destruct (self_signatures own a), (self_signatures own b); cbn [bind]; try contradiction; [|exact IH]. destruct (meet own ids); [constructor; [split; assumption|exact IH]|exact IH]. }
  destruct (self_signatures own a) as [l1|], (self_signatures own b) as [l2|]; try contradiction; [|subst; reflexivity]. cbn [bind]. clear F.
  assert (H : match live_revocations local now rv l1, live_revocations local now rv l2 with Ok x, Ok y => length x = length y | Err e, Err e' => e = e' | _, _ => False end).
  { induction G as [|x y a' b' [E1 E2] G IH]; [reflexivity|]. cbn [live_revocations]. rewrite E1. assert (E : sig_expired local now x = sig_expired local now y) by (unfold sig_expired; now rewrite E2). rewrite E.
    destruct (is_in (k_type y) rv); [destruct (sig_expired local now y) as [e|]; [|reflexivity]|]; cbn [bind]; destruct (live_revocations local now rv a'), (live_revocations local now rv b'); cbn [bind]; try contradiction; try exact IH.
    destruct e; cbn [negb]; cbn [length]; lia. }
  destruct (live_revocations local now rv l1), (live_revocations local now rv l2); try contradiction; cbn [bind]; [now rewrite H|now subst].
Qed.
Print Assumptions c67_unverified_refuted.
Example c67_example : is_revoked secs 1000000000 (Signed 4 [31] [32] [kid1] [KSig 32 (V4 (sig_obj_of [Sub 2 false (SbTime 5)] [Sub 16 false (SbIssuer kid1)])) [12345] (Some false)]) = Ok true /\
  is_revoked secs 1000000000 ex_key = Ok false.
Proof. split; vm_compute; reflexivity. Qed.
Example c41_flags_example : forall a b, exists k, nth_error (sd_sigs (ex_flags a b)) 0 = Some k /\ has_flags k [false; true; a; b; false; false; true].
Proof. intros a b. eexists. split; [reflexivity|]. exists [Sub 2 false (SbTime 100); Sub 16 false (SbIssuer kid1); Sub 27 false (SbFlags false true a b false false true)], [], false, false, true, a, b, false, false, true. split; [reflexivity|]. split; reflexivity. Qed.
