(** C86: marking signatures as validated. *)
From Verif Require Import Base BaseProofs Text Validate.

Lemma check_fails v k s : check_signature v k s = Err TypeError. Proof. reflexivity. Qed.
Lemma revocation_keys_fail v rks : forall pk s sg, check_revocation_keys v rks pk s sg = Ok None \/ check_revocation_keys v rks pk s sg = Err TypeError.
Proof. induction rks as [|rk t IH]; intros pk s sg; cbn [check_revocation_keys]; [auto|]. destruct (zlist_eqb _ _); [right; reflexivity|apply IH]. Qed.
Lemma revocation_keys_indep v v' rks : forall pk s sg, check_revocation_keys v rks pk s sg = check_revocation_keys v' rks pk s sg.
Proof. induction rks as [|rk t IH]; intros pk s sg; cbn [check_revocation_keys]; [reflexivity|]. destruct (zlist_eqb _ _); [reflexivity|apply IH]. Qed.
Lemma one_indep v v' pk rks s sg : validate_signature v pk rks s sg = validate_signature v' pk rks s sg.
Proof.
  unfold validate_signature. destruct (v_hash s); cbn [bind]; [|reflexivity]. destruct (v_version s <? 4); [reflexivity|]. cbv zeta. rewrite (revocation_keys_indep v v'). reflexivity.
Qed.
(** only revocations of certifications get through *)
Lemma accepted_type v pk rks s sg k : validate_signature v pk rks s sg = Ok (Some k) -> v_type s = 48.
Proof.
  unfold validate_signature. destruct (v_hash s); cbn [bind]; [|discriminate]. destruct (v_version s <? 4); [discriminate|]. cbv zeta. rewrite !check_fails. cbn [bind]. intros H.
  destruct (v_type s) as [|q|q]; try discriminate H.
  repeat (match type of H with match ?x with xI _ => _ | _ => _ end = _ => destruct x end; try discriminate H); try reflexivity; exfalso;
    (destruct (has pk (v_issuers s)); cbn [negb] in H; try discriminate H; destruct (revocation_keys_fail v rks pk s sg) as [E|E]; rewrite E in H; discriminate H).
Qed.
Lemma loop_indep v v' se pk rks ids : forall s vars, issuers_loop v se pk rks ids s vars = issuers_loop v' se pk rks ids s vars.
Proof.
  induction ids as [|i t IH]; intros s vars; cbn [issuers_loop]; [reflexivity|]. destruct (if zlist_eqb pk i then _ else _) as [[|k r]|e]; [apply IH| |reflexivity]. rewrite (one_indep v v').
  destruct (validate_signature v' pk rks s k) as [[k'|]|e]; [reflexivity|reflexivity|]. destruct (is_invalid e); [reflexivity|]. destruct (is_cannot e); [|reflexivity]. destruct vars; [apply IH|reflexivity].
Qed.
Lemma sigs_indep v v' se pk rks l : forall vars, signatures_loop v se pk rks l vars = signatures_loop v' se pk rks l vars.
Proof.
  induction l as [|s t IH]; intros vars; cbn [signatures_loop]; [reflexivity|]. destruct (v_validated s); [rewrite IH; reflexivity|]. rewrite (loop_indep v v'). destruct (issuers_loop v' se pk rks (v_issuers s) s vars) as [[s' vars'] [e|]]; [reflexivity|]. rewrite IH. reflexivity.
Qed.

(** No public key operation has any influence: whatever the signatures are worth, the result is the same. *)
Theorem c86_nothing_verified_refuted v v' search pk rks targets : validate_signatures v search pk rks targets = validate_signatures v' search pk rks targets.
Proof.
  induction targets as [|l t IH]; cbn [validate_signatures]; [reflexivity|]. rewrite (sigs_indep v v'). destruct (signatures_loop v' search pk rks l None) as [l' [e|]]; [reflexivity|]. rewrite IH. reflexivity.
Qed.
Print Assumptions c86_nothing_verified_refuted.

(** what the loop may do to a signature *)
Definition kept (s s' : vsig) : Prop :=
  v_version s' = v_version s /\ v_type s' = v_type s /\ v_issuers s' = v_issuers s /\ (v_validated s <> None -> s' = s) /\ (v_validated s = None -> v_validated s' = Some true -> v_type s = 48).
Lemma kept_refl s : kept s s.
Proof. repeat split; auto. congruence. Qed.
Lemma loop_kept v se pk rks ids : forall s vars s' vars' e, v_validated s = None -> issuers_loop v se pk rks ids s vars = (s', vars', e) -> kept s s'.
Proof.
  induction ids as [|i t IH]; intros s vars s' vars' e N H; cbn [issuers_loop] in H; [injection H as <- <- <-; apply kept_refl|].
  destruct (if zlist_eqb pk i then _ else _) as [[|k r]|x]; [eapply IH; eauto| |injection H as <- <- <-; apply kept_refl].
  destruct (validate_signature v pk rks s k) as [[k'|]|x] eqn:E.
  - injection H as <- <- <-. split; [reflexivity|]. split; [reflexivity|]. split; [reflexivity|]. split; [congruence|]. intros _ _. eapply accepted_type; eauto.
  - injection H as <- <- <-. apply kept_refl.
  - destruct (is_invalid x); [injection H as <- <- <-; split; [reflexivity|]; split; [reflexivity|]; split; [reflexivity|]; split; [congruence|discriminate]|].
    destruct (is_cannot x); [|injection H as <- <- <-; apply kept_refl]. destruct vars as [k'|]; [|injection H as <- <- <-; split; [reflexivity|]; split; [reflexivity|]; split; [reflexivity|]; split; [congruence|discriminate]].
    apply IH in H; [|reflexivity]. destruct H as (A & B & C & _ & D). cbn in A, B, C, D. split; [exact A|]. split; [exact B|]. split; [exact C|]. split; [congruence|auto].
Qed.
Lemma sigs_kept v se pk rks l : forall vars l' e, signatures_loop v se pk rks l vars = (l', e) -> Forall2 kept l l'.
Proof.
  induction l as [|s t IH]; intros vars l' e H; cbn [signatures_loop] in H; [injection H as <- <-; constructor|]. destruct (v_validated s) eqn:N.
  - destruct (signatures_loop v se pk rks t vars) as [r x] eqn:R. injection H as <- <-. constructor; [apply kept_refl|eapply IH; eauto].
  - destruct (issuers_loop v se pk rks (v_issuers s) s vars) as [[s' vars'] x] eqn:L. apply loop_kept in L; [|exact N]. destruct x.
    + injection H as <- <-. constructor; [exact L|]. clear. induction t; constructor; [apply kept_refl|assumption].
    + destruct (signatures_loop v se pk rks t vars') as [r x] eqn:R. injection H as <- <-. constructor; [exact L|eapply IH; eauto].
Qed.

(** Only revocations of certifications (0x30) can ever get the mark, and a mark that is set is not changed; this also if it ends with an exception. *)
Theorem c86_marks v search pk rks targets targets' e : validate_signatures v search pk rks targets = (targets', e) ->
  Forall2 (Forall2 (fun s s' => (v_validated s <> None -> s' = s) /\ (v_validated s = None -> v_validated s' = Some true -> v_type s = 0x30))) targets targets'.
Proof.
  assert (W : forall l l', Forall2 kept l l' -> Forall2 (fun s s' => (v_validated s <> None -> s' = s) /\ (v_validated s = None -> v_validated s' = Some true -> v_type s = 0x30)) l l').
  { intros l l' F. induction F as [|s s' l l' K F IH]; constructor; [|exact IH]. destruct K as (_ & _ & _ & A & B). split; [exact A|exact B]. }
  revert targets' e. induction targets as [|l t IH]; intros targets' e H; cbn [validate_signatures] in H; [injection H as <- <-; constructor|].
  destruct (signatures_loop v search pk rks l None) as [l' [x|]] eqn:L; apply sigs_kept in L.
  - injection H as <- <-. constructor; [now apply W|]. clear -W. induction t as [|a t IH]; constructor; [|exact IH]. apply W. induction a; constructor; [apply kept_refl|assumption].
  - destruct (validate_signatures v search pk rks t) as [r x] eqn:R. injection H as <- <-. constructor; [now apply W|eapply IH; eauto].
Qed.
Print Assumptions c86_marks.

(** A revocation of a certification that names the key as its issuer gets the mark without any check of what it is worth, if it does not say what it revokes. *)
Theorem c86_forged_revocation_refuted v search pk rks s more rk : v_validated s = None -> v_type s = 0x30 -> 4 <= v_version s -> v_issuers s = pk :: more -> v_hash s = Ok tt -> v_revkeys s = Ok rk -> v_target s = Ok None ->
  validate_signatures v search pk rks [[s]] = ([[mark s (Some true)]], None).
Proof.
  intros N T V I H R G. cbn [validate_signatures signatures_loop]. rewrite N, I. cbn [issuers_loop]. rewrite zlist_eqb_refl. unfold validate_signature. rewrite H. cbn [bind]. replace (v_version s <? 4) with false by lia. rewrite T, R, G. reflexivity.
Qed.
Print Assumptions c86_forged_revocation_refuted.

(** A revocation of a certification that says what it revokes: it gets the mark exactly if the key that signed it issued the certification or is one of the
    revocation keys, the certification is not irrevocable, and the revocation is not older than it. Otherwise it is marked as invalid. *)
Theorem c86_certification_revocation v search pk rks s i more k ks rk t m : v_validated s = None -> v_type s = 0x30 -> 4 <= v_version s -> v_issuers s = i :: more ->
  (i = pk /\ k = pk \/ i <> pk /\ search i = Ok (k :: ks)) -> v_hash s = Ok tt -> v_revkeys s = Ok rk -> v_target s = Ok (Some t) ->
  (m = true <-> (In k (t_issuers t) \/ In k rk) /\ t_revocable t <> Some false /\ t_created t <= v_created s) ->
  validate_signatures v search pk rks [[s]] = ([[mark s (Some m)]], None).
Proof.
  intros N T V I K H R G M. cbn [validate_signatures signatures_loop]. rewrite N, I. cbn [issuers_loop].
  assert (E0 : (if zlist_eqb pk i then Ok [pk] else search i) = Ok (k :: (if zlist_eqb pk i then [] else ks))).
  { destruct K as [[-> ->]|[NE S]]; [rewrite zlist_eqb_refl; reflexivity|]. destruct (zlist_eqb pk i) eqn:Z; [apply zlist_eqb_spec in Z; congruence|exact S]. }
  rewrite E0.
  assert (HH : forall x l, has x l = true <-> In x l). { intros x l. unfold has. rewrite existsb_exists. split; [intros (y & A & B); apply zlist_eqb_spec in B; now subst|intros A; exists x; split; [exact A|apply zlist_eqb_refl]]. }
  pose proof (HH k (t_issuers t)) as H1. pose proof (HH k rk) as H2.
  unfold validate_signature. rewrite H. cbn [bind]. replace (v_version s <? 4) with false by lia. rewrite T, R, G. cbn [bind].
  destruct (has k (t_issuers t)), (has k rk); cbn [negb andb]; destruct (t_revocable t) as [[|]|]; destruct (v_created s <? t_created t) eqn:C; cbn;
    destruct m; try reflexivity; exfalso; destruct M as [M1 M2];
    repeat match goal with X : _ <-> _ |- _ => destruct X end;
    try (specialize (M1 eq_refl); destruct M1 as ([A|A] & B & D); try (apply Z.ltb_lt in C; lia); intuition congruence);
    apply Z.ltb_ge in C; assert (X : false = true) by (apply M2; split; [intuition|split; [congruence|lia]]); discriminate X.
Qed.
Print Assumptions c86_certification_revocation.

(** A certification, a signature directly on the key, a binding signature by the key or a revocation of the key or of a subkey, whose digest can be computed:
    TypeError, whoever's key it is and whatever it is worth; nothing is marked. *)
Theorem c86_certification_fails_refuted v search pk rks s more others rest : v_validated s = None -> In (v_type s) [0x10; 0x11; 0x12; 0x13; 0x18; 0x1f; 0x20; 0x28] -> v_issuers s = pk :: more -> v_hash s = Ok tt ->
  validate_signatures v search pk rks ((s :: others) :: rest) = ((s :: others) :: rest, Some TypeError).
Proof.
  intros N T I H. cbn [validate_signatures signatures_loop]. rewrite N, I. cbn [issuers_loop]. rewrite zlist_eqb_refl.
  assert (E : validate_signature v pk rks s pk = Err TypeError).
  { unfold validate_signature. rewrite H. cbn [bind]. destruct (v_version s <? 4); [reflexivity|]. cbv zeta. assert (Hh : has pk (v_issuers s) = true) by (rewrite I; unfold has; cbn [existsb]; rewrite zlist_eqb_refl; reflexivity). rewrite Hh. cbn [negb].
    cbn in T. repeat destruct T as [<-|T]; try contradiction; reflexivity. }
  rewrite E. reflexivity.
Qed.
Print Assumptions c86_certification_fails_refuted.

(** Signatures by keys that are not known stay as they are; that is not an error. *)
Theorem c86_unknown_issuers v search pk rks targets : Forall (Forall (fun s => ~ In pk (v_issuers s) /\ forall i, In i (v_issuers s) -> search i = Ok [])) targets ->
  validate_signatures v search pk rks targets = (targets, None).
Proof.
  assert (L : forall ids s vars, ~ In pk ids -> (forall i, In i ids -> search i = Ok []) -> issuers_loop v search pk rks ids s vars = (s, vars, None)).
  { induction ids as [|i t IH]; intros s vars N F; cbn [issuers_loop]; [reflexivity|]. destruct (zlist_eqb pk i) eqn:Z; [apply zlist_eqb_spec in Z; subst i; exfalso; apply N; now left|]. rewrite (F i (or_introl eq_refl)). apply IH; [intros X; apply N; now right|intros j J; apply F; now right]. }
  assert (L2 : forall l vars, Forall (fun s => ~ In pk (v_issuers s) /\ forall i, In i (v_issuers s) -> search i = Ok []) l -> signatures_loop v search pk rks l vars = (l, None)).
  { induction l as [|s t IH]; intros vars F; cbn [signatures_loop]; [reflexivity|]. pose proof (Forall_inv F) as [A B]. apply Forall_inv_tail in F. destruct (v_validated s); [rewrite IH by exact F; reflexivity|]. rewrite L by assumption. rewrite IH by exact F. reflexivity. }
  induction targets as [|l t IH]; intros F; cbn [validate_signatures]; [reflexivity|]. rewrite (L2 l None (Forall_inv F)), (IH (Forall_inv_tail F)). reflexivity.
Qed.
Print Assumptions c86_unknown_issuers.

(** A binding signature that the primary key did not issue is marked as invalid (if the key that issued it is known). *)
Theorem c86_foreign_binding v search pk rks s i k r more : v_validated s = None -> v_type s = 0x18 -> 4 <= v_version s -> v_issuers s = i :: more -> ~ In pk (v_issuers s) -> search i = Ok (k :: r) -> v_hash s = Ok tt ->
  validate_signatures v search pk rks [[s]] = ([[mark s (Some false)]], None).
Proof.
  intros N T V I NI S H. cbn [validate_signatures signatures_loop]. rewrite N.
  assert (Hh : has pk (v_issuers s) = false). { destruct (has pk (v_issuers s)) eqn:X; [|reflexivity]. unfold has in X. apply existsb_exists in X as (j & J & X). apply zlist_eqb_spec in X. subst j. contradiction. }
  assert (E : validate_signature v pk rks s k = Err InvalidSubkeyBindingSignature). { unfold validate_signature. rewrite H. cbn [bind]. replace (v_version s <? 4) with false by lia. cbv zeta. rewrite T, Hh. reflexivity. }
  rewrite I in *. cbn [issuers_loop]. destruct (zlist_eqb pk i) eqn:Z; [apply zlist_eqb_spec in Z; subst i; exfalso; apply NI; now left|]. rewrite S, E. reflexivity.
Qed.
Print Assumptions c86_foreign_binding.

(** A signature of a type that does not belong on a key: an exception, unless an earlier signature was validated, whose key's state is then recorded for it. *)
Theorem c86_unexpected_type_refuted v search pk rks s more : v_validated s = None -> In (v_type s) [0x00; 0x01; 0x02; 0x19; 0x40; 0x50] -> 4 <= v_version s -> v_issuers s = pk :: more -> v_hash s = Ok tt ->
  snd (validate_signatures v search pk rks [[s]]) = Some UnboundLocalError.
Proof.
  intros N T V I H. cbn [validate_signatures signatures_loop]. rewrite N, I. cbn [issuers_loop]. rewrite zlist_eqb_refl.
  assert (E : validate_signature v pk rks s pk = Err UnexpectedSignatureType). { unfold validate_signature. rewrite H. cbn [bind]. replace (v_version s <? 4) with false by lia. cbv zeta. cbn in T. repeat destruct T as [<-|T]; try contradiction; reflexivity. }
  rewrite E. reflexivity.
Qed.
Print Assumptions c86_unexpected_type_refuted.

(** After a signature that was validated, the state recorded for the key that made that one is recorded for one of an unexpected type, which stays unmarked. *)
Theorem c86_unexpected_after_refuted v search pk rks s0 more0 rk s more : v_validated s0 = None -> v_type s0 = 0x30 -> 4 <= v_version s0 -> v_issuers s0 = pk :: more0 -> v_hash s0 = Ok tt -> v_revkeys s0 = Ok rk -> v_target s0 = Ok None ->
  v_validated s = None -> In (v_type s) [0x00; 0x01; 0x02; 0x19; 0x40; 0x50] -> 4 <= v_version s -> v_issuers s = pk :: more -> (forall i, In i more -> i <> pk /\ search i = Ok []) -> v_hash s = Ok tt ->
  exists s', validate_signatures v search pk rks [[s0; s]] = ([[mark s0 (Some true); s']], None) /\ v_validated s' = None /\ v_expired s' = Some false /\ v_revoked s' = Some false.
Proof.
  intros N0 T0 V0 I0 H0 R0 G0 N T V I U H. cbn [validate_signatures signatures_loop]. rewrite N0, I0. cbn [issuers_loop]. rewrite zlist_eqb_refl.
  assert (E0 : validate_signature v pk rks s0 pk = Ok (Some (false, false))). { unfold validate_signature. rewrite H0. cbn [bind]. replace (v_version s0 <? 4) with false by lia. rewrite T0, R0, G0. reflexivity. }
  rewrite E0, N, I. cbn [issuers_loop]. rewrite zlist_eqb_refl.
  assert (E : validate_signature v pk rks s pk = Err UnexpectedSignatureType). { unfold validate_signature. rewrite H. cbn [bind]. replace (v_version s <? 4) with false by lia. cbv zeta. cbn in T. repeat destruct T as [<-|T]; try contradiction; reflexivity. }
  rewrite E.
  assert (L : forall ids s vars, (forall i, In i ids -> i <> pk /\ search i = Ok []) -> issuers_loop v search pk rks ids s vars = (s, vars, None)).
  { clear. induction ids as [|i t IH]; intros s vars F; cbn [issuers_loop]; [reflexivity|]. destruct (F i (or_introl eq_refl)) as [A B]. destruct (zlist_eqb pk i) eqn:Z; [apply zlist_eqb_spec in Z; congruence|]. rewrite B. apply IH. intros j J. apply F. now right. }
  change (is_invalid UnexpectedSignatureType) with false. change (is_cannot UnexpectedSignatureType) with true. cbn iota. rewrite (L more _ _ U). eexists. split; [reflexivity|]. repeat split.
Qed.
Print Assumptions c86_unexpected_after_refuted.

Definition c86_sig (t : Z) (ids : list text) := VSig 4 t ids 100 (Ok tt) (Ok []) (Ok None) false None None None.
Definition c86_db (t : text) : res (list text) := Ok (if zlist_eqb t [66] then [[66]] else []).
Example c86_ex : let bad := fun (_ : text) (_ : vsig) => Err SignatureVerificationFailed in
  validate_signatures bad c86_db [65] [] [[]; [c86_sig 48 [[65]]; c86_sig 25 [[66]; [65]]]] = ([[]; [mark (c86_sig 48 [[65]]) (Some true); set_issuer (c86_sig 25 [[66]; [65]]) (false, false)]], None) /\
  validate_signatures bad c86_db [65] [] [[c86_sig 31 [[65]]]] = ([[c86_sig 31 [[65]]]], Some TypeError) /\
  validate_signatures bad c86_db [65] [] [[c86_sig 19 [[67]]]] = ([[c86_sig 19 [[67]]]], None) /\
  validate_signatures bad c86_db [65] [] [[c86_sig 24 [[66]]]] = ([[mark (c86_sig 24 [[66]]) (Some false)]], None) /\
  snd (validate_signatures bad c86_db [65] [] [[c86_sig 25 [[65]]]]) = Some UnboundLocalError.
Proof. repeat split; vm_compute; reflexivity. Qed.
Definition c86_rev (created : Z) (t : tinfo) := VSig 4 48 [[66]] created (Ok tt) (Ok [[67]]) (Ok (Some t)) false None None None.
Example c86_ex2 : let bad := fun (_ : text) (_ : vsig) => Err SignatureVerificationFailed in let marked s := v_validated (hd s (hd [] (fst (validate_signatures bad c86_db [65] [] [[s]])))) in
  marked (c86_rev 100 (TInfo [[66]] None 100)) = Some true /\ marked (c86_rev 99 (TInfo [[66]] None 100)) = Some false /\ marked (c86_rev 100 (TInfo [[66]] (Some false) 100)) = Some false /\
  marked (c86_rev 100 (TInfo [[65]] (Some true) 100)) = Some false.
Proof. repeat split; vm_compute; reflexivity. Qed.
