(** C49: the checks on the times of a signature. *)
From Verif Require Import Base BaseProofs Spec Text SigPackets SigAttrs SpecAttrs AttrsProofs IssuerProofs SelfSig SpecSelf SelfProofs P_SelfSig.

(** Rejected: made before its key, key in the future, signature in the future. *)
Theorem c49_rejected local key sg sc now strict : sig_created local sg = Ok sc ->
  (sc < sk_created key -> check_signature_values local key sg now strict = Err SignatureCreatedBeforeContent) /\
  (sk_created key <= sc -> now < sk_created key -> check_signature_values local key sg now strict = Err SigningKeyCreatedInTheFuture) /\
  (sk_created key <= sc -> sk_created key <= now < sc -> check_signature_values local key sg now strict = Err SignatureCreatedInTheFuture) /\
  (forall r, check_signature_values local key sg now strict = Ok r -> sk_created key <= sc <= now).
Proof.
  intros E. unfold check_signature_values. rewrite E. cbn [bind]. repeat split.
  - intros L. replace (sc <? sk_created key) with true by lia. reflexivity.
  - intros L1 L2. replace (sc <? sk_created key) with false by lia. replace (now <? sk_created key) with true by lia. reflexivity.
  - intros L1 L2. replace (sc <? sk_created key) with false by lia. replace (now <? sk_created key) with false by lia. replace (now <? sc) with true by lia. reflexivity.
  - destruct (sc <? sk_created key) eqn:?; [discriminate H|]. lia.
  - destruct (sc <? sk_created key) eqn:?; [discriminate H|]. destruct (now <? sk_created key) eqn:?; [discriminate H|]. destruct (now <? sc) eqn:?; [discriminate H|]. lia.
Qed.
Print Assumptions c49_rejected.

(** The expiration of the key: reported, or with [strict] rejected, exactly when it is before now. Accepted otherwise, for a key that carries no
    revocations; missing: signature expiration (refuted below) and a version 4 key's expiration, which is not read rightly (see C40). *)
Theorem c49_accepted_partial local key sg sc now e : sig_created local sg = Ok sc -> sk_created key <= sc <= now ->
  key_expiration local (sk_signed key) (sk_stored key) = Ok e -> (exists t, e = KTime t) \/ e = KVal VNone ->
  (exists rv, revocable_value sg = Ok rv) -> (forall k, In k (sd_sigs (sk_signed key)) -> ~ In (k_type k) [32; 40]) ->
  exists expired, (expired = true <-> exists t, e = KTime t /\ t < now) /\ check_signature_values local key sg now false = Ok (expired, false) /\
  check_signature_values local key sg now true = if expired then Err SigningKeyHasExpired else Ok (false, false).
Proof.
  intros E L Ee Te (rv & Er) Nr.
  assert (R : forall strict revs sigs, (forall k, In k sigs -> ~ In (k_type k) [32; 40]) -> revocation_loop local key revs strict sigs false = Ok false).
  { intros strict revs sigs. induction sigs as [|k sigs IH]; [reflexivity|]. intros N. cbn [revocation_loop]. destruct (is_in (k_type k) [40; 32]) eqn:I.
    - exfalso. apply is_in_spec in I. apply (N k (or_introl eq_refl)). cbn [In] in *. tauto.
    - apply IH. intros k' Hk. apply N. now right. }
  unfold check_signature_values. rewrite E. cbn [bind]. replace (sc <? sk_created key) with false by lia. replace (now <? sk_created key) with false by lia. replace (now <? sc) with false by lia. rewrite Ee. cbn [bind].
  destruct Te as [(t & ->)| ->].
  - destruct (t <? now) eqn:Q; cbn [bind]; rewrite ?Er; cbn [bind]; rewrite ?(R _ _ _ Nr).
    + exists true. split; [split; [exists t; split; [reflexivity|lia]|reflexivity]|]. destruct (negb (is_false rv)); split; reflexivity.
    + exists false. split; [split; [discriminate|]; intros (t' & Et & Lt); injection Et as <-; lia|]. destruct (negb (is_false rv)); split; reflexivity.
  - exists false. split; [split; [discriminate|]; intros (t' & Et & Lt); discriminate Et|]. cbn [bind]. rewrite Er. cbn [bind]. rewrite ?(R _ _ _ Nr). destruct (negb (is_false rv)); split; reflexivity.
Qed.
Print Assumptions c49_accepted_partial.
Definition key3 (stored : option Z) (sigs : list ksig) : skey := SKey 50000000 stored kid1 kid1 (Signed 3 [31] [32] [kid1] sigs).
Example c49_example : check_signature_values secs (key3 (Some 400000000) []) (ex_sig 0 100 kid1 []) 300000000 true = Ok (false, false) /\
  check_signature_values secs (key3 (Some 200000000) []) (ex_sig 0 100 kid1 []) 300000000 false = Ok (true, false) /\
  check_signature_values secs (key3 (Some 200000000) []) (ex_sig 0 100 kid1 []) 300000000 true = Err SigningKeyHasExpired /\
  check_signature_values secs (key3 None []) (ex_sig 0 400 kid1 []) 300000000 false = Err SignatureCreatedInTheFuture /\
  check_signature_values secs (key3 None []) (ex_sig 0 40 kid1 []) 300000000 false = Err SignatureCreatedBeforeContent.
Proof. repeat split; vm_compute; reflexivity. Qed.

(** A revocation by the key itself is reported, and rejected with [strict], if the signature says nothing about exporting. *)
Theorem c49_revocation local key sg sc now e ty s vals vd : sig_created local sg = Ok sc -> sk_created key <= sc <= now ->
  key_expiration local (sk_signed key) (sk_stored key) = Ok e -> (exists t, e = KTime t /\ now <= t) \/ e = KVal VNone -> revocable_value sg = Ok VNone ->
  sd_sigs (sk_signed key) = [KSig ty (V4 s) vals vd] -> In ty [32; 40] -> (exists ids, get_issuer_key_ids s = Ok ids /\ In (sk_primary_id key) ids) -> (exists c, get_creation_time local s = Ok c /\ sk_created key <= c) ->
  check_signature_values local key sg now false = Ok (false, true) /\ check_signature_values local key sg now true = Err SigningKeyHasBeenRevoked.
Proof.
  intros E L Ee Te Er Es It (ids & Gi & Ii) (c & Gc & Lc). unfold check_signature_values. rewrite E. cbn [bind]. replace (sc <? sk_created key) with false by lia. replace (now <? sk_created key) with false by lia. replace (now <? sc) with false by lia. rewrite Ee. cbn [bind].
  destruct Te as [(t & -> & Lt)| ->]; [replace (t <? now) with false by lia|]; cbn [bind];
  (rewrite Er; cbn [bind is_false negb]; rewrite Es; cbn [revocation_loop k_type];
  replace (is_in ty [40; 32]) with true by (symmetry; apply is_in_spec; cbn [In] in *; tauto); unfold sig_created; cbn [k_body]; rewrite Gc; cbn [bind]; replace (c <? sk_created key) with false by lia; cbn [andb];
  unfold sig_issuers; cbn [k_body]; rewrite Gi; cbn [bind]; replace (existsb (zlist_eqb (sk_primary_id key)) ids) with true by (symmetry; now apply existsb_in); split; reflexivity).
Qed.
Print Assumptions c49_revocation.
Example c49_revocation_example : check_signature_values secs (key3 None [ex_sig 32 60 kid1 []]) (ex_sig 0 100 kid1 []) 300000000 false = Ok (false, true) /\
  check_signature_values secs (key3 None [ex_sig 32 60 kid1 []]) (ex_sig 0 100 kid1 []) 300000000 true = Err SigningKeyHasBeenRevoked.
Proof. split; vm_compute; reflexivity. Qed.

(** Refuted: the expiration of the signature itself is not looked at: whatever it is set to, the outcome is the same, at any instant. *)
Theorem c49_expired_refuted local key ty s vals vd dt s' now strict : set_expiration_time local s (Some dt) = Ok s' ->
  check_signature_values local key (KSig ty (V4 s') vals vd) now strict = check_signature_values local key (KSig ty (V4 s) vals vd) now strict.
Proof.
  intros H. unfold set_expiration_time in H. destruct (get_creation_time local s) as [c|] eqn:Gc; [|discriminate H]. cbn [bind] in H. destruct (dt <? c); [discriminate H|].
  assert (O : forall t, t <> 3 -> get_subs s' t = get_subs s t) by (intros t N; exact (update_other_type _ _ _ _ _ t H N)).
  unfold check_signature_values, sig_created, revocable_value. cbn [k_body]. unfold get_creation_time, get_prop, get_value. cbn [getter fst snd]. rewrite !O by lia. reflexivity.
Qed.
Print Assumptions c49_expired_refuted.
Example c49_expired_example : check_signature_values secs (key3 None []) (ex_sig 0 100 kid1 [Sub 3 false (SbTime 1)]) 300000000 true = Ok (false, false).
Proof. vm_compute. reflexivity. Qed.
(** Refuted: for a signature that is not exportable no revocation of the key counts, strict or not, whatever signatures the key has. *)
Theorem c49_local_refuted local key ty s vals vd sc now e strict : get_prop s P_exportable = Ok (VBool false) -> get_creation_time local s = Ok sc -> sk_created key <= sc <= now ->
  key_expiration local (sk_signed key) (sk_stored key) = Ok e -> (exists t, e = KTime t /\ now <= t) \/ e = KVal VNone ->
  check_signature_values local key (KSig ty (V4 s) vals vd) now strict = Ok (false, false).
Proof.
  intros G E L Ee Te. unfold check_signature_values, sig_created. cbn [k_body]. rewrite E. cbn [bind]. replace (sc <? sk_created key) with false by lia. replace (now <? sk_created key) with false by lia. replace (now <? sc) with false by lia. rewrite Ee. cbn [bind].
  assert (X : match e with KTime t => if t <? now then if strict then Err SigningKeyHasExpired else Ok true else Ok false | KVal VNone => Ok false | KVal _ => Err TypeError end = Ok false).
  { destruct Te as [(t & -> & Lt)| ->]; [|reflexivity]. replace (t <? now) with false by lia. reflexivity. }
  rewrite X. cbn [bind revocable_value k_body]. change (get_prop s P_revocable) with (get_prop s P_exportable). rewrite G. reflexivity.
Qed.
Print Assumptions c49_local_refuted.
Example c49_local_example : check_signature_values secs (key3 None [ex_sig 32 60 kid1 []]) (ex_sig 0 100 kid1 [Sub 4 false (SbBool false)]) 300000000 true = Ok (false, false).
Proof. vm_compute. reflexivity. Qed.
(** Refuted: a revocation by a designated revoker does not count, unless the revoker is the key itself. *)
Theorem c49_designated_refuted local key sg sc now e : sig_created local sg = Ok sc -> sk_created key <= sc <= now ->
  key_expiration local (sk_signed key) (sk_stored key) = Ok e -> (exists t, e = KTime t /\ now <= t) \/ e = KVal VNone -> (exists rv, revocable_value sg = Ok rv) ->
  (forall k f, In k (sd_sigs (sk_signed key)) -> In f (revokers k) -> f <> last8 (sk_id key)) ->
  (forall k, In k (sd_sigs (sk_signed key)) -> In (k_type k) [32; 40] -> exists ids c, sig_issuers k = Ok ids /\ sig_created local k = Ok c /\ ~ In (sk_primary_id key) ids) ->
  check_signature_values local key sg now false = Ok (false, false).
Proof.
  intros E L Ee Te (rv & Er) Nf Ns. unfold check_signature_values. rewrite E. cbn [bind]. replace (sc <? sk_created key) with false by lia. replace (now <? sk_created key) with false by lia. replace (now <? sc) with false by lia. rewrite Ee. cbn [bind].
  match goal with |- context [bind (match e with _ => _ end) ?f] => replace (match e with KVal VNone => Ok false | KVal _ => Err TypeError | KTime e => if e <? now then Ok true else Ok false end) with (Ok (A := bool) false) by (destruct Te as [(t & -> & Lt)| ->]; [replace (t <? now) with false by lia|]; reflexivity) end.
  cbn [bind]. rewrite Er. cbn [bind].
  set (revs := flat_map _ _).
  assert (Nr : existsb (zlist_eqb (last8 (sk_id key))) revs = false).
  { destruct (existsb (zlist_eqb (last8 (sk_id key))) revs) eqn:Q; [|reflexivity]. exfalso. apply existsb_in in Q. unfold revs in Q. apply in_flat_map in Q as (k & Hk & Q). destruct (is_in (k_type k) [24; 31]); [|destruct Q]. exact (Nf k _ Hk Q eq_refl). }
  assert (R : forall sigs, (forall k, In k sigs -> In k (sd_sigs (sk_signed key))) -> revocation_loop local key revs false sigs false = Ok false).
  { induction sigs as [|k sigs IH]; [reflexivity|]. intros N. cbn [revocation_loop]. assert (IH' : revocation_loop local key revs false sigs false = Ok false) by (apply IH; intros k' Hk'; apply N; now right). destruct (is_in (k_type k) [40; 32]) eqn:I; [|exact IH'].
    apply is_in_spec in I. destruct (Ns k (N k (or_introl eq_refl))) as (ids & c & A & B & C); [cbn [In] in *; tauto|]. rewrite B. cbn [bind]. rewrite andb_false_r. rewrite A. cbn [bind].
    destruct (existsb (zlist_eqb (sk_primary_id key)) ids) eqn:Q; [exfalso; apply C; now apply existsb_in|]. rewrite Nr, andb_false_r. exact IH'. }
  rewrite R by auto. destruct (negb (is_false rv)); reflexivity.
Qed.
Print Assumptions c49_designated_refuted.
Example c49_designated_example : check_signature_values secs (key3 None [ex_sig 31 60 kid1 [Sub 12 false (SbRevKey (hex_text [1; 1; 1; 1; 1; 1; 1; 1; 1; 1; 1; 1; 8; 8; 8; 8; 8; 8; 8; 8]) 17 false)]; ex_sig 32 60 kid2 []]) (ex_sig 0 100 kid1 []) 300000000 true = Ok (false, false).
Proof. vm_compute. reflexivity. Qed.
(** Refuted: a key whose self-signature says 0, never expires, cannot be checked. *)
Theorem c49_never_refuted local key sg sc now strict : sig_created local sg = Ok sc -> sk_created key <= sc <= now ->
  key_expiration local (sk_signed key) (sk_stored key) = Ok (KVal (VInt 0)) -> check_signature_values local key sg now strict = Err TypeError.
Proof.
  intros E L Ee. unfold check_signature_values. rewrite E. cbn [bind]. replace (sc <? sk_created key) with false by lia. replace (now <? sk_created key) with false by lia. replace (now <? sc) with false by lia. rewrite Ee. reflexivity.
Qed.
Print Assumptions c49_never_refuted.
Example c49_never_example : key_expiration secs (Signed 4 [31] [32] [kid1] [ex_sig 31 60 kid1 [Sub 9 false (SbTime 0)]]) None = Ok (KVal (VInt 0)).
Proof. vm_compute. reflexivity. Qed.
