(** C107: checks of signatures and the time zone of the machine. *)
From Verif Require Import Base BaseProofs Text SigPackets SigAttrs SelfSig SpecZone.

Definition shift_key (o : Z) (k : skey) : skey := SKey (later o (sk_created k)) (option_map (later o) (sk_stored k)) (sk_id k) (sk_primary_id k) (sk_signed k).
Section Shift.
Variable o : Z.
Hypothesis Ho : -86400 <= o <= 86400.
Let L := local_in (fun _ => o).
Let U := local_in (fun _ => 0).
Definition map_res {A} (f : A -> A) (r : res A) : res A := match r with Ok a => Ok (f a) | Err e => Err e end.
Lemma gct s : get_creation_time L s = map_res (later o) (get_creation_time U s).
Proof.
  unfold get_creation_time. destruct (get_value s 2 ATime) as [v|e]; [|reflexivity]. cbn [bind]. destruct v as [|n|b| | ]; try reflexivity; unfold L, U, local_in, shown, later, map_res; f_equal; lia.
Qed.
Lemma created_shift k : sig_created L k = map_res (later o) (sig_created U k).
Proof. unfold sig_created. destruct (k_body k); [apply gct|reflexivity]. Qed.
Lemma created_pos l k c : after_1970 l -> In k l -> sig_created U k = Ok c -> 0 <= c.
Proof.
  intros A I. unfold sig_created. destruct (k_body k) as [s|] eqn:B; [|discriminate]. unfold get_creation_time. destruct (get_value s 2 ATime) as [v|e] eqn:E; [|discriminate]. cbn [bind].
  destruct v as [|n|b| | ]; try discriminate; unfold U, local_in, shown; intros H.
  - assert (X : (n + 0) * 1000000 = c) by congruence. pose proof (A k s n I B E). lia.
  - assert (X : ((if b then 1 else 0) + 0) * 1000000 = c) by congruence. destruct b; lia.
Qed.
Lemma recent_from own types l : forall i acc, after_1970 l -> most_recent_from L own types l i acc = most_recent_from U own types l i acc.
Proof.
  induction l as [|k t IH]; intros i acc A; [reflexivity|]. cbn [most_recent_from]. destruct (sig_issuers k) as [ids|]; [|reflexivity]. cbn [bind].
  assert (At : after_1970 t) by (intros k' s' t' I; apply A; now right). destruct (negb (meet ids own)); [now apply IH|]. destruct (negb (is_in (k_type k) types)); [now apply IH|].
  rewrite created_shift. destruct (sig_created U k) as [c|] eqn:E; [|reflexivity]. cbn [bind map_res]. pose proof (created_pos _ k c A (or_introl eq_refl) E) as P.
  unfold later. replace (year_1900 <? c + o * 1000000) with true by (unfold year_1900; lia). replace (year_1900 <? c) with true by (unfold year_1900; lia). now apply IH.
Qed.
Definition later_value (v : kvalue) : kvalue := match v with KTime t => KTime (later o t) | v => v end.
Lemma get_exp_shift sigs i s : get_key_expiration L sigs i s = map_res later_value (get_key_expiration U sigs i s).
Proof.
  unfold get_key_expiration. destruct (get_value s 9 ATime) as [v|]; [|reflexivity]. cbn [bind]. destruct (negb (truthy v)); [reflexivity|]. destruct (target_of sigs i s) as [[j|]|]; [|reflexivity|reflexivity]. cbn [bind].
  destruct (nth_error sigs j) as [k|]; [|reflexivity]. rewrite created_shift. destruct (sig_created U k) as [c|]; [|reflexivity]. cbn [bind map_res]. destruct (as_int v) as [n|]; [|reflexivity]. cbn [bind map_res later_value]. unfold later. do 2 f_equal. lia.
Qed.
Lemma key_exp_shift g st : after_1970 (sd_sigs g) -> key_expiration L g (option_map (later o) st) = map_res later_value (key_expiration U g st).
Proof.
  intros A. unfold key_expiration. destruct ((sd_version g =? 2) || (sd_version g =? 3)); [destruct st; reflexivity|]. destruct (4 <=? sd_version g) eqn:V; [|reflexivity].
  unfold key_get. cbn [mixin_table]. unfold mixin_get. rewrite V. unfold most_recent. rewrite recent_from by exact A. destruct (most_recent_from U _ _ _ _ _) as [[i|]|]; [|reflexivity|reflexivity]. cbn [bind].
  destruct (nth_error (sd_sigs g) i) as [k|]; [|reflexivity]. unfold sig_attr. destruct (k_body k) as [s|]; [|reflexivity]. rewrite get_exp_shift. destruct (get_key_expiration U (sd_sigs g) i s) as [v|e]; [reflexivity|]. destruct e; reflexivity.
Qed.
Lemma loop_shift key revs strict l : forall b, revocation_loop L (shift_key o key) revs strict l b = revocation_loop U key revs strict l b.
Proof.
  induction l as [|k t IH]; intros b; [reflexivity|]. cbn [revocation_loop]. destruct (is_in (k_type k) [40; 32]); [|apply IH]. rewrite created_shift. destruct (sig_created U k) as [c|]; [|reflexivity]. cbn [bind map_res shift_key sk_created sk_primary_id sk_id].
  replace (later o c <? later o (sk_created key)) with (c <? sk_created key) by (unfold later; lia). destruct ((c <? sk_created key) && strict); [reflexivity|]. destruct (sig_issuers k) as [ids|]; [|reflexivity]. cbn [bind].
  destruct (existsb (zlist_eqb (sk_primary_id key)) ids); [destruct strict; [reflexivity|apply IH]|]. destruct (negb (zlen revs =? 0) && _); [destruct strict; [reflexivity|apply IH]|apply IH].
Qed.
Lemma check_shift key sg now strict : after_1970 (sd_sigs (sk_signed key)) ->
  check_signature_values L (shift_key o key) sg (later o now) strict = check_signature_values U key sg now strict.
Proof.
  intros A. unfold check_signature_values. rewrite created_shift. destruct (sig_created U sg) as [sc|]; [|reflexivity]. cbn [bind map_res shift_key sk_created sk_signed sk_stored].
  replace (later o sc <? later o (sk_created key)) with (sc <? sk_created key) by (unfold later; lia). replace (later o now <? later o (sk_created key)) with (now <? sk_created key) by (unfold later; lia). replace (later o now <? later o sc) with (now <? sc) by (unfold later; lia).
  destruct (sc <? sk_created key); [reflexivity|]. destruct (now <? sk_created key); [reflexivity|]. destruct (now <? sc); [reflexivity|]. rewrite key_exp_shift by exact A.
  destruct (key_expiration U (sk_signed key) (sk_stored key)) as [e|]; [|reflexivity]. cbn [bind map_res].
  assert (X : (match later_value e with KTime e0 => if e0 <? later o now then if strict then Err SigningKeyHasExpired else Ok true else Ok false | KVal VNone => Ok false | KVal _ => Err TypeError end)
            = match e with KTime e0 => if e0 <? now then if strict then Err SigningKeyHasExpired else Ok true else Ok false | KVal VNone => Ok false | KVal _ => Err TypeError end).
  { destruct e as [v|t]; [reflexivity|]. cbn [later_value]. replace (later o t <? later o now) with (t <? now) by (unfold later; lia). reflexivity. }
  rewrite X. clear X. destruct (match e with KTime _ => _ | KVal _ => _ end) as [b|]; [|reflexivity]. cbn [bind]. destruct (revocable_value sg) as [rv|]; [|reflexivity]. cbn [bind]. destruct (negb (is_false rv)); [|reflexivity].
  change (SKey (later o (sk_created key)) (option_map (later o) (sk_stored key)) (sk_id key) (sk_primary_id key) (sk_signed key)) with (shift_key o key). rewrite loop_shift. reflexivity.
Qed.
End Shift.

(** Where the clock is always the same number of seconds (within a day) from UTC, the verdict on a signature is that of a machine on UTC: the key was made at tk,
    and the check is made at u (in microseconds) *)
Theorem c107_fixed_zone_partial o tk stored id pid g sg u strict : -86400 <= o <= 86400 -> after_1970 (sd_sigs g) ->
  check_signature_values (local_in (fun _ => o)) (SKey (shown (fun _ => o) tk * 1000000) (option_map (later o) stored) id pid g) sg (now_in (fun _ => o) u) strict =
  check_signature_values (local_in (fun _ => 0)) (SKey (tk * 1000000) stored id pid g) sg u strict.
Proof.
  intros Ho A. pose proof (check_shift o Ho (SKey (tk * 1000000) stored id pid g) sg u strict A) as E. unfold shift_key in E. cbn [sk_created sk_stored sk_id sk_primary_id sk_signed] in E.
  replace (shown (fun _ => o) tk * 1000000) with (later o (tk * 1000000)) by (unfold later, shown; lia). exact E.
Qed.
Print Assumptions c107_fixed_zone_partial.

(** Whether a signature has expired: exactly when its lifetime has passed, if the clock is as far ahead of UTC now as when the signature was made. *)
Lemma expired_at z u k s c n : k_body k = V4 s -> get_value s 2 ATime = Ok (VInt c) -> get_value s 3 ATime = Ok (VInt n) -> n <> 0 ->
  sig_expired (local_in z) (now_in z u) k = Ok ((c + n + z c - z (u / 1000000)) * 1000000 <? u).
Proof.
  intros B C N Z0. unfold sig_expired. rewrite B. unfold get_expiration_time. rewrite N. cbn [bind truthy]. replace (n =? 0) with false by lia. cbn [negb as_int bind]. unfold get_creation_time. rewrite C. cbn [bind]. unfold local_in, shown. cbn [bind]. f_equal. unfold now_in. lia.
Qed.
Theorem c107_expired_partial z u k s c n : k_body k = V4 s -> get_value s 2 ATime = Ok (VInt c) -> get_value s 3 ATime = Ok (VInt n) -> n <> 0 -> z (u / 1000000) = z c ->
  exists b, sig_expired (local_in z) (now_in z u) k = Ok b /\ (b = true <-> (c + n) * 1000000 < u).
Proof. intros B C N Z0 E. eexists. split; [exact (expired_at z u k s c n B C N Z0)|]. rewrite E. lia. Qed.
Print Assumptions c107_expired_partial.
(** When the clock was set in between, the answer is wrong for as long as the clock was set by: a signature whose time has passed is still good after the clock was set back,
    and one is bad before its time after the clock was set forward. *)
Theorem c107_expired_refuted z u k s c n : k_body k = V4 s -> get_value s 2 ATime = Ok (VInt c) -> get_value s 3 ATime = Ok (VInt n) -> n <> 0 ->
  ((c + n) * 1000000 < u <= (c + n + z c - z (u / 1000000)) * 1000000 -> sig_expired (local_in z) (now_in z u) k = Ok false) /\
  ((c + n + z c - z (u / 1000000)) * 1000000 < u <= (c + n) * 1000000 -> sig_expired (local_in z) (now_in z u) k = Ok true).
Proof. intros B C N Z0. rewrite (expired_at z u k s c n B C N Z0). split; intros H; f_equal; lia. Qed.
Print Assumptions c107_expired_refuted.

(** A signature made after its key, when the clock had been set back, is called older than the key, at any time and for good; one made before it was set back is for a while
    called a signature from the future. *)
Theorem c107_order_refuted z tk stored id pid g sg s c now strict : k_body sg = V4 s -> get_value s 2 ATime = Ok (VInt c) -> tk < c -> shown z c < shown z tk ->
  check_signature_values (local_in z) (SKey (shown z tk * 1000000) stored id pid g) sg now strict = Err SignatureCreatedBeforeContent.
Proof.
  intros B C T S. unfold check_signature_values, sig_created. rewrite B. unfold get_creation_time. rewrite C. cbn [bind]. unfold local_in at 1. cbn [bind sk_created]. replace (shown z c * 1000000 <? shown z tk * 1000000) with true by lia. reflexivity.
Qed.
Print Assumptions c107_order_refuted.
Theorem c107_future_refuted z tk stored id pid g sg s c u strict : k_body sg = V4 s -> get_value s 2 ATime = Ok (VInt c) -> shown z tk <= shown z c -> c * 1000000 <= u -> now_in z u < shown z c * 1000000 -> shown z tk * 1000000 <= now_in z u ->
  check_signature_values (local_in z) (SKey (shown z tk * 1000000) stored id pid g) sg (now_in z u) strict = Err SignatureCreatedInTheFuture.
Proof.
  intros B C T Le S K. unfold check_signature_values, sig_created. rewrite B. unfold get_creation_time. rewrite C. cbn [bind]. unfold local_in at 1. cbn [bind sk_created]. replace (shown z c * 1000000 <? shown z tk * 1000000) with false by lia.
  replace (now_in z u <? shown z tk * 1000000) with false by lia. replace (now_in z u <? shown z c * 1000000) with true by lia. reflexivity.
Qed.
Print Assumptions c107_future_refuted.

(** Central Europe, the night of 27 October 2013: the clock was set back by an hour at 01:00 UTC *)
Definition berlin : zone := turned 1382835600 7200 3600.
Definition zs_sig (t n : Z) : ksig := KSig 0 (V4 (sig_obj_of [Sub 2 false (SbTime t); Sub 3 false (SbTime n)] [])) [] None.
Example c107_values_ex : forall t n, exists s, k_body (zs_sig t n) = V4 s /\ get_value s 2 ATime = Ok (VInt t) /\ get_value s 3 ATime = Ok (VInt n).
Proof. intros t n. eexists. split; [reflexivity|]. split; reflexivity. Qed.
(** made at 00:40 UTC to last a day: half an hour after that the signature is still good *)
Example c107_expired_ex : sig_expired (local_in berlin) (now_in berlin ((1382834400 + 86400 + 1800) * 1000000)) (zs_sig 1382834400 86400) = Ok false.
Proof. vm_compute. reflexivity. Qed.
(** a key made at 00:50 UTC, and a signature with it at 01:10 UTC, checked a month later *)
Example c107_order_ex : shown berlin 1382836200 < shown berlin 1382835000 /\
  check_signature_values (local_in berlin) (SKey (shown berlin 1382835000 * 1000000) None [] [] (Signed 4 [31] [32] [] [])) (zs_sig 1382836200 0) (now_in berlin (1385427600 * 1000000)) false = Err SignatureCreatedBeforeContent /\
  check_signature_values (local_in (fun _ => 3600)) (SKey (shown (fun _ => 3600) 1382835000 * 1000000) None [] [] (Signed 4 [31] [32] [] [])) (zs_sig 1382836200 0) (now_in (fun _ => 3600) (1385427600 * 1000000)) false = Ok (false, false).
Proof. split; [vm_compute; reflexivity|]. split; [vm_compute; reflexivity|vm_compute; reflexivity]. Qed.
(** made at 00:50 UTC with an old key, checked at 01:10 UTC *)
Example c107_future_ex : check_signature_values (local_in berlin) (SKey (shown berlin 1300000000 * 1000000) None [] [] (Signed 4 [31] [32] [] [])) (zs_sig 1382835000 0) (now_in berlin (1382836200 * 1000000)) false = Err SignatureCreatedInTheFuture.
Proof. vm_compute. reflexivity. Qed.
Example c107_after_ex : after_1970 [zs_sig 5 0].
Proof. intros k s t [<-|[]] B E. cbn in B. injection B as <-. vm_compute in E. injection E as <-. lia. Qed.
