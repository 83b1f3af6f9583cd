(** Proofs about locking. *)
From Verif Require Import Base BaseProofs KeyPackets KeyLock SpecLock.

Lemma rsa_alg_in a : is_rsa_alg a = true <-> In a [1; 2; 3].
Proof. unfold is_rsa_alg. cbn [In]. lia. Qed.

(** induction over programs *)
Lemma op_ind' (P : op -> Prop) :
  P Lock -> (forall p, P (Unlock p)) -> (forall i, P (Sign i)) -> (forall i, P (Decrypt i)) -> P Raise ->
  (forall p b, Forall P b -> P (With p b)) -> (forall b, Forall P b -> P (Try b)) -> forall o, P o.
Proof.
  intros HL HU HS HD HR HW HT. fix IH 1. intros [| | | | |p b|b].
  - apply HL. - apply HU. - apply HS. - apply HD. - apply HR.
  - apply HW. induction b; constructor; auto.
  - apply HT. induction b; constructor; auto.
Qed.
Lemma exec_with dec pass body ks : exec dec (With pass body) ks =
  let '(ks1, e1) := unlock_all dec pass ks in
  match e1 with
  | Some e => Out ks1 (Some e) []
  | None => let r := run dec body ks1 in let '(ks2, e2) := lock_all (o_keys r) in
            Out ks2 (match e2 with Some e => Some e | None => o_exn r end) (o_log r)
  end.
Proof. reflexivity. Qed.
Lemma exec_try dec body ks : exec dec (Try body) ks = let r := run dec body ks in Out (o_keys r) None (o_log r).
Proof. reflexivity. Qed.

(** [each] acts on every key before the first exception *)
Lemma each_nth f i0 ks i k' : nth_error (fst (each f i0 ks)) i = Some k' ->
  exists k, nth_error ks i = Some k /\ (k' = k \/ k' = fst (f (i0 + i)%nat k)).
Proof.
  revert i0 i. induction ks as [|k ks IH]; intros i0 i E; cbn [each] in E; [destruct i; discriminate|].
  destruct (f i0 k) as [k1 [e|]] eqn:F; cbn [fst] in E.
  - destruct i as [|i]; cbn [nth_error] in *.
    + injection E as <-. exists k. split; [reflexivity|]. right. rewrite Nat.add_0_r, F. reflexivity.
    + eauto.
  - destruct (each f (S i0) ks) as [t e] eqn:Et. cbn [fst] in E. destruct i as [|i]; cbn [nth_error] in *.
    + injection E as <-. exists k. split; [reflexivity|]. right. rewrite Nat.add_0_r, F. reflexivity.
    + specialize (IH (S i0) i). rewrite Et in IH. cbn [fst] in IH. destruct (IH E) as (k0 & K & O). exists k0. split; [exact K|].
      replace (i0 + S i)%nat with (S i0 + i)%nat by lia. exact O.
Qed.
Lemma each_length f i0 ks : length (fst (each f i0 ks)) = length ks.
Proof.
  revert i0. induction ks as [|k ks IH]; intros i0; cbn [each]; [reflexivity|].
  destruct (f i0 k) as [k1 [e|]]; cbn [fst length]; [reflexivity|]. specialize (IH (S i0)). destruct (each f (S i0) ks). cbn [fst length] in *. lia.
Qed.
(** ... and on all of them if there is none *)
Lemma each_all f i0 ks i k' : snd (each f i0 ks) = None -> nth_error (fst (each f i0 ks)) i = Some k' ->
  exists k, nth_error ks i = Some k /\ f (i0 + i)%nat k = (k', None).
Proof.
  revert i0 i. induction ks as [|k ks IH]; intros i0 i N E; cbn [each] in N, E; [destruct i; discriminate|].
  destruct (f i0 k) as [k1 [e|]] eqn:F; cbn [fst snd] in *; [discriminate|].
  destruct (each f (S i0) ks) as [t e] eqn:Et. cbn [fst snd] in *. destruct i as [|i]; cbn [nth_error] in *.
  - injection E as <-. exists k. split; [reflexivity|]. rewrite Nat.add_0_r, F. reflexivity.
  - specialize (IH (S i0) i). rewrite Et in IH. cbn [fst snd] in IH. destruct (IH N E) as (k0 & K & O). exists k0. split; [exact K|].
    replace (i0 + S i)%nat with (S i0 + i)%nat by lia. exact O.
Qed.
Lemma each_none f i0 ks : (forall i k, In k ks -> snd (f i k) = None) -> snd (each f i0 ks) = None.
Proof.
  revert i0. induction ks as [|k ks IH]; intros i0 N; cbn [each]; [reflexivity|].
  pose proof (N i0 k (or_introl eq_refl)) as Nk. destruct (f i0 k) as [k1 e]. cbn [snd] in Nk. subst e.
  assert (IH' : snd (each f (S i0) ks) = None). { apply IH. intros i x Hx. apply N. now right. }
  destruct (each f (S i0) ks). exact IH'.
Qed.

Lemma lock1_known k : known_alg k -> snd (lock1 k) = None.
Proof.
  unfold known_alg, lock1. intros K. destruct (is_rsa_alg (lk_alg k)) eqn:R; [reflexivity|].
  destruct (is_elg_alg (lk_alg k) || (lk_alg k =? 17)) eqn:E; [reflexivity|].
  exfalso. unfold is_rsa_alg, is_elg_alg in *. cbn [In] in K. lia.
Qed.
Lemma fresh_sane alg p : sane (fresh alg p).
Proof. unfold sane, fresh. cbn. destruct (is_rsa_alg alg); auto. Qed.
Lemma unlock1_alg v k : lk_alg (fst (unlock1 v k)) = lk_alg k.
Proof.
  unfold unlock1. destruct v as [vs|e]; [|reflexivity]. destruct (is_rsa_alg (lk_alg k)); [destruct vs as [|? [|? [|? [|? ?]]]]; reflexivity|].
  destruct (is_elg_alg (lk_alg k) || (lk_alg k =? 17)); [destruct vs|]; reflexivity.
Qed.
Lemma lock1_alg k : lk_alg (fst (lock1 k)) = lk_alg k.
Proof. unfold lock1. destruct (is_rsa_alg (lk_alg k)); [reflexivity|]. destruct (_ || _); reflexivity. Qed.
Lemma unlock1_sane v k : sane k -> sane (fst (unlock1 v k)).
Proof.
  intros S. unfold sane. rewrite unlock1_alg. unfold sane in S. unfold unlock1. destruct v as [vs|e]; [|exact S].
  destruct (is_rsa_alg (lk_alg k)) eqn:R; [destruct vs as [|? [|? [|? [|? ?]]]]; exact S|].
  destruct (is_elg_alg (lk_alg k) || (lk_alg k =? 17)); [destruct vs|]; exact S.
Qed.
Lemma lock1_sane k : sane k -> sane (fst (lock1 k)).
Proof.
  intros S. unfold sane. rewrite lock1_alg. unfold sane in S. unfold lock1. destruct (is_rsa_alg (lk_alg k)) eqn:R; [exact S|].
  destruct (is_elg_alg (lk_alg k) || (lk_alg k =? 17)); exact S.
Qed.
Lemma lock1_clean k k' : sane k -> lock1 k = (k', None) -> locked_clean k'.
Proof.
  intros S E. unfold lock1 in E. unfold sane in S. unfold locked_clean, no_secrets.
  destruct (is_rsa_alg (lk_alg k)) eqn:R.
  - injection E as <-. cbn. repeat split. exact S.
  - destruct (is_elg_alg (lk_alg k) || (lk_alg k =? 17)); [|discriminate]. injection E as <-. destruct S as (-> & -> & ->).
    cbn. repeat split. intros I. apply rsa_alg_in in I. cbn [lk_alg] in *. congruence.
Qed.

(** Invariants that a single step keeps hold of every key forever. *)
Section Inv.
Variable dec : nat -> bytes -> res (list Z).
Variable P : nat -> lkey -> Prop.
Variable passes : list bytes.
Hypothesis P_lock : forall i k, P i k -> P i (fst (lock1 k)).
Hypothesis P_unlock : forall i k pass, In pass passes -> P i k -> P i (fst (unlock1 (dec i pass) k)).
Definition all_keys (ks : list lkey) : Prop := forall i k, nth_error ks i = Some k -> P i k.
Definition log_ok (l : list event) : Prop := forall i, In (Used i) l -> exists k, P i k /\ lk_locked k = false.

Lemma inv_lock_all ks : all_keys ks -> all_keys (fst (lock_all ks)).
Proof.
  intros A i k' E. apply each_nth in E as (k & K & [->| ->]); [now apply A|]. apply P_lock. now apply A.
Qed.
Lemma inv_unlock_all pass ks : In pass passes -> all_keys ks -> all_keys (fst (unlock_all dec pass ks)).
Proof.
  intros Hp A i k' E. apply each_nth in E as (k & K & [->| ->]); [now apply A|]. apply P_unlock; [exact Hp|]. now apply A.
Qed.
Lemma inv_use i ks : all_keys ks -> all_keys (o_keys (use i ks)) /\ log_ok (o_log (use i ks)).
Proof.
  intros A. unfold use. destruct (nth_error ks i) as [k|] eqn:N; [|split; [exact A|intros j []]].
  destruct (lk_locked k) eqn:L; (split; [exact A|]); cbn [o_log].
  - intros j [J|[]]. discriminate J.
  - intros j [[= <-]|[]]. exists k. split; [now apply A|exact L].
Qed.
Lemma inv_run body : Forall (fun o => incl (tried o) passes -> forall ks, all_keys ks -> all_keys (o_keys (exec dec o ks)) /\ log_ok (o_log (exec dec o ks))) body ->
  incl (flat_map tried body) passes -> forall ks, all_keys ks -> all_keys (o_keys (run dec body ks)) /\ log_ok (o_log (run dec body ks)).
Proof.
  unfold run. induction 1 as [|o t Ho _ IH]; intros I ks A; cbn [seq_ops]; [split; [exact A|intros i []]|].
  cbn [flat_map] in I. destruct (Ho (fun p Hp => I p (in_or_app _ _ _ (or_introl Hp))) ks A) as [A1 L1].
  destruct (o_exn (exec dec o ks)) as [e|]; [split; assumption|].
  destruct (IH (fun p Hp => I p (in_or_app _ _ _ (or_intror Hp))) _ A1) as [A2 L2]. cbn [o_keys o_log]. split; [exact A2|].
  intros i Hi. apply in_app_or in Hi as [Hi|Hi]; auto.
Qed.
Lemma inv_exec o : incl (tried o) passes -> forall ks, all_keys ks -> all_keys (o_keys (exec dec o ks)) /\ log_ok (o_log (exec dec o ks)).
Proof.
  induction o as [|p|i|i| |p b IH|b IH] using op_ind'; intros I ks A.
  - cbn [exec]. pose proof (inv_lock_all ks A) as A'. destruct (lock_all ks). split; [exact A'|intros j []].
  - cbn [exec]. assert (Hp : In p passes) by (apply I; now left). pose proof (inv_unlock_all p ks Hp A) as A'. destruct (unlock_all dec p ks). split; [exact A'|intros j []].
  - apply inv_use. exact A.
  - apply inv_use. exact A.
  - split; [exact A|intros j []].
  - rewrite exec_with. assert (Hp : In p passes) by (apply I; now left). pose proof (inv_unlock_all p ks Hp A) as A'.
    destruct (unlock_all dec p ks) as [ks1 [e|]]; cbn [fst] in A'; [split; [exact A'|intros j []]|].
    destruct (inv_run b IH (fun q Hq => I q (or_intror Hq)) ks1 A') as [A2 L2].
    cbv zeta. pose proof (inv_lock_all _ A2) as A3. destruct (lock_all (o_keys (run dec b ks1))). split; [exact A3|exact L2].
  - rewrite exec_try. destruct (inv_run b IH I ks A) as [A2 L2]. split; [exact A2|exact L2].
Qed.
Lemma inv_program l ks : incl (flat_map tried l) passes -> all_keys ks -> all_keys (o_keys (run dec l ks)) /\ log_ok (o_log (run dec l ks)).
Proof. intros I A. apply inv_run; [|exact I|exact A]. apply Forall_forall. intros o _. apply inv_exec. Qed.
End Inv.

(** Without a working passphrase nothing happens to a key. *)
Lemma no_passphrase dec l ks i k : (forall pass, In pass (flat_map tried l) -> exists e, dec i pass = Err e) ->
  nth_error ks i = Some k -> locked_clean k -> sane k ->
  (forall k', nth_error (o_keys (run dec l ks)) i = Some k' -> locked_clean k') /\ ~ In (Used i) (o_log (run dec l ks)).
Proof.
  intros D N C S. set (P := fun j x => j = i -> locked_clean x /\ sane x).
  assert (PL : forall j x, P j x -> P j (fst (lock1 x))).
  { intros j x Hx J. destruct (Hx J) as [Cx Sx]. split; [|now apply lock1_sane].
    destruct (lock1 x) as [x' [e|]] eqn:E; cbn [fst].
    - unfold lock1 in E. destruct (is_rsa_alg (lk_alg x)); [discriminate|]. destruct (_ || _); [discriminate|]. injection E as <- _. exact Cx.
    - eapply lock1_clean; eassumption. }
  assert (PU : forall j x pass, In pass (flat_map tried l) -> P j x -> P j (fst (unlock1 (dec j pass) x))).
  { intros j x pass Hp Hx J. subst j. destruct (D pass Hp) as (e & ->). apply Hx. reflexivity. }
  assert (A0 : all_keys P ks). { intros j x E ->. rewrite N in E. injection E as <-. split; assumption. }
  destruct (inv_program dec P (flat_map tried l) PL PU l ks (fun p Hp => Hp) A0) as [A L]. split.
  - intros k' E. apply (A i k' E eq_refl).
  - intros U. destruct (L i U) as (x & Px & Lx). destruct (Px eq_refl) as [[Cx _] _]. congruence.
Qed.

Lemma tidy_lock k : tidy k -> tidy (fst (lock1 k)).
Proof.
  intros [S C]. split; [now apply lock1_sane|]. destruct (lock1 k) as [k' [e|]] eqn:E; cbn [fst]; intros L.
  - unfold lock1 in E. destruct (is_rsa_alg (lk_alg k)); [discriminate|]. destruct (_ || _); [discriminate|]. injection E as <- _. now apply C.
  - eapply lock1_clean; eassumption.
Qed.
Lemma tidy_unlock v k : (forall vs, v = Ok vs -> enough (lk_alg k) vs) -> tidy k -> tidy (fst (unlock1 v k)).
Proof.
  intros W [S C]. split; [now apply unlock1_sane|]. unfold unlock1. destruct v as [vs|e]; [|exact C]. specialize (W vs eq_refl). unfold enough in W.
  change ((lk_alg k =? 1) || (lk_alg k =? 2) || (lk_alg k =? 3)) with (is_rsa_alg (lk_alg k)) in W.
  destruct (is_rsa_alg (lk_alg k)) eqn:R.
  - destruct vs as [|a [|b [|c [|d t]]]]; cbn in W; try lia. cbn. discriminate.
  - destruct (is_elg_alg (lk_alg k) || (lk_alg k =? 17)); [|exact C]. destruct vs; [cbn in W; lia|]. cbn. discriminate.
Qed.
Lemma always_tidy dec l ks : (forall i k, nth_error ks i = Some k -> tidy k /\ forall pass vs, dec i pass = Ok vs -> enough (lk_alg k) vs) ->
  forall i k', nth_error (o_keys (run dec l ks)) i = Some k' -> lk_locked k' = true -> no_secrets k'.
Proof.
  intros A0. set (P := fun i x => tidy x /\ forall pass vs, dec i pass = Ok vs -> enough (lk_alg x) vs).
  assert (PL : forall j x, P j x -> P j (fst (lock1 x))). { intros j x [T W]. split; [now apply tidy_lock|]. rewrite lock1_alg. exact W. }
  assert (PU : forall j x pass, In pass (flat_map tried l) -> P j x -> P j (fst (unlock1 (dec j pass) x))).
  { intros j x pass _ [T W]. split; [|rewrite unlock1_alg; exact W]. apply tidy_unlock; [|exact T]. apply W. }
  destruct (inv_program dec P (flat_map tried l) PL PU l ks (fun p Hp => Hp) A0) as [A _].
  intros i k' E L. destruct (A i k' E) as [[_ C] _]. now apply C.
Qed.

(** lock() and the end of a context. *)
Lemma lock_all_clean ks : (forall k, In k ks -> known_alg k /\ sane k) -> snd (lock_all ks) = None /\ Forall locked_clean (fst (lock_all ks)).
Proof.
  intros A. assert (N : snd (lock_all ks) = None). { apply each_none. intros i k Hk. apply lock1_known. now apply A. }
  split; [exact N|]. apply Forall_forall. intros k' Hk. apply In_nth_error in Hk as (i & E).
  apply each_all in E as (k & K & F); [|exact N]. eapply lock1_clean; [|exact F]. apply A. now apply nth_error_In in K.
Qed.
Definition ok_alg (_ : nat) (k : lkey) : Prop := known_alg k /\ sane k.
Lemma ok_alg_lock i k : ok_alg i k -> ok_alg i (fst (lock1 k)).
Proof. intros [K S]. split; [unfold known_alg; now rewrite lock1_alg|now apply lock1_sane]. Qed.
Lemma ok_alg_unlock v i k : ok_alg i k -> ok_alg i (fst (unlock1 v k)).
Proof. intros [K S]. split; [unfold known_alg; now rewrite unlock1_alg|now apply unlock1_sane]. Qed.
Lemma run_ok_alg dec l ks : all_keys ok_alg ks -> all_keys ok_alg (o_keys (run dec l ks)).
Proof.
  intros A. apply (inv_program dec ok_alg (flat_map tried l)); auto using ok_alg_lock, ok_alg_unlock. exact (fun p Hp => Hp).
Qed.
Lemma all_in (ks : list lkey) : (forall k, In k ks -> known_alg k /\ sane k) <-> all_keys ok_alg ks.
Proof.
  split.
  - intros A i k E. apply A. now apply nth_error_In in E.
  - intros A k Hk. apply In_nth_error in Hk as (i & E). exact (A i k E).
Qed.
Lemma with_locks dec pass body ks : (forall k, In k ks -> known_alg k /\ sane k) -> snd (unlock_all dec pass ks) = None ->
  Forall locked_clean (o_keys (exec dec (With pass body) ks)) /\ o_exn (exec dec (With pass body) ks) = o_exn (run dec body (fst (unlock_all dec pass ks))).
Proof.
  intros A U. rewrite exec_with. assert (A1 : all_keys ok_alg (fst (unlock_all dec pass ks))).
  { apply (inv_unlock_all dec ok_alg [pass]); [|now left|now apply all_in]. intros i k p _. apply ok_alg_unlock. }
  destruct (unlock_all dec pass ks) as [ks1 e1]. cbn [fst snd] in *. subst e1. cbv zeta.
  pose proof (run_ok_alg dec body ks1 A1) as A2. pose proof (proj2 (all_in _) A2) as A3. destruct (lock_all_clean _ A3) as [N F].
  destruct (lock_all (o_keys (run dec body ks1))) as [ks2 e2]. cbn [fst snd] in *. subst e2. split; [exact F|reflexivity].
Qed.
