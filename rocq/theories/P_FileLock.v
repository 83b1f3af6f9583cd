(** C73-C75: the lock file of a keyring, for every schedule of every number of processes, threads and Lock objects. *)
From Verif Require Import Base BaseProofs Text FileLock SpecFileLock FileLockProofs.

(** ** C73 *)
(** Mutual exclusion, if each Lock object is used by one thread, without nesting, and no process that uses the keyring ends: whatever the
    schedule and whichever processes crash, at most one thread is between acquire and release. *)
Theorem c73_exclusion_partial cf user l s t1 o1 t2 o2 : path cf (plain user) start l s -> inside s t1 o1 -> inside s t2 o2 -> t1 = t2 /\ o1 = o2.
Proof.
  intros P H1 H2. pose proof (inv_path cf user start l s (inv_start user) P) as I.
  assert (O : forall t o, inside s t o -> t = user o /\ owns user s o). { intros t o H. destruct (i_hold user s I t o H) as (A & _ & B & C & D). split; [exact A|]. right. rewrite <- A. repeat split; [exact B| |exact D]. intros E. rewrite E in C. now apply C. }
  destruct (O _ _ H1) as [-> Q1]. destruct (O _ _ H2) as [-> Q2]. pose proof (i_one user s I o1 o2 Q1 Q2) as ->. auto.
Qed.
Print Assumptions c73_exclusion_partial.

Lemma reach_owner cf user l s t o : path cf (plain user) start l s -> inside s t o -> inv user s /\ t = user o /\ owns user s o /\ locked_of (s_obj s o) = true /\ s_hold s t o = 1%nat /\ s_pc s t <> Dead.
Proof.
  intros P H. pose proof (inv_path cf user start l s (inv_start user) P) as I. destruct (i_hold user s I t o H) as (A & A' & B & C & D). split; [exact I|]. split; [exact A|]. split; [|auto]. right. rewrite <- A. repeat split; [exact B| |exact D]. intros E. rewrite E in C. now apply C.
Qed.
(** Two threads of a process that share the object: while one is inside, the other enters at once. *)
Theorem c73_threads_refuted cf user l s t u o d c : path cf (plain user) start l s -> inside s t o -> u <> t -> c_proc cf u = c_oproc cf o -> s_pc s u = Out ->
  exists s', run cf s [Acquire u o d; Step u c] = Some (s', [Nothing; Returned true]) /\ inside s' t o /\ inside s' u o.
Proof.
  intros P H Nu Pu Ou. destruct (reach_owner cf user l s t o P H) as (I & _ & _ & Lk & H1 & _).
  assert (M : is_made (s_obj s o) = true) by (destruct (s_obj s o); [discriminate Lk|discriminate Lk|reflexivity]).
  cbn [run step]. rewrite Ou, M, Pu, Nat.eqb_refl. cbn [is_out andb]. unfold thread_step. cbn [goto s_pc s_obj]. rewrite upd_eq, Lk. eexists. split; [reflexivity|]. unfold inside. cbn [goto set_hold s_hold]. rewrite upd_ne by auto. rewrite !upd_eq. split; [exact H|lia].
Qed.
Print Assumptions c73_threads_refuted.
(** Nesting, as in add_transferrable_key: the inner release gives the lock away although the outer call still goes on. *)
Theorem c73_nested_refuted cf user l s t o d c : sound_config cf -> (forall o1 o2, c_id cf o1 = c_id cf o2 -> o1 = o2) -> path cf (plain user) start l s -> inside s t o -> s_pc s t = Out -> c_proc cf t = c_oproc cf o ->
  exists s', run cf s (Acquire t o d :: Step t c :: Release t o :: repeat (Step t c) 5) = Some (s', [Nothing; Returned true; Nothing; Nothing; Nothing; Nothing; Nothing; Released]) /\ inside s' t o /\ s_name s' = None.
Proof.
  intros Hcf Hid P H Ot Pt. destruct (reach_owner cf user l s t o P H) as (I & Et & Ow & Lk & H1 & _). destruct (files_path cf user Hcf Hid start l s (inv_start user) (files_start cf user) P) as [F _].
  assert (M : is_made (s_obj s o) = true) by (destruct (s_obj s o); [discriminate Lk|discriminate Lk|reflexivity]).
  destruct (f_made cf user s F o M) as (i & Ti & Di). pose proof (f_link cf user s F o Ow) as Ln. rewrite Ti in Ln. destruct (f_rl2 cf user s F o Lk) as (n & Rn). destruct (Hcf (c_oproc cf o)) as [A B]. pose proof (read_back _ _ A B) as RB.
  cbn [repeat run step]. rewrite Ot, M, Pt, Nat.eqb_refl. cbn [is_out andb].
  unfold thread_step at 1. cbn [goto s_pc s_obj]. rewrite upd_eq, Lk. cbn [step run goto set_hold s_pc s_obj s_name s_tmpl s_data s_next s_locks s_hold]. rewrite upd_eq, M. cbn [is_out andb].
  unfold thread_step at 1. cbn [goto set_hold s_pc s_obj s_name s_tmpl s_data s_next s_locks s_hold]. rewrite upd_eq, Lk.
  unfold thread_step at 1. unfold own_file. cbn [goto set_hold s_pc s_obj s_name s_tmpl s_data s_next s_locks s_hold]. rewrite upd_eq, Ln, Di, RB, Pt, Z.eqb_refl, zlist_eqb_refl.
  unfold thread_step at 1. cbn [goto set_hold set_name s_pc s_obj s_name s_tmpl s_data s_next s_locks s_hold]. rewrite upd_eq, Ln.
  unfold thread_step at 1. cbn [goto set_hold set_name set_obj s_pc s_obj s_name s_tmpl s_data s_next s_locks s_hold]. rewrite upd_eq.
  unfold thread_step at 1. cbn [goto set_hold set_name set_obj s_pc s_obj s_name s_tmpl s_data s_next s_locks s_hold]. rewrite !upd_eq. cbn [rl_of]. rewrite Rn. unfold rl_release. rewrite <- Et, Nat.eqb_refl.
  eexists. split; [reflexivity|]. unfold inside. cbn [goto set_hold set_name set_obj s_hold s_name]. rewrite !upd_eq. split; [lia|reflexivity].
Qed.
Print Assumptions c73_nested_refuted.
(** A process that ends, although it holds no lock, removes the lock file of the one that does. *)
Lemma clean_unlocked cf l : forall s p u, Forall (fun o => locked_of (s_obj s o) = false) l -> clean_up cf s p u l = match l with [] => s | _ => set_name s None end.
Proof.
  induction l as [|o l IH]; intros s p u F; [reflexivity|]. cbn [clean_up]. rewrite (Forall_inv F). rewrite IH; [|exact (Forall_inv_tail F)]. destruct l; reflexivity.
Qed.
Theorem c73_exit_refuted cf user l s t o p u : path cf (plain user) start l s -> inside s t o -> c_proc cf t <> p -> c_proc cf u = p -> s_pc s u = Out -> s_locks s p <> [] -> Forall (fun x => locked_of (s_obj s x) = false) (s_locks s p) ->
  exists s', step cf s (Exit p u) = Some (s', Nothing) /\ inside s' t o /\ s_name s' = None.
Proof.
  intros P H Np Pu Ou Nl Fl. cbn [step]. rewrite Pu, Nat.eqb_refl, Ou. cbn [is_out andb]. eexists. split; [reflexivity|]. rewrite clean_unlocked by exact Fl. destruct (s_locks s p); [contradiction|]. unfold inside, ended. cbn [set_name s_hold s_name]. apply Nat.eqb_neq in Np. rewrite Np. split; [exact H|reflexivity].
Qed.
Print Assumptions c73_exit_refuted.

(** ** concrete schedules *)
Fixpoint run_b (cf : config) (okb : st -> event -> bool) (s : st) (l : list event) : option (st * list (event * seen)) :=
  match l with
  | [] => Some (s, [])
  | e :: l => if okb s e then match step cf s e with Some (s', x) => match run_b cf okb s' l with Some (s'', xs) => Some (s'', (e, x) :: xs) | None => None end | None => None end else None
  end.
Lemma path_cons cf (ok : st -> event -> Prop) s e x s1 l s2 : ok s e -> step cf s e = Some (s1, x) -> path cf ok s1 l s2 -> path cf ok s ((e, x) :: l) s2.
Proof.
  intros Ho Hs P. induction P as [s1|s1 l s3 e' x' s4 P IH Ho' Hs']; [exact (path_snoc cf ok s [] s e x s1 (path_nil cf ok s) Ho Hs)|]. change ((e, x) :: l ++ [(e', x')]) with (((e, x) :: l) ++ [(e', x')]). exact (path_snoc cf ok s _ s3 e' x' s4 (IH Hs) Ho' Hs').
Qed.
Lemma run_b_path cf okb (ok : st -> event -> Prop) : (forall s e, okb s e = true -> ok s e) -> forall l s s' tr, run_b cf okb s l = Some (s', tr) -> path cf ok s tr s'.
Proof.
  intros Hok. induction l as [|e l IH]; intros s s' tr H; cbn [run_b] in H; [injection H as <- <-; constructor|]. destruct (okb s e) eqn:B; [|discriminate H]. destruct (step cf s e) as [[s1 x]|] eqn:E; [|discriminate H]. destruct (run_b cf okb s1 l) as [[s2 xs]|] eqn:R; [|discriminate H]. injection H as <- <-.
  exact (path_cons cf ok s e x s1 xs s2 (Hok s e B) E (IH s1 s2 xs R)).
Qed.
Definition plain_b (user : nat -> nat) (s : st) (e : event) : bool :=
  match e with Acquire t o _ => (t =? user o)%nat && (s_hold s t o =? 0)%nat | Release t o => (t =? user o)%nat | Exit _ _ => false | _ => true end.
Lemma plain_b_ok user s e : plain_b user s e = true -> plain user s e.
Proof.
  destruct e; cbn; intros H; auto; try discriminate H.
  - apply andb_prop in H as [A B]. apply Nat.eqb_eq in A, B. split; [exact A|]. unfold inside. lia.
  - now apply Nat.eqb_eq in H.
Qed.
(** three processes on one machine, each with one thread and one object *)
Definition ex_cf : config := Config (fun p => 100 + Z.of_nat (Nat.min p 9)) (fun _ => str "host") (fun t => t) (fun o => o) (fun o => 64 * Z.of_nat o).
Lemma ex_sound : sound_config ex_cf.
Proof. intros p. split; [cbn [ex_cf c_pid]; change (10 ^ 10) with 10000000000; lia|reflexivity]. Qed.
Lemma ex_ids o1 o2 : c_id ex_cf o1 = c_id ex_cf o2 -> o1 = o2.
Proof. cbn [ex_cf c_id]. lia. Qed.
Definition ex_make (n : nat) : list event := concat (map (fun o => [Open o; Write o]) (seq 0 n)).
Definition ex_acq (t : nat) : list event := Acquire t t false :: repeat (Step t false) 7.
Definition ex_rel (t : nat) : list event := Release t t :: repeat (Step t false) 5.
Definition same_user (o : nat) : nat := o.
(** process 0 enters and leaves, then process 1 enters; process 2 is refused meanwhile; process 1 crashes: the hypotheses of the theorems *)
Definition ex_sched : list event := ex_make 3 ++ ex_acq 0 ++ Acquire 2 2 true :: repeat (Step 2 false) 4 ++ ex_rel 0 ++ ex_acq 1.
Example c73_ex : exists s tr, path ex_cf (plain same_user) start tr s /\ inside s 1 1 /\ s_pc s 2 = Out /\ s_pc s 1 = Out /\ s_name s <> None /\ s_locks s 2 = [2%nat] /\ locked_of (s_obj s 2%nat) = false /\
  In (Step 2 false, Raised FileExists) tr /\ In (Step 0 false, Returned true) tr /\ In (Step 0 false, Released) tr.
Proof.
  assert (R : exists s tr, run_b ex_cf (plain_b same_user) start ex_sched = Some (s, tr) /\ s_hold s 1%nat 1%nat = 1%nat /\ s_pc s 2 = Out /\ s_pc s 1 = Out /\ s_name s = Some 1%nat /\ s_locks s 2 = [2%nat] /\ locked_of (s_obj s 2%nat) = false /\
    In (Step 2 false, Raised FileExists) tr /\ In (Step 0 false, Returned true) tr /\ In (Step 0 false, Released) tr).
  { eexists _, _. split; [vm_compute; reflexivity|]. repeat (split; [reflexivity|]). repeat split; cbn [In]; tauto. }
  destruct R as (s & tr & R & A & B & C & D & E). exists s, tr. split; [exact (run_b_path _ _ _ (plain_b_ok same_user) _ _ _ _ R)|]. split; [unfold inside; rewrite A; lia|]. split; [exact B|]. split; [exact C|]. split; [rewrite D; discriminate|exact E].
Qed.
(** process 0 is inside, process 2 ends, process 1 enters *)
Definition or_exit (user : nat -> nat) (s : st) (e : event) : Prop := plain user s e \/ exists p t, e = Exit p t.
Example c73_exit_ex : exists s tr, path ex_cf (or_exit same_user) start tr s /\ (forall x, ~ In (Acquire 2 2 false, x) tr) /\ c_proc ex_cf 0 <> c_proc ex_cf 1 /\ inside s 0 0 /\ inside s 1 1.
Proof.
  assert (R : exists s tr, run_b ex_cf (fun s e => plain_b same_user s e || match e with Exit _ _ => true | _ => false end) start (ex_make 3 ++ ex_acq 0 ++ [Exit 2 2] ++ ex_acq 1) = Some (s, tr) /\ s_hold s 0%nat 0%nat = 1%nat /\ s_hold s 1%nat 1%nat = 1%nat /\
    forallb (fun ex => match fst ex with Acquire 2 _ _ => false | _ => true end) tr = true).
  { eexists _, _. split; [vm_compute; reflexivity|]. repeat split; reflexivity. }
  destruct R as (s & tr & R & A & B & C). exists s, tr. split; [|split; [|split; [discriminate|unfold inside; rewrite A, B; lia]]].
  - eapply run_b_path; [|exact R]. intros s0 e H. apply orb_prop in H as [H|H]; [left; exact (plain_b_ok _ _ _ H)|right; destruct e; try discriminate H; eauto].
  - intros x H. rewrite forallb_forall in C. specialize (C _ H). discriminate C.
Qed.

(** ** C74 *)
(** With different template names (the address of each object is different), no process is ever signalled, and the only exception of acquire
    and release is FileExistsError. *)
Theorem c74_exceptions_partial cf user l s : sound_config cf -> (forall o1 o2, c_id cf o1 = c_id cf o2 -> o1 = o2) -> path cf (plain user) start l s ->
  forall e x, In (e, x) l -> (forall pid, x <> Signal pid) /\ forall r, x = Raised r -> r = FileExists.
Proof.
  intros Hcf Hid P e x H. destruct (files_path cf user Hcf Hid start l s (inv_start user) (files_start cf user) P) as [_ F]. rewrite Forall_forall in F. specialize (F _ H). cbn [snd] in F. split; intros q E; rewrite E in F; [contradiction|exact F].
Qed.
Print Assumptions c74_exceptions_partial.
(** A thread inside that calls release and is not disturbed removes the lock file. *)
Theorem c74_release_partial cf user l s t o c : sound_config cf -> (forall o1 o2, c_id cf o1 = c_id cf o2 -> o1 = o2) -> path cf (plain user) start l s -> inside s t o -> s_pc s t = Out -> c_proc cf t = c_oproc cf o ->
  exists s', run cf s (Release t o :: repeat (Step t c) 5) = Some (s', [Nothing; Nothing; Nothing; Nothing; Nothing; Released]) /\ s_name s' = None /\ forall t' o', ~ inside s' t' o'.
Proof.
  intros Hcf Hid P H Ot Pt. destruct (reach_owner cf user l s t o P H) as (I & Et & Ow & Lk & H1 & _). destruct (files_path cf user Hcf Hid start l s (inv_start user) (files_start cf user) P) as [F _].
  assert (M : is_made (s_obj s o) = true) by (destruct (s_obj s o); [discriminate Lk|discriminate Lk|reflexivity]).
  destruct (f_made cf user s F o M) as (i & Ti & Di). pose proof (f_link cf user s F o Ow) as Ln. rewrite Ti in Ln. destruct (f_rl2 cf user s F o Lk) as (n & Rn). destruct (Hcf (c_oproc cf o)) as [A B]. pose proof (read_back _ _ A B) as RB.
  cbn [repeat run step]. rewrite Ot, M, Pt, Nat.eqb_refl. cbn [is_out andb].
  unfold thread_step at 1. cbn [goto set_hold s_pc s_obj s_name s_tmpl s_data s_next s_locks s_hold]. rewrite upd_eq, Lk.
  unfold thread_step at 1. unfold own_file. cbn [goto set_hold s_pc s_obj s_name s_tmpl s_data s_next s_locks s_hold]. rewrite upd_eq, Ln, Di, RB, Pt, Z.eqb_refl, zlist_eqb_refl.
  unfold thread_step at 1. cbn [goto set_hold set_name s_pc s_obj s_name s_tmpl s_data s_next s_locks s_hold]. rewrite upd_eq, Ln.
  unfold thread_step at 1. cbn [goto set_hold set_name set_obj s_pc s_obj s_name s_tmpl s_data s_next s_locks s_hold]. rewrite upd_eq.
  unfold thread_step at 1. cbn [goto set_hold set_name set_obj s_pc s_obj s_name s_tmpl s_data s_next s_locks s_hold]. rewrite !upd_eq. cbn [rl_of]. rewrite Rn. unfold rl_release. rewrite <- Et, Nat.eqb_refl.
  eexists. split; [reflexivity|]. cbn [goto set_hold set_name set_obj s_hold s_name]. split; [reflexivity|]. intros t' o' Q. unfold inside in Q. cbn [goto set_hold set_name set_obj s_hold] in Q.
  destruct (Nat.eq_dec t' t) as [->|Nt]; [rewrite upd_eq in Q; destruct (Nat.eq_dec o' o) as [->|No]; [rewrite upd_eq in Q; lia|rewrite upd_ne in Q by exact No]|rewrite upd_ne in Q by exact Nt].
  - destruct (c73_exclusion_partial cf user l s t o' t o P Q H) as [_ E]. contradiction.
  - destruct (c73_exclusion_partial cf user l s t' o' t o P Q H) as [E _]. contradiction.
Qed.
Print Assumptions c74_release_partial.
(** If there is no lock file, a thread that calls acquire and is not disturbed gets the lock. *)
Theorem c74_acquire_partial cf user l s o d : sound_config cf -> (forall o1 o2, c_id cf o1 = c_id cf o2 -> o1 = o2) -> path cf (plain user) start l s -> s_name s = None -> is_made (s_obj s o) = true -> s_pc s (user o) = Out -> c_proc cf (user o) = c_oproc cf o ->
  exists s', run cf s (Acquire (user o) o d :: repeat (Step (user o) false) 7) = Some (s', [Nothing; Nothing; Nothing; Nothing; Nothing; Nothing; Nothing; Returned true]) /\ inside s' (user o) o.
Proof.
  intros Hcf Hid P En M Ot Pt. pose proof (inv_path cf user start l s (inv_start user) P) as I. destruct (files_path cf user Hcf Hid start l s (inv_start user) (files_start cf user) P) as [F _].
  assert (Lk : locked_of (s_obj s o) = false). { destruct (locked_of (s_obj s o)) eqn:L; [|reflexivity]. exfalso. apply (i_file user s I o); [|exact En]. right. rewrite Ot. repeat split; [exact L|discriminate|discriminate]. }
  destruct (f_made cf user s F o M) as (i & Ti & Di). destruct (Hcf (c_oproc cf o)) as [A B]. pose proof (read_back _ _ A B) as RB.
  assert (Ra : exists r, rl_acquire (rl_of (s_obj s o)) (user o) = Some r). { unfold rl_acquire. destruct (rl_of (s_obj s o)) as [[u n]|] eqn:R; [|eauto]. destruct (f_rl1 cf user s F o u n R) as [-> _]. rewrite Nat.eqb_refl. eauto. }
  destruct Ra as (r & Ra). cbn [repeat run step]. rewrite Ot, M, Pt, Nat.eqb_refl. cbn [is_out andb].
  unfold thread_step at 1. cbn [goto set_hold s_pc s_obj s_name s_tmpl s_data s_next s_locks s_hold]. rewrite upd_eq, Lk.
  unfold thread_step at 1. cbn [goto set_hold s_pc s_obj s_name s_tmpl s_data s_next s_locks s_hold]. rewrite upd_eq, andb_false_r.
  unfold thread_step at 1. cbn [goto set_hold set_obj s_pc s_obj s_name s_tmpl s_data s_next s_locks s_hold]. rewrite upd_eq, Ra.
  unfold thread_step at 1. cbn [goto set_hold set_obj set_name s_pc s_obj s_name s_tmpl s_data s_next s_locks s_hold]. rewrite upd_eq, Ti, En.
  unfold thread_step at 1. unfold own_file. cbn [goto set_hold set_obj set_name s_pc s_obj s_name s_tmpl s_data s_next s_locks s_hold]. rewrite upd_eq, Di, RB, Pt, Z.eqb_refl, zlist_eqb_refl.
  unfold thread_step at 1. cbn [goto set_hold set_obj set_name s_pc s_obj s_name s_tmpl s_data s_next s_locks s_hold]. rewrite upd_eq.
  unfold thread_step at 1. cbn [goto set_hold set_obj set_name s_pc s_obj s_name s_tmpl s_data s_next s_locks s_hold]. rewrite !upd_eq. cbn [locked_of].
  eexists. split; [reflexivity|]. unfold inside. cbn [goto set_hold s_hold]. rewrite !upd_eq. lia.
Qed.
Print Assumptions c74_acquire_partial.
Example c74_acquire_ex : exists s tr, path ex_cf (plain same_user) start tr s /\ s_name s = None /\ is_made (s_obj s 2%nat) = true /\ s_pc s (same_user 2) = Out.
Proof.
  assert (R : exists s tr, run_b ex_cf (plain_b same_user) start (ex_make 3 ++ ex_acq 0 ++ ex_rel 0) = Some (s, tr) /\ s_name s = None /\ is_made (s_obj s 2%nat) = true /\ s_pc s (same_user 2) = Out).
  { eexists _, _. split; [vm_compute; reflexivity|]. repeat (split; [reflexivity|]). reflexivity. }
  destruct R as (s & tr & R & E). exists s, tr. split; [exact (run_b_path _ _ _ (plain_b_ok same_user) _ _ _ _ R)|exact E].
Qed.
(** If there is a lock file, acquire does not wait, with a timeout or without: it fails at once, and leaves the reentrant lock of the object
    taken, so that any other thread of the process that calls acquire on the object waits for ever. *)
Theorem c74_wait_refuted cf user l s o d u : sound_config cf -> (forall o1 o2, c_id cf o1 = c_id cf o2 -> o1 = o2) -> path cf (plain user) start l s -> s_name s <> None -> is_made (s_obj s o) = true -> locked_of (s_obj s o) = false -> s_pc s (user o) = Out -> c_proc cf (user o) = c_oproc cf o ->
  u <> user o -> s_pc s u = Out -> c_proc cf u = c_oproc cf o ->
  exists s' s'', run cf s (Acquire (user o) o d :: repeat (Step (user o) false) 4) = Some (s', [Nothing; Nothing; Nothing; Nothing; Raised FileExists]) /\
    run cf s' [Acquire u o d; Step u false; Step u false] = Some (s'', [Nothing; Nothing; Nothing]) /\ forall c, step cf s'' (Step u c) = None.
Proof.
  intros Hcf Hid P En M Lk Ot Pt Nu Ou Pu. destruct (files_path cf user Hcf Hid start l s (inv_start user) (files_start cf user) P) as [F _].
  destruct (f_made cf user s F o M) as (i & Ti & Di). destruct (s_name s) as [j|] eqn:Ej; [|contradiction].
  assert (Ra : exists n, rl_acquire (rl_of (s_obj s o)) (user o) = Some (Some (user o, S n))). { unfold rl_acquire. destruct (rl_of (s_obj s o)) as [[v n]|] eqn:R; [|eauto]. destruct (f_rl1 cf user s F o v n R) as [-> _]. rewrite Nat.eqb_refl. eauto. }
  destruct Ra as (n & Ra). eexists _, _. split.
  - cbn [repeat run step]. rewrite Ot, M, Pt, Nat.eqb_refl. cbn [is_out andb].
    unfold thread_step at 1. cbn [goto set_hold s_pc s_obj s_name s_tmpl s_data s_next s_locks s_hold]. rewrite upd_eq, Lk.
    unfold thread_step at 1. cbn [goto set_hold s_pc s_obj s_name s_tmpl s_data s_next s_locks s_hold]. rewrite upd_eq, andb_false_r.
    unfold thread_step at 1. cbn [goto set_hold set_obj s_pc s_obj s_name s_tmpl s_data s_next s_locks s_hold]. rewrite upd_eq, Ra.
    unfold thread_step at 1. cbn [goto set_hold set_obj set_name s_pc s_obj s_name s_tmpl s_data s_next s_locks s_hold]. rewrite upd_eq, Ti, Ej. reflexivity.
  - split.
    + cbn [run step goto set_obj s_pc s_obj s_name s_tmpl s_data s_next s_locks s_hold]. rewrite !upd_ne, Ou by exact Nu. rewrite upd_eq, Pu, Nat.eqb_refl. cbn [is_out is_made andb].
      unfold thread_step at 1. cbn [goto set_obj s_pc s_obj s_name s_tmpl s_data s_next s_locks s_hold]. rewrite !upd_eq. cbn [locked_of]. rewrite Lk.
      unfold thread_step at 1. cbn [goto set_obj s_pc s_obj s_name s_tmpl s_data s_next s_locks s_hold]. rewrite !upd_eq, andb_false_r. reflexivity.
    + intros c. cbn [step]. unfold thread_step. cbn [goto set_obj s_pc s_obj s_name s_tmpl s_data s_next s_locks s_hold]. rewrite !upd_eq. cbn [rl_of]. unfold rl_acquire. replace (user o =? u)%nat with false; [reflexivity|]. symmetry. apply Nat.eqb_neq. auto.
Qed.
Print Assumptions c74_wait_refuted.


Lemma run_cons cf s e s1 x l s2 xs : step cf s e = Some (s1, x) -> run cf s1 l = Some (s2, xs) -> run cf s (e :: l) = Some (s2, x :: xs).
Proof. intros H R. cbn [run]. rewrite H, R. reflexivity. Qed.
Ltac simp_st := unfold step, thread_step, own_file, goto, set_obj, set_name, set_hold, start; cbn [s_pc s_obj s_name s_tmpl s_data s_next s_locks s_hold]; unfold upd, updz; rewrite ?Nat.eqb_refl, ?Z.eqb_refl; cbn [is_made is_out andb locked_of rl_of rl_acquire Nat.eqb].
Ltac one_step := eapply run_cons; [repeat (progress simp_st); repeat match goal with H : _ = false |- _ => rewrite H | H : _ = true |- _ => rewrite H | H : read_lock _ = _ |- _ => rewrite H | H : _ = c_id _ _ |- _ => rewrite H | H : _ = c_node _ _ |- _ => rewrite H | H : _ = c_oproc _ _ |- _ => rewrite H end; repeat (progress simp_st); rewrite ?andb_false_r, ?zlist_eqb_refl; reflexivity|].
(** Two objects at the same address in two processes have the same template, and so the same lock file contents: a process that has just made the lock file and is
    overtaken by the other one takes it for the other's, and throws its own lock away as soon as it has found that the other one lives; ... *)
Theorem c74_same_address_refuted cf o1 o2 t d : sound_config cf -> o1 <> o2 -> c_id cf o1 = c_id cf o2 -> c_proc cf t = c_oproc cf o1 -> c_node cf (c_oproc cf o1) = c_node cf (c_oproc cf o2) -> c_pid cf (c_oproc cf o1) <> c_pid cf (c_oproc cf o2) ->
  exists s s', run cf start ([Open o1; Write o1; Acquire t o1 d] ++ repeat (Step t false) 4 ++ [Open o2; Write o2; Step t false]) = Some (s, repeat Nothing 10) /\ s_name s <> None /\
    run cf s [Step t true; Step t true] = Some (s', [Signal 0; Nothing]) /\ s_name s' = None.
Proof.
  intros Hcf No Hid Pt Hn Hp. destruct (Hcf (c_oproc cf o2)) as [A B]. pose proof (read_back _ _ A B) as RB.
  assert (E12 : (o1 =? o2)%nat = false) by (apply Nat.eqb_neq; auto). assert (E21 : (o2 =? o1)%nat = false) by (apply Nat.eqb_neq; auto). assert (Ep : (c_pid cf (c_oproc cf o2) =? c_pid cf (c_oproc cf o1)) = false) by lia.
  eexists _, _. split; [cbn [repeat app]|].
  { do 10 one_step. reflexivity. }
  split; [cbn [s_name]; discriminate|]. split; [do 2 one_step; reflexivity|reflexivity].
Qed.
Print Assumptions c74_same_address_refuted.
(** ... and a thread that is inside when the other process makes its object finds at release that the lock is not its own: it stays locked for everybody. *)
Theorem c74_same_address_release_refuted cf o1 o2 t d c : sound_config cf -> o1 <> o2 -> c_id cf o1 = c_id cf o2 -> c_proc cf t = c_oproc cf o1 -> c_pid cf (c_oproc cf o1) <> c_pid cf (c_oproc cf o2) ->
  exists s s', run cf start ([Open o1; Write o1; Acquire t o1 d] ++ repeat (Step t false) 7 ++ [Open o2; Write o2]) = Some (s, repeat Nothing 9 ++ [Returned true; Nothing; Nothing]) /\ inside s t o1 /\
    run cf s [Release t o1; Step t c; Step t c] = Some (s', [Nothing; Nothing; NotReleased]) /\ s_name s' <> None.
Proof.
  intros Hcf No Hid Pt Hp. destruct (Hcf (c_oproc cf o2)) as [A B]. pose proof (read_back _ _ A B) as RB2. destruct (Hcf (c_oproc cf o1)) as [A1 B1]. pose proof (read_back _ _ A1 B1) as RB1.
  assert (E12 : (o1 =? o2)%nat = false) by (apply Nat.eqb_neq; auto). assert (E21 : (o2 =? o1)%nat = false) by (apply Nat.eqb_neq; auto). assert (Ep : (c_pid cf (c_oproc cf o2) =? c_pid cf (c_oproc cf o1)) = false) by lia.
  eexists _, _. split; [cbn [repeat app]|].
  { do 12 one_step. reflexivity. }
  split; [unfold inside; cbn [s_hold]; unfold upd; rewrite !Nat.eqb_refl; lia|]. split; [do 3 one_step; reflexivity|]. cbn [s_name]. discriminate.
Qed.
Print Assumptions c74_same_address_release_refuted.
(** two processes whose objects have the same address: the hypotheses *)
Example c74_same_address_ex : let cf := Config (fun p => 100 + Z.of_nat (Nat.min p 9)) (fun _ => str "host") (fun t => t) (fun o => o) (fun _ => 64) in
  sound_config cf /\ c_id cf 0%nat = c_id cf 1%nat /\ c_proc cf 0%nat = c_oproc cf 0%nat /\ c_node cf (c_oproc cf 0%nat) = c_node cf (c_oproc cf 1%nat) /\ c_pid cf (c_oproc cf 0%nat) <> c_pid cf (c_oproc cf 1%nat).
Proof. cbv zeta. split; [intros p; split; [cbn [c_pid]; change (10 ^ 10) with 10000000000; lia|reflexivity]|]. repeat split. discriminate. Qed.

(** ** C75 *)
(** If a process crashes inside, no thread ever enters again: the lock file stays, and no later acquire returns True. *)
Theorem c75_stale_refuted cf user l s t o s1 x l2 s2 : path cf (plain user) start l s -> inside s t o -> step cf s (Crash (c_proc cf t)) = Some (s1, x) -> path cf (plain user) s1 l2 s2 ->
  s_name s2 <> None /\ (forall t' o', ~ inside s2 t' o') /\ forall e, ~ In (e, Returned true) l2.
Proof.
  intros P H St P2. destruct (reach_owner cf user l s t o P H) as (I & Et & Ow & Lk & H1 & Nd).
  destruct (inv_step cf user s (Crash (c_proc cf t)) s1 x I Logic.I St) as [I1 _]. cbn [step] in St. assert (E1 : s1 = ended cf s (c_proc cf t)) by congruence.
  assert (N1 : s_name s1 <> None /\ forall z, ~ owns user s1 z).
  { subst s1. split; [exact (i_file user s I o Ow)|]. intros z Hz. assert (Q : owns user s z). { revert Hz. unfold owns, ended. cbn [s_pc s_obj]. destruct (c_proc cf (user z) =? c_proc cf t)%nat; [|auto]. intros [[A _]|(_ & _ & A)]; [discriminate A|now elim A]. }
    pose proof (i_one user s I z o Q Ow) as ->. revert Hz. unfold owns, ended. cbn [s_pc s_obj]. rewrite <- Et, Nat.eqb_refl. intros [[A _]|(_ & _ & A)]; [discriminate A|now elim A]. }
  assert (No : forall s', inv user s' -> (forall z, ~ owns user s' z) -> forall t' o', ~ inside s' t' o').
  { intros s' I' N t' o' Q. destruct (i_hold user s' I' t' o' Q) as (A & _ & B & C & D). apply (N o'). right. rewrite <- A. repeat split; [exact B| |exact D]. intros E. rewrite E in C. now apply C. }
  clear St E1. induction P2 as [s1|s1 l2 s3 e y s4 P2 IH Hp Hs].
  - split; [exact (proj1 N1)|]. split; [exact (No s1 I1 (proj2 N1))|]. intros e [].
  - destruct (IH I1 N1) as (A & B & C).
    assert (K : s_name s3 <> None /\ forall z, ~ owns user s3 z).
    { clear IH B C Hp Hs A. induction P2 as [s1|s1 l2 s5 e' y' s6 P2 IH Hp Hs]; [exact N1|]. destruct (IH I1 N1) as [K1 K2]. destruct (inv_step cf user s5 e' s6 y' (inv_path cf user s1 l2 s5 I1 P2) Hp Hs) as [_ [G1 G2]]. split; [intros Z; destruct (G2 Z) as [Q|(z & Q)]; [exact (K1 Q)|exact (K2 z Q)]|]. intros z Hz. destruct (G1 z Hz) as [Q|Q]; [exact (K2 z Q)|exact (K1 Q)]. }
    destruct K as [K1 K2]. pose proof (inv_path cf user s1 l2 s3 I1 P2) as I3. destruct (inv_step cf user s3 e s4 y I3 Hp Hs) as [I4 [G1 G2]].
    assert (K4 : s_name s4 <> None /\ forall z, ~ owns user s4 z). { split; [intros Z; destruct (G2 Z) as [Q|(z & Q)]; [exact (K1 Q)|exact (K2 z Q)]|]. intros z Hz. destruct (G1 z Hz) as [Q|Q]; [exact (K2 z Q)|exact (K1 Q)]. }
    split; [exact (proj1 K4)|]. pose proof (No s4 I4 (proj2 K4)) as B4. split; [exact B4|]. intros e0 Q. apply in_app_or in Q as [Q|[Q|[]]]; [exact (C e0 Q)|]. injection Q as -> ->.
    destruct e0 as [z|z|u z d|u z|u c|p u|p]; cbn [step] in Hs.
    + destruct (s_obj s3 z); try discriminate Hs. destruct (s_tmpl s3 (c_id cf z)); discriminate Hs.
    + destruct (s_obj s3 z); discriminate Hs.
    + destruct (is_out (s_pc s3 u) && is_made (s_obj s3 z) && (c_proc cf u =? c_oproc cf z)%nat); discriminate Hs.
    + destruct (is_out (s_pc s3 u) && is_made (s_obj s3 z) && (c_proc cf u =? c_oproc cf z)%nat); discriminate Hs.
    + unfold thread_step in Hs. destruct (s_pc s3 u) as [| |z d|z d|z d|z d|z d|z d|z d|z d|z|z|z|z|z]; try discriminate Hs.
      * destruct (locked_of (s_obj s3 z)); [|discriminate Hs]. injection Hs as <-. apply (B4 u z). unfold inside. cbn [goto set_hold s_hold]. rewrite !upd_eq. lia.
      * destruct (d && c); discriminate Hs.
      * destruct (rl_acquire (rl_of (s_obj s3 z)) u); discriminate Hs.
      * destruct (s_tmpl s3 (c_id cf z)), (s_name s3); discriminate Hs.
      * destruct (own_file cf s3 (c_proc cf u)) as [[[] []]|]; discriminate Hs.
      * destruct c; discriminate Hs.
      * destruct (s_name s3); discriminate Hs.
      * destruct (locked_of (s_obj s3 z)); discriminate Hs.
      * destruct (own_file cf s3 (c_proc cf u)) as [[[] []]|]; discriminate Hs.
      * destruct (s_name s3); discriminate Hs.
      * destruct (rl_release (rl_of (s_obj s3 z)) u); discriminate Hs.
    + contradiction.
    + discriminate Hs.
Qed.
Print Assumptions c75_stale_refuted.
(** process 0 crashes inside; the others try in turn *)
Example c75_ex : exists s tr, path ex_cf (plain same_user) start tr s /\ In (Step 0 false, Returned true) tr /\ In (Step 1 false, Raised FileExists) tr /\ In (Step 2 false, Raised FileExists) tr /\ s_name s <> None.
Proof.
  assert (R : exists s tr, run_b ex_cf (plain_b same_user) start (ex_make 3 ++ ex_acq 0 ++ [Crash 0] ++ Acquire 1 1 false :: repeat (Step 1 false) 4 ++ Acquire 2 2 false :: repeat (Step 2 false) 4) = Some (s, tr) /\ In (Step 0 false, Returned true) tr /\ In (Step 1 false, Raised FileExists) tr /\ In (Step 2 false, Raised FileExists) tr /\ s_name s = Some 0%nat).
  { eexists _, _. split; [vm_compute; reflexivity|]. repeat split; cbn [In]; tauto. }
  destruct R as (s & tr & R & A & B & C & D). exists s, tr. split; [exact (run_b_path _ _ _ (plain_b_ok same_user) _ _ _ _ R)|]. rewrite D. repeat split; try assumption. discriminate.
Qed.
