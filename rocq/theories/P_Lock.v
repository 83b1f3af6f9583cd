(** C42: a locked key never exposes or uses its secret values. *)
From Verif Require Import Base BaseProofs KeyPackets KeyLock SpecLock LockProofs.

(** A program that only ever tries passphrases under which a key's material does not decrypt neither unlocks that key, nor
    gets one of its secret values, nor uses it; whatever else it does, and whatever happens to other keys of the object. *)
Theorem c42_no_passphrase_no_use : forall dec program keys i k,
  (forall pass, In pass (flat_map tried program) -> exists e, dec i pass = Err e) ->
  nth_error keys i = Some k -> locked_clean k -> sane k ->
  (forall k', nth_error (o_keys (run dec program keys)) i = Some k' -> locked_clean k') /\
  ~ In (Used i) (o_log (run dec program keys)).
Proof. exact no_passphrase. Qed.
Print Assumptions c42_no_passphrase_no_use.

(** In every state a program can reach, a key that says it is locked holds no secret value; the material is required to
    decrypt to as many values as the algorithm has. *)
Theorem c42_locked_means_clean_partial : forall dec program keys,
  (forall i k, nth_error keys i = Some k -> tidy k /\ forall pass vs, dec i pass = Ok vs -> enough (lk_alg k) vs) ->
  forall i k', nth_error (o_keys (run dec program keys)) i = Some k' -> lk_locked k' = true -> no_secrets k'.
Proof. exact always_tidy. Qed.
Print Assumptions c42_locked_means_clean_partial.

(** A use is refused exactly when the key is locked, and a refused use raises. *)
Theorem c42_use_iff_unlocked : forall dec o keys i k, o = Sign i \/ o = Decrypt i -> nth_error keys i = Some k ->
  o_keys (exec dec o keys) = keys /\
  (lk_locked k = true -> o_exn (exec dec o keys) = Some RuntimeError /\ ~ In (Used i) (o_log (exec dec o keys))) /\
  (lk_locked k = false -> o_exn (exec dec o keys) = None /\ In (Used i) (o_log (exec dec o keys))).
Proof.
  intros dec o keys i k [-> | ->] N; cbn [exec]; unfold use; rewrite N; destruct (lk_locked k); cbn;
    (split; [reflexivity|]); (split; intros D; try discriminate D); (split; [reflexivity|]); try (now left); intros [X|[]]; discriminate X.
Qed.
Print Assumptions c42_use_iff_unlocked.

(** lock() succeeds and leaves the primary key and all subkeys locked without secrets. *)
Theorem c42_lock_clears_everything : forall dec keys, (forall k, In k keys -> known_alg k /\ sane k) ->
  o_exn (exec dec Lock keys) = None /\ Forall locked_clean (o_keys (exec dec Lock keys)) /\
  length (o_keys (exec dec Lock keys)) = length keys.
Proof.
  intros dec keys A. cbn [exec]. destruct (lock_all_clean keys A) as [N F]. pose proof (each_length (fun _ => lock1) 0 keys) as L.
  fold (lock_all keys) in L. destruct (lock_all keys) as [ks e]. cbn [fst snd o_exn o_keys] in *. auto.
Qed.
Print Assumptions c42_lock_clears_everything.

(** Once the context has been entered, leaving it locks every key and clears the secrets, whatever the body did and whether
    or not it raised; the exception of the body goes on unchanged. *)
Theorem c42_context_locks_on_exit : forall dec pass body keys, (forall k, In k keys -> known_alg k /\ sane k) ->
  o_exn (exec dec (Unlock pass) keys) = None ->
  Forall locked_clean (o_keys (exec dec (With pass body) keys)) /\
  o_exn (exec dec (With pass body) keys) = o_exn (run dec body (o_keys (exec dec (Unlock pass) keys))).
Proof.
  intros dec pass body keys A U. cbn [exec] in U.
  assert (U' : snd (unlock_all dec pass keys) = None) by (destruct (unlock_all dec pass keys); exact U).
  destruct (with_locks dec pass body keys A U') as [F E]. split; [exact F|]. rewrite E. cbn [exec]. destruct (unlock_all dec pass keys); reflexivity.
Qed.
Print Assumptions c42_context_locks_on_exit.

(** Freshly loaded keys meet the conditions. *)
Theorem c42_loaded_keys_meet_the_conditions : forall alg prime, In alg [1; 2; 3; 16; 17; 20] ->
  locked_clean (fresh alg prime) /\ sane (fresh alg prime) /\ known_alg (fresh alg prime) /\ tidy (fresh alg prime).
Proof.
  intros alg prime K. assert (C : locked_clean (fresh alg prime)).
  { unfold locked_clean, no_secrets, fresh. cbn. repeat split. intros I. apply rsa_alg_in in I. now rewrite I. }
  split; [exact C|]. split; [apply fresh_sane|]. split; [exact K|]. split; [apply fresh_sane|]. intros _. apply C.
Qed.
Print Assumptions c42_loaded_keys_meet_the_conditions.

(** An RSA key with a DSA subkey, both under the passphrase "a": signing works inside the context only, although the body
    raises, and not after a wrong passphrase. *)
Definition demo_dec (i : nat) (p : bytes) : res (list Z) :=
  if zlist_eqb p [97] then Ok (if Nat.eqb i 0 then [7; 5; 3; 2] else [9]) else Err ValueError.
Definition demo_keys : list lkey := [fresh 1 None; fresh 17 (Some 23)].
Definition demo_program : list op := [Try [With [98] [Sign 0]]; Try [With [97] [Sign 0; Decrypt 1; Raise]]; Sign 1].
Example c42_used_run : run demo_dec demo_program demo_keys = Out demo_keys (Some RuntimeError) [Used 0; Used 1; Refused 1].
Proof. vm_compute. reflexivity. Qed.
Example c42_used_no_passphrase : (forall pass, In pass (flat_map tried [Try [With [98] [Sign 0]]; Sign 0]) -> exists e, demo_dec 0 pass = Err e) /\
  nth_error demo_keys 0 = Some (fresh 1 None) /\
  run demo_dec [Try [With [98] [Sign 0]]; Sign 0] demo_keys = Out demo_keys (Some RuntimeError) [Refused 0].
Proof.
  split; [intros pass [<- | []]; eexists; reflexivity|]. split; [reflexivity|]. vm_compute. reflexivity.
Qed.
Example c42_used_tidy : forall i k, nth_error demo_keys i = Some k -> tidy k /\ forall pass vs, demo_dec i pass = Ok vs -> enough (lk_alg k) vs.
Proof.
  intros i k N. destruct i as [|[|i]]; cbn [demo_keys nth_error] in N; [| |destruct i; discriminate N]; injection N as <-;
    (split; [apply c42_loaded_keys_meet_the_conditions; cbn; tauto|]); intros pass vs E; unfold demo_dec in E;
    destruct (zlist_eqb pass [97]); try discriminate E; injection E as <-; vm_compute; discriminate.
Qed.

(** Refuted: when the passphrase opens the primary key but not a subkey, unlock() raises half way. The context is then not
    entered, so nothing locks the primary key again. *)
Theorem c42_failed_unlock_leaves_primary_open_refuted : exists dec pass keys k,
  Forall locked_clean keys /\ (forall x, In x keys -> known_alg x /\ sane x) /\
  o_exn (exec dec (With pass []) keys) = Some ValueError /\
  nth_error (o_keys (exec dec (With pass []) keys)) 0 = Some k /\ lk_locked k = false /\ lk_d k = Some 7 /\
  In (Used 0) (o_log (run dec [Try [With pass []]; Sign 0] keys)).
Proof.
  exists (fun i p => if Nat.eqb i 0 then Ok [7; 5; 3; 2] else Err ValueError), [97], demo_keys. eexists.
  split. { repeat apply Forall_cons; try apply Forall_nil; apply c42_loaded_keys_meet_the_conditions; cbn; tauto. }
  split. { intros x [<- | [<- | []]]; split; apply c42_loaded_keys_meet_the_conditions; cbn; tauto. }
  split; [reflexivity|]. split; [reflexivity|]. split; [reflexivity|]. split; [reflexivity|]. vm_compute. now left.
Qed.
Print Assumptions c42_failed_unlock_leaves_primary_open_refuted.
(** Refuted: secret material that holds fewer values than the algorithm needs leaves the ones it has on the locked key. *)
Theorem c42_short_material_leaks_refuted : exists dec pass k k',
  locked_clean k /\ known_alg k /\ sane k /\ o_exn (exec dec (Unlock pass) [k]) = Some IndexError /\
  o_keys (exec dec (Unlock pass) [k]) = [k'] /\ lk_locked k' = true /\ lk_d k' = Some 7.
Proof.
  exists (fun _ _ => Ok [7]), [97], (fresh 1 None). eexists.
  destruct (c42_loaded_keys_meet_the_conditions 1 None) as (C & S & K & _); [cbn; tauto|].
  split; [exact C|]. split; [exact K|]. split; [exact S|]. split; [reflexivity|]. split; [reflexivity|]. split; reflexivity.
Qed.
Print Assumptions c42_short_material_leaks_refuted.
(** Refuted: the public copy of an unlocked RSA key carries the secret factor p, and keeps it after lock(). *)
Theorem c42_public_copy_keeps_secret_prime_refuted : exists dec pass k ks p,
  locked_clean k /\ In (lk_alg k) [1; 2; 3] /\ o_keys (exec dec (Unlock pass) [k]) = ks /\ map public_prime ks = [Some p] /\
  dec 0%nat pass = Ok [7; p; 3; 2].
Proof.
  exists (fun _ _ => Ok [7; 5; 3; 2]), [97], (fresh 1 None). eexists. exists 5.
  split; [apply c42_loaded_keys_meet_the_conditions; cbn; tauto|]. split; [cbn; auto|]. split; [reflexivity|]. split; reflexivity.
Qed.
Print Assumptions c42_public_copy_keeps_secret_prime_refuted.
