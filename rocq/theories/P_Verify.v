(** C51: what verify accepts. C65: what sign produces is accepted. *)
From Verif Require Import Base BaseProofs Spec Utils KeyPackets SigPackets Signable SpecSigned SignedProofs KeyOps SpecVerify VerifyProofs SignVerify DemoRsa.

(** C51: a version 4 signature is accepted only if it names the key, has its algorithm, its two octets start the digest of
    the RFC's octets for the object, and its integers are valid for that digest. Missing: algorithm 20 (ElGamal
    signatures, PyCrypto's own scheme), negative integers, and versions below 4, which always raise. *)
Theorem c51_accepted_only_if_valid_partial : forall fl md5 sha1 H oid inv elg k s i c,
  library_hashes H oid -> library_numbers fl inv k -> so_version s = 4 -> k_alg k <> 20 -> Forall (fun v => 0 <= v) (so_values s) ->
  covers fl i c -> verify fl md5 sha1 H oid inv elg k s i = Ok true ->
  exists kid hashed, obj_key_id fl md5 sha1 k = Ok kid /\ names_issuer (so_hashed s) (so_unhashed s) kid /\ k_alg k = so_pk s /\
    subs_bytes fl (so_hashed s) = Ok hashed /\
    firstn 2 (H (so_hash s) (rfc_v4_octets (so_type s) (so_pk s) (so_hash s) hashed c)) = so_hash2 s /\
    pk_valid oid k (so_hash s) (H (so_hash s) (rfc_v4_octets (so_type s) (so_pk s) (so_hash s) hashed c)) (so_values s).
Proof.
  intros fl md5 sha1 H oid inv elg k s i c (Ow & Hw & He) G V A NN C E. apply verify_inv in E as (kid & ids & d & t & K & I & X & Al & O & Hs & D & T & Z2 & B).
  rewrite V in *. apply (item_rfc fl i 4 c ltac:(lia)) in C. rewrite C in D. apply KeyProofs.ok_inj in D. subst d.
  apply sig_signable_v4 in T as (h & Sh & Eq). rewrite Eq in Z2, B. exists kid, h. split; [exact K|]. split; [apply (issuer_ids_names s ids kid I); exact X|].
  split; [exact Al|]. split; [exact Sh|]. split; [rewrite <- Z2; now rewrite slice_firstn by lia|]. rewrite <- Al in B at 1.
  exact (verify_hash_valid fl md5 sha1 H oid inv elg Ow Hw k _ _ _ (Hw _ _) G A NN B).
Qed.
Print Assumptions c51_accepted_only_if_valid_partial.
(** and every such signature is accepted, provided an RSA integer is as long as the modulus. *)
Theorem c51_valid_accepted_partial : forall fl md5 sha1 H oid inv elg k s i c kid ids hashed,
  library_hashes H oid -> library_numbers fl inv k -> so_version s = 4 -> Forall (fun v => 0 <= v) (so_values s) ->
  byte (so_type s) -> byte (so_pk s) -> hash_supported (so_hash s) = true ->
  covers fl i c -> obj_key_id fl md5 sha1 k = Ok kid -> issuer_key_ids s = Ok ids -> names_issuer (so_hashed s) (so_unhashed s) kid -> k_alg k = so_pk s ->
  subs_bytes fl (so_hashed s) = Ok hashed ->
  firstn 2 (H (so_hash s) (rfc_v4_octets (so_type s) (so_pk s) (so_hash s) hashed c)) = so_hash2 s ->
  pk_valid oid k (so_hash s) (H (so_hash s) (rfc_v4_octets (so_type s) (so_pk s) (so_hash s) hashed c)) (so_values s) ->
  full_size k (so_values s) ->
  verify fl md5 sha1 H oid inv elg k s i = Ok true.
Proof.
  intros fl md5 sha1 H oid inv elg k s i c kid ids h (Ow & Hw & He) G V NN Bt Bp Hs C K I Nm Al Sh Z2 PV F.
  assert (T : exists t, sig_signable fl 4 (so_type s) (so_pk s) (so_hash s) (so_hashed s) = Ok t).
  { assert (Wb : wf [4; so_type s; so_pk s; so_hash s]).
    { apply Forall_cons; [split; [discriminate|reflexivity]|]. apply Forall_cons; [exact Bt|]. apply Forall_cons; [exact Bp|]. apply Forall_cons; [|apply Forall_nil].
      clear - Hs. unfold hash_supported, S2k.hash_lengths in Hs. unfold byte.
      repeat match type of Hs with context [so_hash s =? ?x] => destruct (so_hash s =? x) eqn:? end; try discriminate Hs; lia. }
    unfold sig_signable, hash_trailer. change (4 <? 4) with false. cbv iota. rewrite mk_bytes_wf by exact Wb. cbn [bind]. rewrite Sh. eexists. reflexivity. }
  destruct T as (t & T). pose proof (sig_signable_v4 _ _ _ _ _ _ T) as (h' & Sh' & Eq). rewrite Sh in Sh'. apply KeyProofs.ok_inj in Sh'. subst h'.
  apply verify_inv. exists kid, ids, (rfc_covered 4 c), t. rewrite V. rewrite Eq.
  split; [exact K|]. split; [exact I|]. split; [apply (issuer_ids_names s ids kid I); exact Nm|]. split; [exact Al|]. split.
  { unfold key_obj_ok. destruct PV as [n e kb em s0 rest A N Ee _ _ _|p q g y qb w r s0 A P Q Gg Y _ _ _ _ _].
    - assert (A' : (k_alg k =? 17) = false /\ is_elg_alg (k_alg k) = false /\ (k_alg k =? 1) || (k_alg k =? 3) = true) by (unfold is_elg_alg; cbn [In] in A; lia).
      destruct A' as (-> & -> & ->). rewrite N, Ee. reflexivity.
    - rewrite A, P, Q, Gg, Y. reflexivity. }
  split; [exact Hs|]. split; [now apply item_rfc|]. split; [exact T|]. split; [rewrite slice_firstn by lia; exact Z2|]. rewrite <- Al at 1.
  apply (verify_hash_complete fl md5 sha1 H oid inv elg Ow Hw k _ _ _ (Hw _ _) (He _ _) G NN PV).
  intros n s0 rest A N Ev. rewrite Ev in F. eapply (full_size_bounds fl md5 sha1 H oid inv elg Ow Hw); [exact F|exact A|exact N|]. destruct G as (Gn & _). now apply Gn.
Qed.
Print Assumptions c51_valid_accepted_partial.

(** C65: a signature made with an unlocked key over an object is accepted by the key for that object. The condition on RSA
    integers is the missing part; DSA signatures with a zero component (which FIPS 186 tells the signer to avoid) are refused. *)
Theorem c65_sign_then_verify_partial : forall fl md5 sha1 H oid inv elg k sec nonce now i raw st ha given s given',
  library_hashes H oid -> library_numbers fl inv k -> keypair k sec ->
  (forall c b, In (Sub 16 c b) given -> exists kid, b = SbIssuer kid) ->
  sign fl md5 sha1 H oid inv false k sec nonce now i raw 4 st ha given = Ok (s, given') ->
  Forall (fun v => 0 <= v) (so_values s) -> (k_alg k = 17 -> Forall (fun v => v <> 0) (so_values s)) -> full_size k (so_values s) ->
  verify fl md5 sha1 H oid inv elg k s i = Ok true.
Proof. intros fl md5 sha1 H oid inv elg k sec nonce now i raw st ha given s g' (Ow & Hw & He) G KP Iss E. intros. eapply (sign_then_verify fl md5 sha1 H oid inv elg Ow Hw He); eassumption. Qed.
Print Assumptions c65_sign_then_verify_partial.

Lemma demo_hashes : library_hashes demo_H demo_oid.
Proof.
  split; [intros; apply Forall_nil|]. split; [|discriminate]. intros ha d. apply Forall_cons; [|apply Forall_nil].
  unfold byte. rewrite <- fold_left_rev_right. destruct (rev d); cbn [fold_right]; [lia|]. apply Z.mod_pos_bound. lia.
Qed.
Lemma demo_rsa_numbers : library_numbers Z.log2 demo_inv demo_rsa.
Proof. split; [intros n [= <-]; reflexivity|]. split; [intros p [=]|intros q [=]]. Qed.
Lemma demo_dsa_numbers : library_numbers Z.log2 demo_inv demo_dsa.
Proof.
  split; [intros n [=]|]. split; [intros p [= <-]; lia|]. intros q [= <-]. split; [lia|]. split; [reflexivity|].
  intros a Ha. assert (C : a = 1 \/ a = 2 \/ a = 3 \/ a = 4 \/ a = 5 \/ a = 6 \/ a = 7 \/ a = 8 \/ a = 9 \/ a = 10) by lia.
  repeat destruct C as [->|C]; try (vm_compute; reflexivity). subst a. reflexivity.
Qed.
Example c65_used_rsa : keypair demo_rsa (SRsa 593) /\ exists s,
  sign Z.log2 demo_sha1 demo_sha1 demo_H demo_oid demo_inv false demo_rsa (SRsa 593) 0 5 (IBytes [1; 2]) false 4 0 8 [] = Ok (s, []) /\
  full_size demo_rsa (so_values s) /\
  verify Z.log2 demo_sha1 demo_sha1 demo_H demo_oid demo_inv demo_elg demo_rsa s (IBytes [1; 2]) = Ok true.
Proof.
  split; [exact demo_pair|]. eexists. split; [vm_compute; reflexivity|]. split; [|vm_compute; reflexivity].
  cbn [so_values full_size]. change (k_n demo_rsa) with (Some demo_n). right. exists 12. split; split; try (split; [intros HH; vm_compute in HH; discriminate HH|reflexivity]); lia.
Qed.
Example c65_used_dsa : keypair demo_dsa (SDsa 3) /\ exists s,
  sign Z.log2 demo_sha1 demo_sha1 demo_H demo_oid demo_inv false demo_dsa (SDsa 3) 7 5 (IBytes [1; 2]) false 4 0 8 [] = Ok (s, []) /\
  so_values s <> [0; 0] /\ verify Z.log2 demo_sha1 demo_sha1 demo_H demo_oid demo_inv demo_elg demo_dsa s (IBytes [1; 2]) = Ok true.
Proof.
  split; [apply (pair_dsa demo_dsa 23 11 4 3); try reflexivity; lia|].
  eexists. split; [vm_compute; reflexivity|]. split; [discriminate|]. vm_compute. reflexivity.
Qed.
(** Refuted without the condition: an RSA signature whose integer is shorter than the modulus (about one in 256) is valid
    but refused, because it is passed on without its leading zero octets. *)
Theorem c65_short_rsa_signature_refused_refuted : exists k sec i s,
  library_hashes demo_H demo_oid /\ library_numbers Z.log2 demo_inv k /\ keypair k sec /\
  sign Z.log2 demo_sha1 demo_sha1 demo_H demo_oid demo_inv false k sec 0 5 i false 4 0 8 [] = Ok (s, []) /\
  (exists digest, pk_valid demo_oid k 8 digest (so_values s) /\ firstn 2 digest = so_hash2 s) /\
  verify Z.log2 demo_sha1 demo_sha1 demo_H demo_oid demo_inv demo_elg k s i = Err SignatureVerificationFailed.
Proof.
  exists demo_rsa, (SRsa 593), (IBytes [66]). eexists. split; [exact demo_hashes|]. split; [exact demo_rsa_numbers|]. split; [exact demo_pair|].
  split; [vm_compute; reflexivity|]. split; [|vm_compute; reflexivity].
  exists [157]. split; [|reflexivity]. cbn [so_values].
  apply (valid_rsa demo_oid demo_rsa 8 [157] demo_n 17 12 [0; 1; 255; 255; 255; 255; 255; 255; 255; 255; 0; 157]);
    [cbn; auto|reflexivity|reflexivity|split; [split; [intros HH; vm_compute in HH; discriminate HH|reflexivity]|lia]| |].
  - exists (repeat 255 8). split; [reflexivity|]. split; [repeat (apply Forall_cons; [reflexivity|]); apply Forall_nil|]. split; [reflexivity || (vm_compute; discriminate)|reflexivity].
  - rewrite <- Zpow_mod_correct by discriminate. vm_compute. reflexivity.
Qed.
Print Assumptions c65_short_rsa_signature_refused_refuted.
(** Refuted: octets or text cannot be signed directly (a weak reference to them is attempted), nor can version 3 signatures be
    made or checked at all. *)
Theorem c65_raw_data_refused_refuted : forall fl md5 sha1 H oid inv k sec nonce now d st ha given r,
  d <> [] -> sign fl md5 sha1 H oid inv false k sec nonce now (IBytes d) true 4 st ha given <> Ok r.
Proof.
  intros fl md5 sha1 H oid inv k sec nonce now d st ha given r D E. unfold sign in E.
  apply bind_ok in E as (u & _ & E). destruct (hash_supported ha); [|discriminate]. cbn [negb item_signable] in E. cbn [bind] in E.
  apply bind_ok in E as (kid & _ & E). cbv zeta in E. assert (Z0 : (zlen d =? 0) = false).
  { destruct d; [easy|]. rewrite zlen_cons. pose proof (zlen_nonneg d). lia. }
  rewrite Z0 in E. cbn [negb andb] in E. discriminate E.
Qed.
Print Assumptions c65_raw_data_refused_refuted.
Theorem c65_version_3_refused_refuted : forall fl md5 sha1 H oid inv elg k sec nonce now i raw st ha given version r,
  version < 4 -> sign fl md5 sha1 H oid inv false k sec nonce now i raw version st ha given <> Ok r /\
  forall s, so_version s = version -> verify fl md5 sha1 H oid inv elg k s i <> Ok true.
Proof.
  intros fl md5 sha1 H oid inv elg k sec nonce now i raw st ha given v r V. split.
  - intros E. unfold sign in E. apply bind_ok in E as (u & _ & E). destruct (hash_supported ha); [|discriminate]. cbn [negb] in E.
    apply bind_ok in E as (d & _ & E). apply bind_ok in E as (kid & _ & E). cbv zeta in E. destruct (raw && negb (zlen d =? 0)); [discriminate|].
    apply bind_ok in E as (t & T & E). unfold sig_signable in T. replace (v <? 4) with true in T by lia. apply bind_ok in T as (x & _ & T). discriminate T.
  - intros s Sv E. apply verify_inv in E as (kid & ids & d & t & _ & I & _). unfold issuer_key_ids in I. rewrite Sv in I. replace (v <? 4) with true in I by lia. discriminate I.
Qed.
Print Assumptions c65_version_3_refused_refuted.
