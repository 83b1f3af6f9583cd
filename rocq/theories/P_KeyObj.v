(** C114: what a key says about itself. *)
From Verif Require Import Base BaseProofs Spec Utils UtilsProofs HexProofs CodecProofs Text Framing S2k KeyPackets SpecKey KeyProofs P_Keys Packets TransKey KeyOps KeyObj SpecKeyObj.

Lemma first_number v ct alg exp n ms k : rfc_key v ct alg exp (n :: ms) = Some k -> (if is_rsa_alg (k_alg k) then Ok (k_n k) else if k_alg k =? 17 then Ok (k_p k) else if is_elg_alg (k_alg k) then Ok (k_p k) else Err UnboundLocalError) = Ok (Some n) /\
  (if is_rsa_alg (k_alg k) then k_n k else if is_elg_alg (k_alg k) || (k_alg k =? 17) then k_p k else None) = Some n /\ k_version k = v /\ k_alg k = alg /\ k_ctime k = ct /\ k_exp k = exp.
Proof.
  unfold rfc_key. destruct ms as [|a [|b [|c [|d ms]]]]; try discriminate.
  - destruct ((alg =? 1) || (alg =? 2) || (alg =? 3)) eqn:E; [|discriminate]. intros H. injection H as <-. cbn [k_alg k_n k_p k_version k_ctime k_exp]. unfold is_rsa_alg. rewrite E. auto 10.
  - destruct ((alg =? 16) || (alg =? 20)) eqn:E; [|discriminate]. intros H. injection H as <-. cbn [k_alg k_n k_p k_version k_ctime k_exp]. unfold is_rsa_alg, is_elg_alg. rewrite E. replace ((alg =? 1) || (alg =? 2) || (alg =? 3)) with false by lia. replace (alg =? 17) with false by lia. auto 10.
  - destruct (alg =? 17) eqn:E; [|discriminate]. intros H. injection H as <-. cbn [k_alg k_n k_p k_version k_ctime k_exp]. unfold is_rsa_alg, is_elg_alg. rewrite E. replace ((alg =? 1) || (alg =? 2) || (alg =? 3)) with false by lia. rewrite Bool.orb_true_r. auto 10.
Qed.
Lemma bits_unique n b c : has_bits n b -> has_bits n c -> b = c.
Proof.
  intros (B & B1 & B2) (C & C1 & C2). destruct (Z.lt_trichotomy b c) as [L|[E|L]]; [|exact E|]; exfalso.
  - assert (2 ^ b <= 2 ^ (c - 1)) by (apply Z.pow_le_mono_r; lia). lia.
  - assert (2 ^ c <= 2 ^ (b - 1)) by (apply Z.pow_le_mono_r; lia). lia.
Qed.

(** The size: for every public key body, the number of bits of its modulus or prime, if the computed logarithm is right and the number is not a
    power of two. Missing from the full claim: powers of two, and what floating point rounds. *)
Theorem c114_size_partial : forall cl v ct alg exp n ms encs rest k, rfc_key v ct alg exp (n :: ms) = Some k -> pub_from_content (rfc_pub_body v ct alg exp encs ++ rest) = Ok k ->
  0 < n -> ceiling_log n (cl n) -> ~ power_of_two n -> exists b, key_bits cl k = Ok b /\ has_bits n b /\ forall b', has_bits n b' -> b' = b.
Proof.
  intros cl v ct alg exp n ms encs rest k K _ P (C1 & C2 & C3) N. destruct (first_number _ _ _ _ _ _ _ K) as (F & _). unfold key_bits. rewrite F. cbn [bind]. replace (n <=? 0) with false by lia. exists (cl n). split; [reflexivity|].
  assert (B : has_bits n (cl n)).
  { assert (C4 : cl n <> 0). { intros E. rewrite E in C1. change (2 ^ 0) with 1 in C1. apply N. exists 0. change (2 ^ 0) with 1. lia. }
    split; [lia|]. specialize (C2 ltac:(lia)). split; [lia|]. assert (n <> 2 ^ cl n) by (intros E; apply N; exists (cl n); auto). lia. }
  split; [exact B|]. intros b' B'. exact (bits_unique n b' (cl n) B' B).
Qed.
Print Assumptions c114_size_partial.
(** refuted: a power of two is reported one bit short; so is a number above a power of two whose computed logarithm is rounded down to it; and a
    key with the number 0, which is read without complaint, has no size *)
Theorem c114_size_refuted : forall cl v ct alg exp n ms k, rfc_key v ct alg exp (n :: ms) = Some k ->
  (forall j, 0 <= j -> n = 2 ^ j -> ceiling_log n (cl n) -> key_bits cl k = Ok j /\ has_bits n (j + 1)) /\
  (forall j, 0 <= j -> 2 ^ j < n < 2 ^ (j + 1) -> cl n = j -> key_bits cl k = Ok j /\ has_bits n (j + 1)) /\
  (n = 0 -> key_bits cl k = Err ValueError).
Proof.
  intros cl v ct alg exp n ms k K. destruct (first_number _ _ _ _ _ _ _ K) as (F & _). unfold key_bits. rewrite F. cbn [bind]. split; [|split].
  - intros j J -> (C1 & C2 & C3). assert (0 < 2 ^ j) by (apply Z.pow_pos_nonneg; lia). replace (2 ^ j <=? 0) with false by lia. split.
    + f_equal. assert (j <= cl (2 ^ j)). { destruct (Z.le_gt_cases j (cl (2 ^ j))) as [L|L]; [exact L|exfalso]. assert (2 ^ cl (2 ^ j) < 2 ^ j) by (apply Z.pow_lt_mono_r; lia). lia. }
      destruct (Z.le_gt_cases (cl (2 ^ j)) j) as [L|L]; [lia|exfalso]. specialize (C2 ltac:(lia)). assert (2 ^ j <= 2 ^ (cl (2 ^ j) - 1)) by (apply Z.pow_le_mono_r; lia). lia.
    + split; [lia|]. replace (j + 1 - 1) with j by lia. split; [lia|]. apply Z.pow_lt_mono_r; lia.
  - intros j J B E. assert (0 < 2 ^ j) by (apply Z.pow_pos_nonneg; lia). replace (n <=? 0) with false by lia. rewrite E. split; [reflexivity|]. split; [lia|]. replace (j + 1 - 1) with j by lia. lia.
  - intros ->. reflexivity.
Qed.
Print Assumptions c114_size_refuted.

Lemma low_step n a : 0 <= a -> n mod 256 ^ (a + 1) = ((n / 256 ^ a) mod 256) * 256 ^ a + n mod 256 ^ a.
Proof. intros A. rewrite Z.pow_add_r by lia. change (256 ^ 1) with 256. assert (0 < 256 ^ a) by (apply Z.pow_pos_nonneg; lia). rewrite Z.rem_mul_r by lia. lia. Qed.
Lemma low64_val n : be_val (low64 n) = n mod 256 ^ 8.
Proof.
  unfold low64. cbn [map be_val]. unfold zlen. cbn [length]. cbn [Z.of_nat Pos.of_succ_nat Pos.succ].
  change (n mod 256 ^ 8) with (n mod 256 ^ (7 + 1)). rewrite (low_step n 7) by lia. change (n mod 256 ^ 7) with (n mod 256 ^ (6 + 1)). rewrite (low_step n 6) by lia. change (n mod 256 ^ 6) with (n mod 256 ^ (5 + 1)). rewrite (low_step n 5) by lia. change (n mod 256 ^ 5) with (n mod 256 ^ (4 + 1)). rewrite (low_step n 4) by lia. change (n mod 256 ^ 4) with (n mod 256 ^ (3 + 1)). rewrite (low_step n 3) by lia. change (n mod 256 ^ 3) with (n mod 256 ^ (2 + 1)). rewrite (low_step n 2) by lia. change (n mod 256 ^ 2) with (n mod 256 ^ (1 + 1)). rewrite (low_step n 1) by lia. change (n mod 256 ^ 1) with (n mod 256 ^ (0 + 1)). rewrite (low_step n 0) by lia.
  change (256 ^ 0) with 1. rewrite Z.mod_1_r. ring.
Qed.
(** The key id of a version 2 or 3 key object: the low-order 64 bits of the modulus (of the prime, for the algorithms that have no modulus). *)
Theorem c114_version3_key_id : forall fl md5 sha1 v ct alg exp n ms k, rfc_key v ct alg exp (n :: ms) = Some k -> v < 4 -> 0 <= n -> obj_key_id fl md5 sha1 k = Ok (hex_text (low64 n)).
Proof.
  intros fl md5 sha1 v ct alg exp n ms k K V N. destruct (first_number _ _ _ _ _ _ _ K) as (_ & F & Ev & _). unfold obj_key_id. rewrite Ev. replace (v <? 4) with true by lia. rewrite F. f_equal. rewrite int_to_hex_spec by lia.
  assert (W : wf (low64 n)). { unfold low64. apply Forall_map, Forall_forall. intros i _. unfold byte. apply Z.mod_pos_bound. lia. }
  rewrite (hex_text_fixed (low64 n) W). change (2 * length (low64 n))%nat with 16%nat. change (Z.to_nat 16) with 16%nat.
  rewrite low64_val. change (256 ^ 8) with (16 ^ Z.of_nat 16). symmetry. apply hex_fixed_mod. lia.
Qed.
Print Assumptions c114_version3_key_id.

(** Expiration. Setting one on a version 2 or 3 key and reading it gives it back. *)
Theorem c114_expiration_set_partial : forall k e k', is_v23 (k_version (ko_pub k)) = true -> set_expiration k e = Ok k' ->
  get_expiration k' = e /\ ko_pub k' = ko_pub k /\ ko_created k' = ko_created k /\ ko_fmt k' = ko_fmt k /\ ko_sec k' = ko_sec k.
Proof. intros k e k' V. unfold set_expiration, get_expiration. rewrite V. intros H. injection H as <-. cbn [ko_pub ko_expires ko_created ko_fmt ko_sec]. rewrite V. auto. Qed.
Print Assumptions c114_expiration_set_partial.
(** refuted: the expiration a version 2 or 3 key packet carries is not what the key read from it reports, whatever number of days it is *)
Theorem c114_expiration_read_refuted : forall local f sub secret v ct alg d ms k o, rfc_key v ct alg (Some d) ms = Some k -> v < 4 ->
  key_from local secret (Pkt f (BPub sub k)) = Ok o -> get_expiration o = None /\ k_exp (ko_pub o) = Some d.
Proof.
  intros local f sub secret v ct alg d ms k o K V. unfold key_from. cbn [p_body p_fmt]. destruct secret; [discriminate|]. unfold key_from_pub. destruct (local (k_ctime k)) as [c|x]; [|discriminate]. cbn [bind]. intros H.
  destruct ms as [|n ms]; [discriminate|]. destruct (first_number _ _ _ _ _ _ _ K) as (_ & _ & Ev & _ & _ & Ee). rewrite Ev in H. replace (v <? 4) with true in H by lia. injection H as <-. unfold get_expiration. cbn [ko_pub ko_expires]. rewrite Ee.
  destruct (is_v23 (k_version k)); auto.
Qed.
Print Assumptions c114_expiration_read_refuted.
(** refuted: no key can be given an expiration and used afterwards. Version 4 keys refuse any value, and a version 2 or 3 key with one can no
    longer be turned into a packet *)
Theorem c114_expiration_set_refuted : forall k e, (4 <= k_version (ko_pub k) -> set_expiration k e = Err AttributeError) /\
  (forall t k' sub mktime, is_v23 (k_version (ko_pub k)) = true -> e = Some t -> set_expiration k e = Ok k' -> forall p, key_to mktime sub k' <> Ok p).
Proof.
  intros k e. split.
  - intros V. unfold set_expiration, is_v23. replace ((k_version (ko_pub k) =? 2) || (k_version (ko_pub k) =? 3)) with false by lia. replace (4 <=? k_version (ko_pub k)) with true by lia. reflexivity.
  - intros t k' sub mktime V -> H p. unfold set_expiration in H. rewrite V in H. injection H as <-. unfold key_to. cbn [ko_created ko_pub ko_expires]. destruct (mktime (ko_created k)) as [c|x]; [|discriminate]. cbn [bind].
    rewrite V. assert (L : k_version (ko_pub k) <? 4 = true) by (unfold is_v23 in V; lia). rewrite L. cbn [andb bind]. discriminate.
Qed.
Print Assumptions c114_expiration_set_refuted.

(** a version 3 key with the modulus 259 (9 bits) and 30 days, read from its octets *)
Definition obj_body : bytes := [3; 0; 0; 0; 9; 0; 30; 1; 0; 9; 1; 3; 0; 2; 3].
Definition obj_key : pubkey := PubKey 3 9 1 (Some 30) (Some 259) (Some 3) None None None None.
Example obj_read : pub_from_content obj_body = Ok obj_key /\ rfc_key 3 9 1 (Some 30) [259; 3] = Some obj_key /\ rfc_pub_body 3 9 1 (Some 30) [[0; 9; 1; 3]; [0; 2; 3]] = obj_body.
Proof. vm_compute. auto. Qed.
Example obj_not_power : ceiling_log 259 9 /\ ~ power_of_two 259 /\ has_bits 259 9.
Proof.
  split; [|split].
  - unfold ceiling_log. split; [lia|]. split; [intros _; reflexivity|lia].
  - intros (j & J & E). destruct (Z.le_gt_cases j 8) as [L|L].
    + assert (2 ^ j <= 2 ^ 8) by (apply Z.pow_le_mono_r; lia). change (2 ^ 8) with 256 in *. lia.
    + assert (2 ^ 9 <= 2 ^ j) by (apply Z.pow_le_mono_r; lia). change (2 ^ 9) with 512 in *. lia.
  - unfold has_bits. change (2 ^ (9 - 1)) with 256. change (2 ^ 9) with 512. lia.
Qed.
Example obj_reports : key_bits Z.log2_up obj_key = Ok 9 /\ obj_key_id Z.log2 (fun x => x) (fun x => x) obj_key = Ok (str "0000000000000103") /\ low64 259 = [0; 0; 0; 0; 0; 0; 1; 3] /\
  ceiling_log 256 (Z.log2_up 256) /\ key_bits Z.log2_up (PubKey 3 9 1 (Some 30) (Some 256) (Some 3) None None None None) = Ok 8 /\ has_bits 256 9.
Proof. vm_compute. intuition discriminate. Qed.
Example obj_expiration : exists o o', key_from (fun t => Ok (t * 1000000)) false (Pkt NewH (BPub false obj_key)) = Ok o /\ get_expiration o = None /\
  set_expiration o (Some 42) = Ok o' /\ get_expiration o' = Some 42 /\ key_to (fun t => Ok (t / 1000000)) false o' = Err TypeError /\
  key_to (fun t => Ok (t / 1000000)) false o <> Err TypeError.
Proof. do 2 eexists. split; [vm_compute; reflexivity|]. split; [vm_compute; reflexivity|]. split; [vm_compute; reflexivity|]. split; [vm_compute; reflexivity|]. split; [vm_compute; reflexivity|]. vm_compute. discriminate. Qed.
