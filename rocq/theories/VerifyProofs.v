(** Proofs about signing and verifying. *)
From Verif Require Import Base BaseProofs Spec Utils UtilsProofs Text S2k KeyPackets SigPackets KeyProofs Signable KeyOps SpecVerify.

Lemma b2i bs : bytes_to_int bs 0 (zlen bs) = Ok (be_val bs).
Proof. pose proof (bytes_to_int_spec [] bs [] (zlen bs) eq_refl) as E. cbn [app] in E. rewrite app_nil_r in E. exact E. Qed.

Lemma nbytes_octets n : 0 < n -> octets_of n (nbytes n).
Proof.
  intros Hn. unfold octets_of, nbytes, ceil8. pose proof (Z.log2_spec n Hn) as [L U]. pose proof (Z.log2_nonneg n).
  set (k := (Z.log2 n + 1 + 7) / 8). assert (K : 8 * (k - 1) <= Z.log2 n < 8 * k) by (unfold k; lia).
  split; [|lia]. change 256 with (2 ^ 8). rewrite <- !Z.pow_mul_r by lia. split.
  - apply Z.le_trans with (2 ^ Z.log2 n); [apply Z.pow_le_mono_r; lia|exact L].
  - apply Z.lt_le_trans with (2 ^ Z.succ (Z.log2 n)); [exact U|apply Z.pow_le_mono_r; lia].
Qed.
Lemma octets_unique n a b : octets_of n a -> octets_of n b -> a = b.
Proof.
  unfold octets_of. intros [[A1 A2] A] [[B1 B2] B].
  assert (a <= b). { destruct (Z.le_gt_cases a b); [easy|]. assert (256 ^ b <= 256 ^ (a - 1)) by (apply Z.pow_le_mono_r; lia). lia. }
  assert (b <= a). { destruct (Z.le_gt_cases b a); [easy|]. assert (256 ^ a <= 256 ^ (b - 1)) by (apply Z.pow_le_mono_r; lia). lia. }
  lia.
Qed.

Lemma all_eq_repeat {A} (x : A) l : Forall (eq x) l -> l = repeat x (length l).
Proof. induction 1 as [|y l <- _ IH]; cbn; congruence. Qed.
Lemma emsa_rfc oid k ha digest em : emsa oid k ha digest = Ok em <-> rfc_em k (oid ha ++ digest) em.
Proof.
  unfold emsa, rfc_em. set (t := oid ha ++ digest). clearbody t. split.
  - destruct (k <? zlen t + 11) eqn:E; [discriminate|]. intros Em. apply ok_inj in Em. subst em.
    exists (repeat 255 (Z.to_nat (k - zlen t - 3))). split; [reflexivity|]. split; [apply Forall_forall; intros x Hx; now apply repeat_spec in Hx|].
    pose proof (zlen_nonneg t). split; rewrite ?zlen_app; change (zlen [0; 1]) with 2; change (zlen [0]) with 1; rewrite zlen_repeat; lia.
  - intros (ps & -> & P & L & K). rewrite !zlen_app in K. change (zlen [0; 1]) with 2 in K. change (zlen [0]) with 1 in K.
    assert (E : (k <? zlen t + 11) = false) by lia. rewrite E. f_equal. cbn [app]. do 2 f_equal. f_equal.
    rewrite (all_eq_repeat _ _ P) at 1. f_equal. unfold zlen in *. lia.
Qed.
Lemma emsa_wf oid k ha digest em : wf (oid ha ++ digest) -> emsa oid k ha digest = Ok em -> wf em.
Proof.
  unfold emsa. intros W. destruct (k <? _); [discriminate|]. intros [= <-].
  apply Forall_cons; [unfold byte; lia|]. apply Forall_cons; [unfold byte; lia|]. apply wf_app. split.
  - apply Forall_forall. intros x Hx. apply repeat_spec in Hx as ->. unfold byte. lia.
  - apply Forall_cons; [unfold byte; lia|exact W].
Qed.
Lemma emsa_len oid k ha digest em : emsa oid k ha digest = Ok em -> zlen em = k.
Proof. intros E. apply emsa_rfc in E as (ps & _ & _ & _ & L). exact L. Qed.
Lemma be_val_lt bs : wf bs -> 0 <= be_val bs < 256 ^ zlen bs.
Proof. exact (be_val_nonneg bs). Qed.
Lemma emsa_val oid n ha digest em : 0 < n -> wf (oid ha ++ digest) -> emsa oid (nbytes n) ha digest = Ok em -> 0 <= be_val em < n.
Proof.
  intros Hn W E. pose proof (nbytes_octets n Hn) as [[L _] K]. pose proof (emsa_wf _ _ _ _ _ W E) as Wem. pose proof (emsa_len _ _ _ _ _ E) as El.
  apply emsa_rfc in E as (ps & -> & _).
  change ([0; 1] ++ ps ++ [0] ++ oid ha ++ digest) with (0 :: [1] ++ ps ++ [0] ++ oid ha ++ digest) in *.
  set (rest := [1] ++ ps ++ [0] ++ oid ha ++ digest) in *. inversion Wem as [|? ? _ Wr]; subst. cbn [be_val].
  pose proof (be_val_lt rest Wr) as B. rewrite zlen_cons in El. replace (nbytes n - 1) with (zlen rest) in L by lia. lia.
Qed.

Lemma be_bytes_of_val k bs : wf bs -> zlen bs = Z.of_nat k -> be_bytes k (be_val bs) = bs.
Proof.
  intros W L. apply be_val_inj; [apply be_bytes_wf|exact W|now rewrite be_bytes_len|].
  rewrite be_bytes_val. apply Z.mod_small. rewrite <- L. now apply be_val_lt.
Qed.

(** RSA *)
Lemma long_to_bytes_len i : 0 < i -> zlen (long_to_bytes i) = nbytes i.
Proof.
  intros Hi. unfold long_to_bytes. replace (i =? 0) with false by lia. rewrite be_bytes_len.
  pose proof (nbytes_octets i Hi) as [_ K]. lia.
Qed.
Lemma long_to_bytes_val i : 0 <= i -> be_val (long_to_bytes i) = i.
Proof.
  intros Hi. unfold long_to_bytes. destruct (i =? 0) eqn:E; [cbn; lia|]. rewrite be_bytes_val.
  pose proof (nbytes_octets i ltac:(lia)) as [[_ U] K]. rewrite Z2Nat.id by lia. apply Z.mod_small. lia.
Qed.
Lemma rsa_verify_iff oid n e ha digest s : 1 < n -> 0 <= s -> wf (oid ha ++ digest) ->
  rsa_verify oid n e ha digest (long_to_bytes s) = Ok true <->
  (256 ^ (nbytes n - 1) <= s < 256 ^ nbytes n \/ (s = 0 /\ nbytes n = 1)) /\ exists em, rfc_em (nbytes n) (oid ha ++ digest) em /\ s ^ e mod n = be_val em.
Proof.
  intros Hn Hs W. unfold rsa_verify. pose proof (nbytes_octets n ltac:(lia)) as ON.
  assert (Len : (zlen (long_to_bytes s) =? nbytes n) = true <-> 256 ^ (nbytes n - 1) <= s < 256 ^ nbytes n \/ (s = 0 /\ nbytes n = 1)).
  { rewrite Z.eqb_eq. destruct (Z.eq_dec s 0) as [->|N].
    - change (zlen (long_to_bytes 0)) with 1. destruct ON as [_ K].
      assert (0 < 256 ^ (nbytes n - 1)) by (apply Z.pow_pos_nonneg; lia). lia.
    - rewrite long_to_bytes_len by lia. pose proof (nbytes_octets s ltac:(lia)) as OS. split.
      + intros E. rewrite <- E. left. apply OS.
      + intros [B|[B _]]; [|lia]. apply (octets_unique s); [exact OS|]. split; [exact B|apply ON]. }
  destruct (zlen (long_to_bytes s) =? nbytes n); cbn [negb].
  2: { split; [discriminate|]. intros [B _]. apply Len in B. discriminate. }
  split.
  - intros E. split; [now apply Len|]. rewrite b2i in E. cbn [bind] in E. rewrite long_to_bytes_val in E by lia.
    destruct (emsa oid (nbytes n) ha digest) as [em|] eqn:Eem; [|discriminate].
    apply ok_inj in E. apply zlist_eqb_spec in E. exists em. split; [now apply emsa_rfc in Eem|].
    rewrite <- E, be_bytes_val, Zpow_mod_correct by lia. destruct ON as [[_ U] K]. rewrite Z2Nat.id by lia.
    symmetry. apply Z.mod_small. pose proof (Z.mod_pos_bound (s ^ e) n ltac:(lia)). lia.
  - intros (_ & em & R & V). apply emsa_rfc in R. rewrite b2i. cbn [bind]. rewrite long_to_bytes_val, R by lia. f_equal.
    apply zlist_eqb_spec. rewrite Zpow_mod_correct, V by lia. apply be_bytes_of_val; [eapply emsa_wf; eassumption|].
    rewrite (emsa_len _ _ _ _ _ R). destruct ON as [_ K]. lia.
Qed.

(** DSA *)
Lemma pow_congr g p q a b : 1 < p -> 0 < q -> g ^ q mod p = 1 -> 0 <= a -> 0 <= b -> a mod q = b mod q -> g ^ a mod p = g ^ b mod p.
Proof.
  intros Hp Hq G Ha Hb E.
  assert (R : forall a, 0 <= a -> g ^ a mod p = g ^ (a mod q) mod p).
  { intros c Hc. rewrite (Z.div_mod c q) at 1 by lia. pose proof (Z.div_pos c q Hc Hq). pose proof (Z.mod_pos_bound c q Hq).
    rewrite Z.pow_add_r, Z.pow_mul_r by lia. rewrite Z.mul_mod by lia.
    rewrite (Zpower_mod (g ^ q)) by lia. rewrite G, Z.pow_1_l by lia. rewrite (Z.mod_small 1) by lia. rewrite Z.mul_1_l, Z.mod_mod by lia. reflexivity. }
  rewrite (R a Ha), (R b Hb), E. reflexivity.
Qed.
Lemma dsa_correct p q g x m k w ki : 1 < p -> 1 < q -> g ^ q mod p = 1 -> 0 <= x -> 0 <= m -> 0 < k < q ->
  (k * ki) mod q = 1 ->
  let r := (g ^ k mod p) mod q in
  let s := (ki * (m + x * r)) mod q in
  (s * w) mod q = 1 ->
  ((g ^ ((m * w) mod q)) * ((g ^ x mod p) ^ ((r * w) mod q))) mod p mod q = r.
Proof.
  intros Hp Hq G Hx Hm Hk Ki. assert (Q0 : q <> 0) by lia. assert (P0 : p <> 0) by lia. assert (Qp : 0 < q) by lia. assert (K0 : 0 <= k) by lia.
  intros r s W.
  pose proof (Z.mod_pos_bound (m * w) q Qp) as [B1 _]. pose proof (Z.mod_pos_bound (r * w) q Qp) as [B2 _].
  set (u1 := (m * w) mod q) in *. set (u2 := (r * w) mod q) in *.
  pose proof (Z.mul_nonneg_nonneg x u2 Hx B2) as N2.
  assert (P : (g ^ u1 * (g ^ x mod p) ^ u2) mod p = g ^ (u1 + x * u2) mod p).
  { rewrite Z.pow_add_r, Z.pow_mul_r by assumption. rewrite (Z.mul_mod (g ^ u1) ((g ^ x) ^ u2)) by assumption.
    rewrite (Zpower_mod (g ^ x)) by (clear - Hp; lia). rewrite (Z.mul_mod (g ^ u1)) by assumption. reflexivity. }
  rewrite P. unfold r. f_equal.
  apply (pow_congr g p q _ _ Hp Qp G (Z.add_nonneg_nonneg _ _ B1 N2) K0).
  (* u1 + x u2 = k mod q *)
  assert (E1 : (u1 + x * u2) mod q = ((m + x * r) * w) mod q).
  { unfold u1, u2. rewrite Z.add_mod_idemp_l by exact Q0. rewrite Z.add_mod, Z.mul_mod_idemp_r, <- Z.add_mod by exact Q0. f_equal. ring. }
  rewrite E1.
  assert (E2 : (k * s) mod q = (m + x * r) mod q).
  { unfold s. rewrite Z.mul_mod_idemp_r by exact Q0. replace (k * (ki * (m + x * r))) with ((k * ki) * (m + x * r)) by ring.
    rewrite <- Z.mul_mod_idemp_l, Ki, Z.mul_1_l by exact Q0. reflexivity. }
  rewrite <- Z.mul_mod_idemp_l, <- E2, Z.mul_mod_idemp_l by exact Q0. replace (k * s * w) with (k * (s * w)) by ring.
  rewrite <- Z.mul_mod_idemp_r, W, Z.mul_1_r by exact Q0. reflexivity.
Qed.
Lemma inv_unique q s w w' : 1 < q -> (s * w) mod q = 1 -> (s * w') mod q = 1 -> w mod q = w' mod q.
Proof.
  intros Hq. assert (Q0 : q <> 0) by lia. intros E E'.
  assert (A : (w * (s * w')) mod q = w mod q). { rewrite <- Z.mul_mod_idemp_r, E', Z.mul_1_r by exact Q0. reflexivity. }
  assert (B : (w' * (s * w)) mod q = w' mod q). { rewrite <- Z.mul_mod_idemp_r, E, Z.mul_1_r by exact Q0. reflexivity. }
  rewrite <- A, <- B. f_equal. ring.
Qed.
Lemma dsa_verify_iff inv p q g y m r s : 1 < p -> 1 < q -> (forall a, 0 < a < q -> (a * inv a q) mod q = 1) ->
  dsa_verify inv p q g y m r s = true <->
  0 < r < q /\ 0 < s < q /\ exists w, (s * w) mod q = 1 /\ (g ^ ((m * w) mod q) * y ^ ((r * w) mod q)) mod p mod q = r.
Proof.
  intros Hp Hq I. assert (Q0 : q <> 0) by lia. assert (P0 : p <> 0) by lia. unfold dsa_verify.
  destruct (negb ((0 <? r) && (r <? q)) || negb ((0 <? s) && (s <? q))) eqn:E.
  { split; [discriminate|]. intros (A & B & _). lia. }
  rewrite Z.eqb_eq, !Zpow_mod_correct, <- Z.mul_mod by assumption. split.
  - intros V. split; [lia|]. split; [lia|]. exists (inv s q). split; [apply I; lia|exact V].
  - intros (A & B & w & W & V). pose proof (inv_unique q s _ _ Hq W (I s B)) as U.
    rewrite <- (Z.mul_mod_idemp_r m (inv s q)), <- (Z.mul_mod_idemp_r r (inv s q)), <- U, !Z.mul_mod_idemp_r by exact Q0. exact V.
Qed.
