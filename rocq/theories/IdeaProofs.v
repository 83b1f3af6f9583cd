From Verif Require Import Base BaseProofs Spec Utils UtilsProofs Idea SpecIdea.

Definition w16 (x : Z) : Prop := 0 <= x < 65536.
Lemma land_16 x : Z.land x 65535 = x mod 65536.
Proof. change 65535 with (Z.ones 16). rewrite Z.land_ones by lia. reflexivity. Qed.
Lemma lxor_mod16 a b : (Z.lxor a b) mod 65536 = Z.lxor (a mod 65536) (b mod 65536).
Proof.
  rewrite <- !land_16. apply Z.bits_inj'. intros n Hn. rewrite !Z.land_spec, !Z.lxor_spec, !Z.land_spec.
  destruct (Z.testbit a n), (Z.testbit b n), (Z.testbit 65535 n); reflexivity.
Qed.
Lemma w16_mod x : w16 (x mod 65536). Proof. unfold w16. apply Z.mod_pos_bound. lia. Qed.
Lemma lxor_w16 a b : w16 a -> w16 b -> w16 (Z.lxor a b).
Proof.
  unfold w16. intros Ha Hb. rewrite <- (Z.mod_small a 65536), <- (Z.mod_small b 65536), <- lxor_mod16 by lia. apply w16_mod.
Qed.

(** ** multiplicative inverses: every one of the 65536 words is checked by computation in the kernel *)
Definition inv_ok (x : Z) : bool :=
  match mul_inv x with Ok y => (0 <=? y) && (y <? 65536) && ((rep x * rep y) mod 65537 =? 1) | Err _ => false end.
Fixpoint check_from (n : nat) (x : Z) : bool := match n with O => true | S n' => inv_ok x && check_from n' (x + 1) end.
Lemma check_from_ok n : forall x, check_from n x = true -> forall y, x <= y < x + Z.of_nat n -> inv_ok y = true.
Proof.
  induction n as [|n IH]; intros x H y Hy; [lia|]. cbn [check_from] in H. apply andb_true_iff in H. destruct H as [H1 H2].
  destruct (Z.eq_dec y x) as [->|]; [exact H1|]. apply (IH (x + 1) H2). lia.
Qed.
Lemma inv_all : check_from (Z.to_nat 65536) 0 = true. Proof. vm_compute. reflexivity. Qed.
Lemma mul_inv_ok x : w16 x -> exists y, mul_inv x = Ok y /\ w16 y /\ (rep x * rep y) mod 65537 = 1.
Proof.
  intros Hx. pose proof (check_from_ok _ _ inv_all x ltac:(rewrite Z2Nat.id by lia; unfold w16 in Hx; lia)) as H. unfold inv_ok in H.
  destruct (mul_inv x) as [y|]; [|discriminate]. exists y. split; [reflexivity|]. unfold w16. lia.
Qed.
Lemma rep_range x : w16 x -> 1 <= rep x <= 65536.
Proof. unfold w16, rep. destruct (x =? 0) eqn:E; lia. Qed.
Lemma rep_mod x : 1 <= x <= 65536 -> rep (x mod 65536) = x.
Proof.
  intros H. unfold rep. destruct (Z.eq_dec x 65536) as [->|]; [reflexivity|]. rewrite Z.mod_small by lia.
  destruct (x =? 0) eqn:E; lia.
Qed.
Lemma rep_mod16 x : w16 x -> rep x mod 65536 = x.
Proof. unfold w16, rep. intros. destruct (x =? 0) eqn:E; [cbn; lia|]. apply Z.mod_small; lia. Qed.
Lemma unit_prod a b : 1 <= a <= 65536 -> 1 <= b <= 65536 -> 1 <= (a * b) mod 65537 <= 65536.
Proof.
  intros Ha Hb. pose proof (Z.mod_pos_bound (a * b) 65537 ltac:(lia)).
  destruct (Z.eq_dec ((a * b) mod 65537) 0) as [H0|]; [|lia]. exfalso.
  destruct (mul_inv_ok (a mod 65536) (w16_mod a)) as (y & _ & _ & Hy). rewrite rep_mod in Hy by easy.
  assert (H1 : ((a * rep y) * b) mod 65537 = b mod 65537).
  { rewrite Z.mul_mod, Hy, Z.mul_1_l, Z.mod_mod by lia. reflexivity. }
  replace ((a * rep y) * b) with (a * b * rep y) in H1 by lia. rewrite Z.mul_mod, H0 in H1 by lia.
  rewrite Z.mod_small in H1 by lia. rewrite (Z.mod_small b) in H1 by lia. lia.
Qed.

Lemma mul_spec x y : (mul x y) mod 65536 = imul (x mod 65536) (y mod 65536).
Proof.
  unfold mul. rewrite !land_16, Z.shiftr_div_pow2 by lia. change (2 ^ 16) with 65536.
  assert (Hp : forall z, (z - 1) mod 65536 = rep (z mod 65536) - 1).
  { intros z. unfold rep. destruct (z mod 65536 =? 0) eqn:E; lia. }
  rewrite (Hp x), (Hp y). unfold imul.
  pose proof (rep_range _ (w16_mod x)) as Ha. pose proof (rep_range _ (w16_mod y)) as Hb.
  set (a := rep (x mod 65536)) in *. set (b := rep (y mod 65536)) in *. clearbody a b. clear Hp.
  replace ((a - 1) * (b - 1) + (a - 1) + (b - 1)) with (a * b - 1) by lia.
  pose proof (unit_prod a b Ha Hb) as Hu. assert (1 <= a * b <= 65536 * 65536) by nia.
  set (m := a * b) in *. clearbody m.
  assert (Hm : m mod 65537 = m - 65537 * (m / 65537)) by (apply Z.mod_eq; lia).
  set (lo := (m - 1) mod 65536). set (hi := (m - 1) / 65536).
  assert (Hlh : m - 1 = 65536 * hi + lo) by (unfold hi, lo; apply Z.div_mod; lia).
  assert (Hlo : 0 <= lo < 65536) by (apply Z.mod_pos_bound; lia). clearbody lo hi.
  destruct (lo <? hi) eqn:E.
  - assert (m / 65537 = hi - 1) by lia. rewrite Hm. replace (m - 65537 * (m / 65537)) with ((lo - hi + 1 + 1) + 1 * 65536) by lia.
    now rewrite Z.mod_add by lia.
  - assert (m / 65537 = hi) by lia. rewrite Hm. f_equal. lia.
Qed.

(** ** the group of words under [imul] *)
Lemma imul_w16 a b : w16 (imul a b). Proof. apply w16_mod. Qed.
Lemma rep_imul a b : w16 a -> w16 b -> rep (imul a b) = (rep a * rep b) mod 65537.
Proof. intros Ha Hb. unfold imul. apply rep_mod. apply unit_prod; now apply rep_range. Qed.
Lemma imul_assoc a b c : w16 a -> w16 b -> w16 c -> imul (imul a b) c = imul a (imul b c).
Proof.
  intros Ha Hb Hc. unfold imul at 1 3. rewrite !rep_imul by easy.
  rewrite Z.mul_mod_idemp_l, Z.mul_mod_idemp_r by lia. now rewrite Z.mul_assoc.
Qed.
Lemma imul_comm a b : imul a b = imul b a.
Proof. unfold imul. now rewrite Z.mul_comm. Qed.
Lemma imul_1 a : w16 a -> imul a 1 = a.
Proof.
  intros Ha. unfold imul. change (rep 1) with 1. rewrite Z.mul_1_r, (Z.mod_small _ 65537) by (pose proof (rep_range a Ha); lia).
  now apply rep_mod16.
Qed.
Definition inv_word (x : Z) : Z := match mul_inv x with Ok y => y | Err _ => 0 end.
Lemma inv_word_ok x : w16 x -> mul_inv x = Ok (inv_word x) /\ w16 (inv_word x) /\ imul x (inv_word x) = 1.
Proof.
  intros Hx. destruct (mul_inv_ok x Hx) as (y & E & Hy & H1). unfold inv_word. rewrite E. repeat split; try apply Hy.
  unfold imul. now rewrite H1.
Qed.
Lemma imul_cancel x k : w16 x -> w16 k -> imul (imul x k) (inv_word k) = x.
Proof. intros Hx Hk. destruct (inv_word_ok k Hk) as (_ & H1 & H2). rewrite imul_assoc, H2 by easy. now apply imul_1. Qed.
Lemma iadd_cancel x k : w16 x -> iadd (iadd x k) (neg16 k) = x.
Proof. unfold iadd, neg16, w16. rewrite land_16. intros. lia. Qed.

(** ** layers *)
Definition wok (s : words) : Prop := let '(a, b, c, d) := s in w16 a /\ w16 b /\ w16 c /\ w16 d.
Lemma key_layer_ok k0 k1 k2 k3 s : wok (key_layer k0 k1 k2 k3 s).
Proof. destruct s as [[[a b] c] d]. cbn. repeat split; try apply imul_w16; apply w16_mod. Qed.
Lemma ma_layer_ok k4 k5 s : wok s -> wok (ma_layer k4 k5 s).
Proof.
  destruct s as [[[a b] c] d]. cbn. intros (H1 & H2 & H3 & H4).
  repeat split; apply lxor_w16; try assumption; first [apply imul_w16|apply w16_mod].
Qed.
Lemma swap_ok s : wok s -> wok (swap_mid s).
Proof. destruct s as [[[a b] c] d]. cbn. tauto. Qed.
Lemma swap_swap s : swap_mid (swap_mid s) = s.
Proof. now destruct s as [[[a b] c] d]. Qed.
Lemma lxor_inv2 a b c : Z.lxor (Z.lxor a c) (Z.lxor b c) = Z.lxor a b.
Proof. rewrite (Z.lxor_comm b c), Z.lxor_assoc, <- (Z.lxor_assoc c c b), Z.lxor_nilpotent, Z.lxor_0_l. reflexivity. Qed.
Lemma ma_invol k4 k5 s : ma_layer k4 k5 (ma_layer k4 k5 s) = s.
Proof.
  destruct s as [[[a b] c] d]. cbn. rewrite !lxor_inv2.
  rewrite !Z.lxor_assoc, !Z.lxor_nilpotent, !Z.lxor_0_r. reflexivity.
Qed.
Lemma key_layer_inv k0 k1 k2 k3 s : w16 k0 -> w16 k3 -> wok s ->
  key_layer (inv_word k0) (neg16 k1) (neg16 k2) (inv_word k3) (key_layer k0 k1 k2 k3 s) = s.
Proof.
  intros H0 H3. destruct s as [[[a b] c] d]. cbn. intros (Ha & Hb & Hc & Hd).
  now rewrite !imul_cancel, !iadd_cancel by assumption.
Qed.
Lemma key_layer_inv_swapped k0 k1 k2 k3 s : w16 k0 -> w16 k3 -> wok s ->
  key_layer (inv_word k0) (neg16 k2) (neg16 k1) (inv_word k3) (swap_mid (key_layer k0 k1 k2 k3 s)) = swap_mid s.
Proof.
  intros H0 H3. destruct s as [[[a b] c] d]. cbn. intros (Ha & Hb & Hc & Hd).
  now rewrite !imul_cancel, !iadd_cancel by assumption.
Qed.

(** ** decryption subkeys *)
Definition dkey (k : nat -> Z) (i : nat) : Z :=
  let r := (i / 6)%nat in                 (* round, 8 for the output transformation *)
  let e := (6 * (8 - r))%nat in           (* the key layer to undo *)
  match (i mod 6)%nat with
  | O => inv_word (k e)
  | 1%nat => if (r =? 0)%nat || (r =? 8)%nat then neg16 (k (e + 1)%nat) else neg16 (k (e + 2)%nat)
  | 2%nat => if (r =? 0)%nat || (r =? 8)%nat then neg16 (k (e + 2)%nat) else neg16 (k (e + 1)%nat)
  | 3%nat => inv_word (k (e + 3)%nat)
  | 4%nat => k (6 * (7 - r) + 4)%nat
  | _ => k (6 * (7 - r) + 5)%nat
  end.
Definition ka (k : nat -> Z) (r : nat) : words -> words :=
  key_layer (k (6 * r)%nat) (k (6 * r + 1)%nat) (k (6 * r + 2)%nat) (k (6 * r + 3)%nat).
Definition ma (k : nat -> Z) (r : nat) : words -> words := ma_layer (k (6 * r + 4)%nat) (k (6 * r + 5)%nat).
Definition ka_inv (k : nat -> Z) (r : nat) : words -> words :=
  key_layer (inv_word (k (6 * r)%nat)) (neg16 (k (6 * r + 1)%nat)) (neg16 (k (6 * r + 2)%nat)) (inv_word (k (6 * r + 3)%nat)).
Definition ka_inv_sw (k : nat -> Z) (r : nat) : words -> words :=
  key_layer (inv_word (k (6 * r)%nat)) (neg16 (k (6 * r + 2)%nat)) (neg16 (k (6 * r + 1)%nat)) (inv_word (k (6 * r + 3)%nat)).
Lemma round_eq k r s : idea_round k r s = swap_mid (ma k r (ka k r s)). Proof. reflexivity. Qed.
Lemma dround_mid k j s : (1 <= j <= 7)%nat -> idea_round (dkey k) j s = swap_mid (ma k (7 - j) (ka_inv_sw k (8 - j) s)).
Proof. intros H. destruct j as [|[|[|[|[|[|[|[|j]]]]]]]]; try lia; reflexivity. Qed.
Lemma dround_0 k s : idea_round (dkey k) 0 s = swap_mid (ma k 7 (ka_inv k 8 s)).
Proof. reflexivity. Qed.
Lemma round_wok k r s : wok (idea_round k r s).
Proof. rewrite round_eq. apply swap_ok, ma_layer_ok, key_layer_ok. Qed.
Lemma dstep k j t : (forall i, (i < 52)%nat -> w16 (k i)) -> (1 <= j <= 7)%nat ->
  idea_round (dkey k) j (swap_mid (ka k (8 - j) (idea_round k (7 - j) t))) = swap_mid (ka k (7 - j) t).
Proof.
  intros Hk Hj. rewrite dround_mid by easy. unfold ka at 1, ka_inv_sw. rewrite key_layer_inv_swapped.
  - rewrite round_eq, swap_swap. unfold ma. now rewrite ma_invol.
  - apply Hk. lia.
  - apply Hk. lia.
  - apply round_wok.
Qed.
Lemma idea_inv k s : (forall i, (i < 52)%nat -> w16 (k i)) -> wok s -> idea_words (dkey k) (idea_words k s) = s.
Proof.
  intros Hk Hs. unfold idea_words. cbn [seq fold_left].
  change (key_layer (k 48%nat) (k 49%nat) (k 50%nat) (k 51%nat)) with (ka k 8).
  rewrite dround_0.
  replace (ka_inv k 8 (ka k 8 (swap_mid (idea_round k 7 (idea_round k 6 (idea_round k 5 (idea_round k 4 (idea_round k 3 (idea_round k 2 (idea_round k 1 (idea_round k 0 s))))))))))
    ) with (swap_mid (idea_round k 7 (idea_round k 6 (idea_round k 5 (idea_round k 4 (idea_round k 3 (idea_round k 2 (idea_round k 1 (idea_round k 0 s)))))))))
    by (symmetry; apply key_layer_inv; [apply Hk; lia|apply Hk; lia|apply swap_ok, round_wok]).
  rewrite (round_eq k 7), swap_swap. unfold ma at 1. unfold ma at 1. rewrite ma_invol.
  rewrite (dstep k 1 _ Hk ltac:(lia) : idea_round (dkey k) 1 (swap_mid (ka k 7 (idea_round k 6 _))) = swap_mid (ka k 6 _)).
  rewrite (dstep k 2 _ Hk ltac:(lia) : idea_round (dkey k) 2 (swap_mid (ka k 6 (idea_round k 5 _))) = swap_mid (ka k 5 _)).
  rewrite (dstep k 3 _ Hk ltac:(lia) : idea_round (dkey k) 3 (swap_mid (ka k 5 (idea_round k 4 _))) = swap_mid (ka k 4 _)).
  rewrite (dstep k 4 _ Hk ltac:(lia) : idea_round (dkey k) 4 (swap_mid (ka k 4 (idea_round k 3 _))) = swap_mid (ka k 3 _)).
  rewrite (dstep k 5 _ Hk ltac:(lia) : idea_round (dkey k) 5 (swap_mid (ka k 3 (idea_round k 2 _))) = swap_mid (ka k 2 _)).
  rewrite (dstep k 6 _ Hk ltac:(lia) : idea_round (dkey k) 6 (swap_mid (ka k 2 (idea_round k 1 _))) = swap_mid (ka k 1 _)).
  rewrite (dstep k 7 _ Hk ltac:(lia) : idea_round (dkey k) 7 (swap_mid (ka k 1 (idea_round k 0 _))) = swap_mid (ka k 0 _)).
  rewrite swap_swap.
  change (ka_inv k 0 (ka k 0 s) = s). apply key_layer_inv; [apply Hk; lia|apply Hk; lia|exact Hs].
Qed.
