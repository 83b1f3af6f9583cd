From Verif Require Import Base BaseProofs Crc24 SpecCrc FramingProofs UtilsProofs.

Definition u24 (x : Z) : Prop := 0 <= x < 16777216.

Lemma crc_table_length : length CRC_24_TABLE = 256%nat. Proof. reflexivity. Qed.

(** bit 23 test *)
Lemma crc_bit_alt x : rfc_crc_bit x = Z.lxor (Z.shiftl x 1) (if Z.testbit x 23 then 25578747 else 0).
Proof.
  unfold rfc_crc_bit. change 16777216 with (2 ^ 24).
  assert (H : (Z.land (Z.shiftl x 1) (2 ^ 24) =? 0) = negb (Z.testbit x 23)).
  { replace (Z.testbit x 23) with (Z.testbit (Z.shiftl x 1) 24) by (rewrite Z.shiftl_spec by lia; reflexivity).
    generalize (Z.shiftl x 1) as y. intros y. destruct (Z.testbit y 24) eqn:E; cbn [negb].
    - apply Z.eqb_neq. intros H0. apply (f_equal (fun z => Z.testbit z 24)) in H0.
      rewrite Z.land_spec, E, Z.pow2_bits_true, Z.bits_0 in H0 by lia. discriminate.
    - apply Z.eqb_eq. apply Z.bits_inj. intros n. rewrite Z.land_spec, Z.bits_0.
      destruct (Z.eq_dec n 24) as [->|Hn]; [now rewrite E|].
      rewrite Z.pow2_bits_false by lia. apply andb_false_r. }
  rewrite H. destruct (Z.testbit x 23); cbn [negb]; [reflexivity|]. now rewrite Z.lxor_0_r.
Qed.
Lemma shiftl_lxor a b n : Z.shiftl (Z.lxor a b) n = Z.lxor (Z.shiftl a n) (Z.shiftl b n).
Proof. apply Z.shiftl_lxor. Qed.
Lemma crc_bit_lxor a b : rfc_crc_bit (Z.lxor a b) = Z.lxor (rfc_crc_bit a) (rfc_crc_bit b).
Proof.
  rewrite !crc_bit_alt, shiftl_lxor, Z.lxor_spec.
  set (x := Z.shiftl a 1). set (y := Z.shiftl b 1).
  destruct (Z.testbit a 23), (Z.testbit b 23); cbn [xorb]; rewrite ?Z.lxor_0_r; try easy.
  - rewrite <- !Z.lxor_assoc, (Z.lxor_assoc x _ y), (Z.lxor_comm 25578747 y), <- Z.lxor_assoc, Z.lxor_assoc, Z.lxor_nilpotent.
    now rewrite Z.lxor_0_r.
  - now rewrite !Z.lxor_assoc, (Z.lxor_comm 25578747 y).
  - now rewrite !Z.lxor_assoc.
Qed.
Lemma crc_bits_lxor n a b : Nat.iter n rfc_crc_bit (Z.lxor a b) = Z.lxor (Nat.iter n rfc_crc_bit a) (Nat.iter n rfc_crc_bit b).
Proof. induction n as [|n IH]; [reflexivity|]. cbn [Nat.iter nat_rect]. fold (Nat.iter n rfc_crc_bit). unfold Nat.iter in *. cbn. rewrite IH. apply crc_bit_lxor. Qed.

Lemma u24_bits x : 0 <= x -> (u24 x <-> forall n, 24 <= n -> Z.testbit x n = false).
Proof.
  intros Hx. unfold u24. split.
  - intros [_ H] n Hn. destruct (Z.eq_dec x 0) as [->|Hne]; [apply Z.bits_0|].
    apply Z.bits_above_log2; [lia|]. apply Z.lt_le_trans with 24; [|lia]. apply Z.log2_lt_pow2; [lia|]. exact H.
  - intros H. split; [easy|]. change 16777216 with (2 ^ 24).
    assert (E : x = x mod 2 ^ 24).
    { apply Z.bits_inj. intros n. destruct (Z.lt_ge_cases n 0); [now rewrite !Z.testbit_neg_r|].
      destruct (Z.lt_ge_cases n 24); [now rewrite Z.mod_pow2_bits_low|].
      rewrite Z.mod_pow2_bits_high by lia. now apply H. }
    rewrite E. apply Z.mod_pos_bound. lia.
Qed.
Lemma u24_lxor a b : u24 a -> u24 b -> u24 (Z.lxor a b).
Proof.
  intros Ha Hb. assert (0 <= Z.lxor a b) by (apply Z.lxor_nonneg; unfold u24 in *; lia).
  apply u24_bits; [easy|]. intros n Hn. rewrite Z.lxor_spec.
  apply u24_bits with (n := n) in Ha; [|unfold u24 in *; lia|lia]. apply u24_bits with (n := n) in Hb; [|unfold u24 in *; lia|lia].
  now rewrite Ha, Hb.
Qed.
Lemma crc_bit_u24 x : u24 x -> u24 (rfc_crc_bit x).
Proof.
  intros Hx. rewrite crc_bit_alt. assert (Hx0 : 0 <= x) by (unfold u24 in Hx; lia).
  assert (Hn : 0 <= Z.lxor (Z.shiftl x 1) (if Z.testbit x 23 then 25578747 else 0)).
  { apply Z.lxor_nonneg. split; intros _; [destruct (Z.testbit x 23); lia|]. now apply Z.shiftl_nonneg. }
  apply u24_bits; [exact Hn|]. intros n Hn'. rewrite Z.lxor_spec, Z.shiftl_spec by lia.
  destruct (Z.eq_dec n 24) as [->|Hne].
  - change (24 - 1) with 23. destruct (Z.testbit x 23); [|now rewrite Z.bits_0]. reflexivity.
  - rewrite (proj1 (u24_bits x Hx0) Hx (n - 1)) by lia.
    destruct (Z.testbit x 23); [|now rewrite Z.bits_0].
    rewrite Z.bits_above_log2; [reflexivity|lia|]. change (Z.log2 25578747) with 24. lia.
Qed.
Lemma crc_bits_u24 n x : u24 x -> u24 (Nat.iter n rfc_crc_bit x).
Proof. intros H. induction n as [|n IH]; [exact H|]. cbn. now apply crc_bit_u24. Qed.
(** one bit step is injective *)
Lemma crc_bit_zero x : u24 x -> rfc_crc_bit x = 0 -> x = 0.
Proof.
  intros Hx H. rewrite crc_bit_alt in H.
  assert (Hb : Z.testbit x 23 = false).
  { apply (f_equal (fun z => Z.testbit z 0)) in H. rewrite Z.lxor_spec, Z.shiftl_spec_low, Z.bits_0 in H by lia.
    destruct (Z.testbit x 23); [discriminate|reflexivity]. }
  rewrite Hb, Z.lxor_0_r, Z.shiftl_mul_pow2 in H by lia. lia.
Qed.
Lemma crc_bits_zero n x : u24 x -> Nat.iter n rfc_crc_bit x = 0 -> x = 0.
Proof.
  intros Hx. induction n as [|n IH]; [easy|]. cbn. intros H. apply IH. apply crc_bit_zero; [now apply crc_bits_u24|exact H].
Qed.
Lemma crc_bits_inj n x y : u24 x -> u24 y -> Nat.iter n rfc_crc_bit x = Nat.iter n rfc_crc_bit y -> x = y.
Proof.
  intros Hx Hy H. apply Z.lxor_eq. apply (crc_bits_zero n); [now apply u24_lxor|].
  rewrite crc_bits_lxor, H. apply Z.lxor_nilpotent.
Qed.
(** shifting by eight when nothing overflows *)
Lemma crc_bits_small n : forall x, 0 <= x -> x * 2 ^ Z.of_nat n < 16777216 -> Nat.iter n rfc_crc_bit x = x * 2 ^ Z.of_nat n.
Proof.
  induction n as [|n IH]; intros x Hx Hlt; [cbn; lia|].
  rewrite Nat2Z.inj_succ, Z.pow_succ_r in * by lia.
  change (Nat.iter (S n) rfc_crc_bit x) with (rfc_crc_bit (Nat.iter n rfc_crc_bit x)).
  assert (0 < 2 ^ Z.of_nat n) by (apply Z.pow_pos_nonneg; lia).
  rewrite IH by nia. rewrite crc_bit_alt.
  replace (Z.testbit (x * 2 ^ Z.of_nat n) 23) with false.
  - rewrite Z.lxor_0_r, Z.shiftl_mul_pow2 by lia. change (2 ^ 1) with 2. ring.
  - symmetry. destruct (Z.eq_dec (x * 2 ^ Z.of_nat n) 0) as [->|Hne]; [apply Z.bits_0|].
    apply Z.bits_above_log2; [nia|]. apply Z.log2_lt_pow2; [nia|]. change (2 ^ 23) with 8388608. nia.
Qed.

Lemma u24_byte_shift b k : byte b -> 0 <= k <= 16 -> u24 (Z.shiftl b k).
Proof.
  intros Hb Hk. unfold byte, u24 in *. rewrite Z.shiftl_mul_pow2 by lia.
  assert (0 < 2 ^ k) by (apply Z.pow_pos_nonneg; lia). assert (2 ^ k <= 2 ^ 16) by (apply Z.pow_le_mono_r; lia). nia.
Qed.
Lemma land_u24 x : Z.land x 16777215 = x mod 16777216.
Proof. change 16777215 with (Z.ones 24). rewrite Z.land_ones by lia. reflexivity. Qed.
Lemma rfc_octet_u24 s b : u24 s -> byte b -> u24 (rfc_crc_octet s b).
Proof. intros. unfold rfc_crc_octet. apply crc_bits_u24, u24_lxor; [easy|]. apply u24_byte_shift; [easy|lia]. Qed.

Lemma table_ok i : byte i -> nth (Z.to_nat i) CRC_24_TABLE 0 = Nat.iter 8 rfc_crc_bit (Z.shiftl i 16).
Proof.
  intros Hi. apply Z.eqb_eq.
  apply (byte_forall (fun i => nth (Z.to_nat i) CRC_24_TABLE 0 =? Nat.iter 8 rfc_crc_bit (Z.shiftl i 16))); [|exact Hi].
  vm_compute. reflexivity.
Qed.
Lemma lxor_add_disjoint hi lo : 0 <= lo < 65536 -> 0 <= hi -> Z.lxor (Z.shiftl hi 16) lo = hi * 65536 + lo.
Proof.
  intros Hlo Hhi. rewrite <- Z.add_nocarry_lxor.
  - now rewrite Z.shiftl_mul_pow2 by lia.
  - apply Z.bits_inj. intros n. rewrite Z.land_spec, Z.bits_0.
    destruct (Z.lt_ge_cases n 0) as [Hn|Hn]; [now rewrite Z.testbit_neg_r|].
    destruct (Z.lt_ge_cases n 16) as [Hc|Hc].
    + now rewrite Z.shiftl_spec_low by lia.
    + destruct (Z.eq_dec lo 0) as [->|Hne]; [now rewrite Z.bits_0, andb_false_r|].
      rewrite (Z.bits_above_log2 lo); [apply andb_false_r|lia|].
      apply Z.lt_le_trans with 16; [|lia]. apply Z.log2_lt_pow2; [lia|]. exact (proj2 Hlo).
Qed.
Lemma crc_step_eq s b : u24 s -> byte b -> crc24_step s b = rfc_crc_octet s b.
Proof.
  intros Hs Hb. unfold crc24_step, rfc_crc_octet.
  set (hi := s / 65536). set (lo := s mod 65536).
  assert (Hhl : s = hi * 65536 + lo /\ 0 <= hi < 256 /\ 0 <= lo < 65536) by (unfold u24, hi, lo in *; lia).
  clearbody hi lo. destruct Hhl as (Es & Hhi & Hlo).
  assert (Ex : s = Z.lxor (Z.shiftl hi 16) lo) by (rewrite lxor_add_disjoint by lia; exact Es).
  assert (Hsr : Z.shiftr s 16 = hi) by (rewrite shiftr_div by lia; change (2 ^ 16) with 65536; lia).
  rewrite Hsr.
  assert (Hidx : byte (Z.lxor hi b)).
  { unfold byte in *. assert (0 <= Z.lxor hi b) by (apply Z.lxor_nonneg; lia). split; [easy|].
    change 256 with (2 ^ 8). destruct (Z.eq_dec (Z.lxor hi b) 0) as [E0|Hne]; [rewrite E0; lia|].
    apply Z.log2_lt_pow2; [lia|]. eapply Z.le_lt_trans; [apply Z.log2_lxor; lia|].
    apply Z.max_lub_lt.
    - destruct (Z.eq_dec hi 0) as [->|]; [cbn; lia|]. apply Z.log2_lt_pow2; [lia|]. change (2 ^ 8) with 256. lia.
    - destruct (Z.eq_dec b 0) as [->|]; [cbn; lia|]. apply Z.log2_lt_pow2; [lia|]. change (2 ^ 8) with 256. lia. }
  rewrite land_255, Z.mod_small by (unfold byte in Hidx; lia).
  rewrite table_ok by easy.
  rewrite Ex at 2. rewrite (Z.lxor_comm (Z.shiftl hi 16) lo), Z.lxor_assoc, <- shiftl_lxor, crc_bits_lxor.
  rewrite (crc_bits_small 8 lo) by (change (2 ^ Z.of_nat 8) with 256; lia). change (2 ^ Z.of_nat 8) with 256.
  set (T := Nat.iter 8 rfc_crc_bit (Z.shiftl (Z.lxor hi b) 16)).
  assert (HT : u24 T) by (apply crc_bits_u24, u24_byte_shift; [easy|lia]).
  clearbody T. apply Z.bits_inj. intros n.
  destruct (Z.lt_ge_cases n 0) as [Hn|Hn]; [now rewrite !Z.testbit_neg_r|].
  rewrite Z.land_spec, !Z.lxor_spec. change 16777215 with (Z.ones 24).
  rewrite Es. replace (Z.shiftl (hi * 65536 + lo) 8) with (hi * 2 ^ 24 + lo * 256) by (rewrite Z.shiftl_mul_pow2 by lia; lia).
  destruct (Z.lt_ge_cases n 24) as [Hc|Hc].
  - rewrite Z.ones_spec_low by lia. rewrite andb_true_r.
    replace (Z.testbit (hi * 2 ^ 24 + lo * 256) n) with (Z.testbit (lo * 256) n); [apply xorb_comm|].
    rewrite <- (Z.mod_pow2_bits_low (lo * 256) 24 n), <- (Z.mod_pow2_bits_low (hi * 2 ^ 24 + lo * 256) 24 n) by lia.
    f_equal. rewrite Z.add_comm, Z.mod_add by lia. reflexivity.
  - rewrite Z.ones_spec_high by lia. rewrite andb_false_r.
    rewrite (proj1 (u24_bits T ltac:(unfold u24 in HT; lia)) HT n) by lia. rewrite xorb_false_r.
    symmetry. apply u24_bits; [lia|unfold u24; lia|lia].
Qed.

Lemma crc_fold_eq data : wf data -> forall s, u24 s ->
  fold_left crc24_step data s = fold_left rfc_crc_octet data s /\ u24 (fold_left rfc_crc_octet data s).
Proof.
  induction 1 as [|b data Hb Hd IH]; intros s Hs; [easy|]. cbn [fold_left].
  rewrite crc_step_eq by easy. apply IH. now apply rfc_octet_u24.
Qed.
Lemma crc_init_u24 : u24 CRC_24_INITIALIZATION. Proof. unfold u24, CRC_24_INITIALIZATION. lia. Qed.
Lemma crc24_is_rfc data : wf data -> crc24 data = rfc_crc24 data /\ 0 <= crc24 data < 2 ^ 24.
Proof.
  intros Hw. unfold crc24, rfc_crc24. destruct (crc_fold_eq data Hw _ crc_init_u24) as [E H]. rewrite E.
  change 11994318 with CRC_24_INITIALIZATION. unfold u24 in H.
  rewrite land_u24, Z.mod_small by lia. split; [easy|exact H].
Qed.

(** processing k <= 3 octets is an injective bit map applied to the state xored with the octets *)
Lemma octet_inj s s' b : u24 s -> u24 s' -> byte b -> rfc_crc_octet s b = rfc_crc_octet s' b -> s = s'.
Proof.
  intros Hs Hs' Hb H. unfold rfc_crc_octet in H.
  assert (Hx : u24 (Z.shiftl b 16)) by (apply u24_byte_shift; [easy|lia]).
  apply crc_bits_inj in H; [|now apply u24_lxor..].
  apply (f_equal (fun z => Z.lxor z (Z.shiftl b 16))) in H.
  rewrite !Z.lxor_assoc, Z.lxor_nilpotent, !Z.lxor_0_r in H. exact H.
Qed.
Lemma fold_octet_inj data : wf data -> forall s s', u24 s -> u24 s' ->
  fold_left rfc_crc_octet data s = fold_left rfc_crc_octet data s' -> s = s'.
Proof.
  induction 1 as [|b data Hb Hd IH]; intros s s' Hs Hs' H; [exact H|]. cbn [fold_left] in H.
  apply IH in H; [|now apply rfc_octet_u24..]. now apply octet_inj in H.
Qed.
Lemma iter_add {A} (f : A -> A) n m x : Nat.iter n f (Nat.iter m f x) = Nat.iter (n + m) f x.
Proof. induction n as [|n IH]; [reflexivity|]. cbn. now f_equal. Qed.
(** an octet entering 8 or 16 bits later can be seen as entering 8 or 16 bits lower *)
Lemma late_octet k b : byte b -> (k = 1 \/ k = 2)%nat ->
  Z.shiftl b 16 = Nat.iter (8 * k) rfc_crc_bit (Z.shiftl b (16 - 8 * Z.of_nat k)).
Proof.
  intros Hb Hk. unfold byte in Hb. rewrite crc_bits_small.
  - rewrite !Z.shiftl_mul_pow2 by lia. rewrite <- Z.mul_assoc, <- Z.pow_add_r by lia. f_equal. f_equal. lia.
  - apply Z.shiftl_nonneg; lia.
  - rewrite Z.shiftl_mul_pow2 by lia. rewrite <- Z.mul_assoc, <- Z.pow_add_r by lia.
    replace (16 - 8 * Z.of_nat k + Z.of_nat (8 * k)) with 16 by lia. change (2 ^ 16) with 65536. lia.
Qed.
Definition pack (x : bytes) : Z :=
  match x with
  | [a] => Z.shiftl a 16
  | [a; b] => Z.lxor (Z.shiftl a 16) (Z.shiftl b 8)
  | [a; b; c] => Z.lxor (Z.lxor (Z.shiftl a 16) (Z.shiftl b 8)) c
  | _ => 0
  end.
Lemma window_state x s : wf x -> zlen x <= 3 ->
  fold_left rfc_crc_octet x s = Nat.iter (8 * length x) rfc_crc_bit (Z.lxor s (pack x)).
Proof.
  intros Hw Hl. destruct x as [|a [|b [|c [|d x]]]].
  - cbn. now rewrite Z.lxor_0_r.
  - reflexivity.
  - apply wf_cons in Hw as [Ha Hw]. apply wf_cons in Hw as [Hb _].
    cbn [fold_left pack length]. unfold rfc_crc_octet at 1. rewrite (late_octet 1 b Hb) by auto.
    unfold rfc_crc_octet. change (8 * 1)%nat with 8%nat. rewrite <- crc_bits_lxor, iter_add.
    change (8 * 2)%nat with (8 + 8)%nat. f_equal. change (16 - 8 * Z.of_nat 1) with 8. now rewrite Z.lxor_assoc.
  - apply wf_cons in Hw as [Ha Hw]. apply wf_cons in Hw as [Hb Hw]. apply wf_cons in Hw as [Hc _].
    cbn [fold_left pack length]. unfold rfc_crc_octet at 1. rewrite (late_octet 2 c Hc) by auto.
    unfold rfc_crc_octet at 1. rewrite (late_octet 1 b Hb) by auto. unfold rfc_crc_octet.
    change (8 * 1)%nat with 8%nat. change (8 * 2)%nat with 16%nat. change (8 * 3)%nat with (8 + 16)%nat.
    rewrite <- crc_bits_lxor, iter_add. change (8 + 8)%nat with 16%nat. rewrite <- crc_bits_lxor, iter_add. f_equal.
    change (16 - 8 * Z.of_nat 1) with 8. change (16 - 8 * Z.of_nat 2) with 0. rewrite Z.shiftl_0_r.
    now rewrite !Z.lxor_assoc.
  - rewrite !zlen_cons in Hl. pose proof (zlen_nonneg x). lia.
Qed.
Lemma pack_val x : wf x -> zlen x <= 3 -> u24 (pack x) /\
  pack x = match x with [a] => a * 65536 | [a; b] => a * 65536 + b * 256 | [a; b; c] => a * 65536 + b * 256 + c | _ => 0 end.
Proof.
  intros Hw Hl.
  assert (E : pack x = match x with [a] => a * 65536 | [a; b] => a * 65536 + b * 256 | [a; b; c] => a * 65536 + b * 256 + c | _ => 0 end).
  { destruct x as [|a [|b [|c [|d x]]]]; try reflexivity.
    - cbn [pack]. now rewrite Z.shiftl_mul_pow2 by lia.
    - apply wf_cons in Hw as [Ha Hw]. apply wf_cons in Hw as [Hb _]. unfold byte in *. cbn [pack].
      rewrite (Z.shiftl_mul_pow2 b) by lia. change (2 ^ 8) with 256. rewrite lxor_add_disjoint by lia. lia.
    - apply wf_cons in Hw as [Ha Hw]. apply wf_cons in Hw as [Hb Hw]. apply wf_cons in Hw as [Hc _]. unfold byte in *. cbn [pack].
      rewrite Z.lxor_assoc.
      assert (E : Z.lxor (Z.shiftl b 8) c = b * 256 + c).
      { rewrite <- Z.add_nocarry_lxor; [now rewrite Z.shiftl_mul_pow2 by lia|].
        apply Z.bits_inj. intros n. rewrite Z.land_spec, Z.bits_0.
        destruct (Z.lt_ge_cases n 0) as [Hn|Hn]; [now rewrite Z.testbit_neg_r|].
        destruct (Z.lt_ge_cases n 8) as [Hcc|Hcc]; [now rewrite Z.shiftl_spec_low by lia|].
        destruct (Z.eq_dec c 0) as [->|Hne]; [now rewrite Z.bits_0, andb_false_r|].
        rewrite (Z.bits_above_log2 c); [apply andb_false_r|lia|]. apply Z.lt_le_trans with 8; [|lia].
        apply Z.log2_lt_pow2; [lia|]. exact (proj2 Hc). }
      rewrite E, lxor_add_disjoint by lia. lia. }
  split; [|exact E]. rewrite E. unfold u24.
  destruct x as [|a [|b [|c [|d x]]]]; try lia;
    repeat match goal with H : wf (_ :: _) |- _ => apply wf_cons in H as [? H] end; unfold byte in *; lia.
Qed.
Lemma pack_inj x y : wf x -> wf y -> zlen x = zlen y -> zlen x <= 3 -> pack x = pack y -> x = y.
Proof.
  intros Hx Hy Hl H3 E. rewrite (proj2 (pack_val x Hx H3)), (proj2 (pack_val y Hy ltac:(lia))) in E.
  destruct x as [|a [|b [|c [|d x]]]], y as [|a' [|b' [|c' [|d' y]]]]; rewrite ?zlen_cons in *; 
    try (change (zlen (@nil Z)) with 0 in *; exfalso; pose proof (zlen_nonneg x); lia);
    try (change (zlen (@nil Z)) with 0 in *; exfalso; pose proof (zlen_nonneg y); lia);
    try (change (zlen (@nil Z)) with 0 in *; exfalso; lia);
    repeat match goal with H : wf (_ :: _) |- _ => apply wf_cons in H as [? H] end; unfold byte in *; 
    repeat (f_equal; try lia).
Qed.
Lemma crc_window p x y s : wf p -> wf x -> wf y -> wf s -> zlen x = zlen y -> zlen x <= 3 -> x <> y ->
  crc24 (p ++ x ++ s) <> crc24 (p ++ y ++ s).
Proof.
  intros Hp Hx Hy Hs Hl H3 Hne E. apply Hne.
  assert (W : forall z, wf z -> wf (p ++ z ++ s)) by (intros; rewrite !wf_app; auto).
  unfold crc24 in E.
  rewrite (proj1 (crc_fold_eq _ (W x Hx) _ crc_init_u24)), (proj1 (crc_fold_eq _ (W y Hy) _ crc_init_u24)) in E.
  rewrite !fold_left_app in E.
  set (st := fold_left rfc_crc_octet p CRC_24_INITIALIZATION) in E.
  assert (Hst : u24 st) by apply (crc_fold_eq p Hp _ crc_init_u24). clearbody st.
  apply fold_octet_inj in E; [|easy|now apply (crc_fold_eq x Hx)|now apply (crc_fold_eq y Hy)].
  rewrite !window_state in E by (easy || lia).
  replace (length y) with (length x) in E by (unfold zlen in Hl; lia).
  destruct (pack_val x Hx H3) as [Px _]. destruct (pack_val y Hy ltac:(lia)) as [Py _].
  apply crc_bits_inj in E; [|now apply u24_lxor..].
  apply (f_equal (Z.lxor st)) in E. rewrite <- !Z.lxor_assoc, Z.lxor_nilpotent, !Z.lxor_0_l in E.
  now apply pack_inj.
Qed.
