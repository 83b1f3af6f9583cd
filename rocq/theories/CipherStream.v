From Verif Require Import Base BaseProofs Cipher SpecCipher CipherProofs.

Section Stream.
Variables (bs : nat) (B : nat -> bytes).
Hypothesis Hbs : (0 < bs)%nat.
(** octets p .. p+n-1 of the keystream B 0 ++ B 1 ++ ... *)
Definition kseg (p n : nat) : bytes := map (fun q => nth (q mod bs) (B (q / bs)) 0) (seq p n).
Lemma kseg_len p n : length (kseg p n) = n.
Proof. unfold kseg. now rewrite map_length, seq_length. Qed.
Lemma kseg_app p a b : kseg p (a + b) = kseg p a ++ kseg (p + a) b.
Proof. unfold kseg. now rewrite seq_app, map_app. Qed.
Lemma kseg_nth p n j : (j < n)%nat -> nth j (kseg p n) 0 = nth ((p + j) mod bs) (B ((p + j) / bs)) 0.
Proof.
  intros Hj. unfold kseg. set (f := fun q => nth (q mod bs) (B (q / bs)) 0).
  rewrite (nth_indep _ 0 (f 0%nat)) by (rewrite map_length, seq_length; lia). rewrite map_nth, seq_nth by lia. reflexivity.
Qed.
Lemma kseg_block k c n : length (B k) = bs -> (c + n <= bs)%nat -> firstn n (skipn c (B k)) = kseg (bs * k + c) n.
Proof.
  intros HB Hc. apply nth_ext with (d := 0) (d' := 0); [rewrite kseg_len, firstn_length, skipn_length; lia|].
  intros j Hj. rewrite firstn_length, skipn_length in Hj.
  rewrite kseg_nth by lia.
  replace (bs * k + c + j)%nat with ((c + j) + k * bs)%nat by lia.
  rewrite Nat.mod_add, Nat.div_add, Nat.mod_small, Nat.div_small by lia. cbn [Nat.add].
  transitivity (nth j (skipn c (B k)) 0).
  - rewrite <- (firstn_skipn n (skipn c (B k))) at 2. rewrite app_nth1; [reflexivity|rewrite firstn_length, skipn_length; lia].
  - rewrite <- (firstn_skipn c (B k)) at 2. rewrite app_nth2; rewrite firstn_length; [f_equal; lia|lia].
Qed.
Lemma kseg_blocks k n : (forall j, length (B j) = bs) -> (n <= bs * k)%nat -> kseg 0 n = firstn n (concat (map B (seq 0 k))).
Proof.
  intros HB. assert (Hf : forall k, kseg 0 (bs * k) = concat (map B (seq 0 k))).
  { clear k n. induction k as [|k IH]; [now rewrite Nat.mul_0_r|].
    rewrite Nat.mul_succ_r, kseg_app, IH, seq_S, map_app, concat_app. cbn [map concat]. rewrite app_nil_r. f_equal.
    cbn [Nat.add]. rewrite <- (Nat.add_0_r (bs * k)), <- kseg_block by (auto || lia). cbn [skipn]. rewrite firstn_all2 by (rewrite HB; lia).
    reflexivity. }
  intros Hn. rewrite <- Hf. replace (bs * k)%nat with (n + (bs * k - n))%nat by lia.
  rewrite kseg_app, firstn_app, kseg_len, firstn_all2 by (rewrite kseg_len; lia). rewrite Nat.sub_diag. cbn [firstn]. now rewrite app_nil_r.
Qed.
End Stream.

Lemma slice_nat {A} (l : list A) a b : (a <= b)%nat -> (b <= length l)%nat -> slice l (Z.of_nat a) (Z.of_nat b) = firstn (b - a) (skipn a l).
Proof. intros. unfold slice. rewrite !clip_in by (unfold zlen; lia). f_equal; [lia|]. f_equal. lia. Qed.
Lemma slice_tail (pre rest : bytes) k j : j = zlen pre + Z.of_nat k -> slice (pre ++ rest) (zlen pre) j = firstn k rest.
Proof.
  intros ->. rewrite <- (firstn_skipn k rest) at 1.
  destruct (Nat.le_gt_cases k (length rest)).
  - apply slice_app'; [reflexivity|]. unfold zlen. rewrite firstn_length. lia.
  - rewrite skipn_all2, app_nil_r, firstn_all2 by lia. rewrite slice_app_end; [reflexivity|reflexivity|unfold zlen; lia].
Qed.

Fixpoint iterE (E : bytes -> bytes) (n : nat) (iv : bytes) : bytes := match n with O => iv | S n' => E (iterE E n' iv) end.

Section Ofb.
Variables (E : bytes -> bytes) (bs : nat) (iv : bytes).
Hypothesis Hbs : (0 < bs)%nat.
Hypothesis Hlen : forall n, length (iterE E n iv) = bs.
Notation B := (fun k => iterE E (S k) iv).
Definition ofb_inv (p : nat) (IV : bytes) (count : Z) : Prop :=
  exists m c, count = Z.of_nat c /\ (c <= bs)%nat /\ (p + bs = bs * m + c)%nat /\ IV = iterE E m iv.
Lemma ofb_done fuel pre IV count acc : ofb_loop E fuel (Z.of_nat bs) pre (zlen pre) IV count acc = Ok (acc, IV, count).
Proof. destruct fuel; cbn [ofb_loop]; rewrite (proj2 (Z.ltb_ge _ _)) by lia; reflexivity. Qed.
Lemma ofb_piece m c n : (c + n <= bs)%nat -> (0 < n)%nat -> (c < bs)%nat -> (0 < m)%nat -> 
  slice (iterE E m iv) (Z.of_nat c) (Z.of_nat (c + n)) = kseg bs B (bs * (m - 1) + c) n.
Proof.
  intros Hc Hn Hc2 Hm. rewrite slice_nat by (rewrite ?Hlen; lia). replace (c + n - c)%nat with n by lia.
  rewrite <- kseg_block by (rewrite ?Hlen; lia). cbv beta. now replace (S (m - 1)) with m by lia.
Qed.
Lemma ofb_loop_spec fuel : forall rest pre IV count acc p, ofb_inv p IV count ->
  (2 * length rest + (if (count =? Z.of_nat bs)%Z then 1 else 0) <= fuel)%nat ->
  exists IV' count', ofb_loop E fuel (Z.of_nat bs) (pre ++ rest) (zlen pre) IV count acc =
    Ok (acc ++ xor_bytes (kseg bs B p (length rest)) rest, IV', count') /\ ofb_inv (p + length rest) IV' count'.
Proof.
  induction fuel as [|fuel IH]; intros rest pre IV count acc p Hinv Hf.
  - destruct rest; [|cbn in Hf; lia]. exists IV, count. rewrite app_nil_r, ofb_done. cbn. rewrite app_nil_r, Nat.add_0_r. auto.
  - destruct rest as [|x rest'].
    { exists IV, count. rewrite app_nil_r, ofb_done. cbn. rewrite app_nil_r, Nat.add_0_r. auto. }
    set (rest := x :: rest') in *. assert (Hr : (0 < length rest)%nat) by (cbn; lia). clearbody rest. clear x rest'.
    destruct Hinv as (m & c & -> & Hc & Hp & ->). cbn [ofb_loop].
    rewrite (proj2 (Z.ltb_lt _ _)) by (rewrite zlen_app; unfold zlen; lia).
    rewrite zlen_app. replace (zlen pre + zlen rest - zlen pre) with (Z.of_nat (length rest)) by (unfold zlen; lia).
    destruct (Z.of_nat (length rest) <=? Z.of_nat bs - Z.of_nat c) eqn:Ele.
    + assert (Hm : (0 < m)%nat) by (destruct m; lia).
      replace (zlen pre + zlen rest) with (zlen (pre ++ rest)) by now rewrite zlen_app.
      rewrite ofb_done. do 2 eexists. split.
      * do 4 f_equal. rewrite <- Nat2Z.inj_add, ofb_piece by lia. rewrite slice_tail with (k := length rest) by lia.
        rewrite firstn_all. f_equal. f_equal. nia.
      * exists m, (c + length rest)%nat. repeat split; lia.
    + destruct (IH (skipn (bs - c) rest) (pre ++ firstn (bs - c) rest) (E (iterE E m iv)) 0
        (acc ++ xor_bytes (slice (iterE E m iv) (Z.of_nat c) (Z.of_nat bs)) (slice (pre ++ rest) (zlen pre) (zlen pre + (Z.of_nat bs - Z.of_nat c)))) (p + (bs - c))%nat)
        as (IV' & count' & Heq & Hi).
      * exists (S m), 0%nat. repeat split; try lia.
      * rewrite skipn_length. destruct (0 =? Z.of_nat bs) eqn:E0; [lia|]. destruct (Z.of_nat c =? Z.of_nat bs) eqn:E1; lia.
      * exists IV', count'. rewrite <- app_assoc, firstn_skipn in Heq.
        replace (zlen (pre ++ firstn (bs - c) rest)) with (zlen pre + (Z.of_nat bs - Z.of_nat c)) in Heq
          by (rewrite zlen_app; unfold zlen; rewrite firstn_length; lia).
        rewrite Heq. rewrite skipn_length in *. split; [|now replace (p + length rest)%nat with (p + (bs - c) + (length rest - (bs - c)))%nat by lia].
        f_equal. f_equal. f_equal. rewrite <- app_assoc. f_equal.
        rewrite slice_tail with (k := (bs - c)%nat) by lia.
        replace (length rest) with ((bs - c) + (length rest - (bs - c)))%nat at 2 by lia.
        rewrite kseg_app. match goal with |- _ = xor_bytes ?a rest => transitivity (xor_bytes a (firstn (bs - c) rest ++ skipn (bs - c) rest)); [|now rewrite firstn_skipn] end.
        rewrite xor_app by (rewrite kseg_len, firstn_length; lia). f_equal. f_equal.
        destruct (Nat.eq_dec c bs) as [->|Hne].
        { rewrite Nat.sub_diag. unfold slice. rewrite clip_in by (unfold zlen; rewrite Hlen; lia). now rewrite Z.sub_diag. }
        assert (Hm : (0 < m)%nat) by (destruct m; lia).
        replace (Z.of_nat bs) with (Z.of_nat (c + (bs - c))) by lia. rewrite ofb_piece by lia. f_equal. nia.
Qed.
End Ofb.

Section Ctr.
Variables (E : bytes -> bytes) (bs : nat) (ctr : nat -> bytes).
Hypothesis Hbs : (0 < bs)%nat.
Hypothesis Hctr : forall n, zlen (ctr n) = Z.of_nat bs.
Hypothesis Hlen : forall n, length (E (ctr n)) = bs.
Notation B := (fun k => E (ctr k)).
Definition ctr_inv (p : nat) (IV : bytes) (count : Z) (calls : nat) : Prop :=
  exists c, count = Z.of_nat c /\ (c <= bs)%nat /\ (p + bs = bs * calls + c)%nat /\
    ((0 < calls)%nat -> length IV = bs /\ skipn c IV = skipn c (E (ctr (calls - 1)))).
Lemma ctr_done fuel pre IV count calls acc : ctr_loop E ctr fuel (Z.of_nat bs) pre (zlen pre) IV count calls acc = Ok (acc, IV, count, calls).
Proof. destruct fuel; cbn [ctr_loop]; rewrite (proj2 (Z.ltb_ge _ _)) by lia; reflexivity. Qed.
Lemma ctr_piece IV m c n : (c + n <= bs)%nat -> (0 < n)%nat -> (c < bs)%nat -> (0 < m)%nat -> length IV = bs ->
  skipn c IV = skipn c (E (ctr (m - 1))) ->
  slice IV (Z.of_nat c) (Z.of_nat (c + n)) = kseg bs B (bs * (m - 1) + c) n.
Proof.
  intros Hc Hn Hc2 Hm HIV Hsk. rewrite slice_nat by lia. replace (c + n - c)%nat with n by lia.
  rewrite Hsk. now rewrite <- kseg_block by (rewrite ?Hlen; lia).
Qed.
Lemma overwrite_ok (IV : bytes) c out : (c + length out <= length IV)%nat ->
  length (overwrite IV (Z.of_nat c) out) = length IV /\ skipn (c + length out) (overwrite IV (Z.of_nat c) out) = skipn (c + length out) IV.
Proof.
  intros H. unfold overwrite, slice_from. change 0 with (Z.of_nat 0). rewrite slice_nat by lia. rewrite Nat.sub_0_r. cbn [skipn].
  rewrite clip_in by (unfold zlen; lia). replace (Z.to_nat (Z.of_nat c + zlen out)) with (c + length out)%nat by (unfold zlen; lia).
  split; [rewrite !app_length, firstn_length, skipn_length; lia|].
  rewrite app_assoc, skipn_app, skipn_all2 by (rewrite app_length, firstn_length; lia).
  rewrite app_length, firstn_length. replace (c + length out - (Nat.min c (length IV) + length out))%nat with 0%nat by lia. reflexivity.
Qed.
Lemma skipn_more {A} (a b : list A) c n : skipn c a = skipn c b -> skipn (c + n) a = skipn (c + n) b.
Proof. intros H. rewrite Nat.add_comm, <- !skipn_skipn. now rewrite H. Qed.
Lemma ctr_loop_spec fuel : forall rest pre IV count calls acc p, ctr_inv p IV count calls ->
  (2 * length rest + (if (count =? Z.of_nat bs)%Z then 1 else 0) <= fuel)%nat ->
  exists IV' count' calls', ctr_loop E ctr fuel (Z.of_nat bs) (pre ++ rest) (zlen pre) IV count calls acc =
    Ok (acc ++ xor_bytes (kseg bs B p (length rest)) rest, IV', count', calls') /\ ctr_inv (p + length rest) IV' count' calls'.
Proof.
  induction fuel as [|fuel IH]; intros rest pre IV count calls acc p Hinv Hf.
  - destruct rest; [|cbn in Hf; lia]. exists IV, count, calls. rewrite app_nil_r, ctr_done. cbn. rewrite app_nil_r, Nat.add_0_r. auto.
  - destruct rest as [|x rest'].
    { exists IV, count, calls. rewrite app_nil_r, ctr_done. cbn. rewrite app_nil_r, Nat.add_0_r. auto. }
    set (rest := x :: rest') in *. assert (Hr : (0 < length rest)%nat) by (cbn; lia). clearbody rest. clear x rest'.
    destruct Hinv as (c & -> & Hc & Hp & HIV). cbn [ctr_loop].
    rewrite (proj2 (Z.ltb_lt _ _)) by (rewrite zlen_app; unfold zlen; lia).
    rewrite zlen_app. replace (zlen pre + zlen rest - zlen pre) with (Z.of_nat (length rest)) by (unfold zlen; lia).
    destruct (Z.of_nat (length rest) <=? Z.of_nat bs - Z.of_nat c) eqn:Ele.
    + assert (Hm : (0 < calls)%nat) by (destruct calls; lia). destruct (HIV Hm) as [HI1 HI2].
      replace (zlen pre + zlen rest) with (zlen (pre ++ rest)) by now rewrite zlen_app.
      cbv zeta. rewrite ctr_done. rewrite slice_tail with (k := length rest) by (unfold zlen; lia). rewrite firstn_all.
      rewrite <- Nat2Z.inj_add, (ctr_piece IV calls c) by (lia || easy).
      replace (bs * (calls - 1) + c)%nat with p by nia.
      set (out := xor_bytes _ rest). assert (Hol : length out = length rest) by (unfold out; rewrite xor_len, kseg_len; lia).
      do 3 eexists. split; [reflexivity|].
      exists (c + length rest)%nat. split; [reflexivity|]. split; [lia|]. split; [lia|]. intros _.
      rewrite <- Hol. destruct (overwrite_ok IV c out) as [O1 O2]; [lia|]. split; [lia|]. rewrite O2. now apply skipn_more.
    + cbv zeta. rewrite (proj2 (Z.eqb_eq (zlen (ctr calls)) _)) by apply Hctr. cbn [negb].
      destruct (IH (skipn (bs - c) rest) (pre ++ firstn (bs - c) rest) (E (ctr calls)) 0 (S calls)
        (acc ++ xor_bytes (slice IV (Z.of_nat c) (Z.of_nat bs)) (slice (pre ++ rest) (zlen pre) (zlen pre + (Z.of_nat bs - Z.of_nat c)))) (p + (bs - c))%nat)
        as (IV' & count' & calls' & Heq & Hi).
      * exists 0%nat. split; [reflexivity|]. split; [lia|]. split; [lia|]. intros _. cbn [skipn Nat.sub]. rewrite Nat.sub_0_r. split; [apply Hlen|reflexivity].
      * rewrite skipn_length. destruct (0 =? Z.of_nat bs) eqn:E0; [lia|]. destruct (Z.of_nat c =? Z.of_nat bs) eqn:E1; lia.
      * exists IV', count', calls'. rewrite <- app_assoc, firstn_skipn in Heq.
        replace (zlen (pre ++ firstn (bs - c) rest)) with (zlen pre + (Z.of_nat bs - Z.of_nat c)) in Heq
          by (rewrite zlen_app; unfold zlen; rewrite firstn_length; lia).
        rewrite Heq. rewrite skipn_length in *. split; [|now replace (p + length rest)%nat with (p + (bs - c) + (length rest - (bs - c)))%nat by lia].
        do 4 f_equal. rewrite <- app_assoc. f_equal.
        rewrite slice_tail with (k := (bs - c)%nat) by lia.
        replace (length rest) with ((bs - c) + (length rest - (bs - c)))%nat at 2 by lia.
        rewrite kseg_app. match goal with |- _ = xor_bytes ?a rest => transitivity (xor_bytes a (firstn (bs - c) rest ++ skipn (bs - c) rest)); [|now rewrite firstn_skipn] end.
        rewrite xor_app by (rewrite kseg_len, firstn_length; lia). f_equal. f_equal.
        destruct (Nat.eq_dec c bs) as [->|Hne].
        { rewrite Nat.sub_diag. unfold slice. rewrite Z.sub_diag. reflexivity. }
        assert (Hm : (0 < calls)%nat) by (destruct calls; lia). destruct (HIV Hm) as [HI1 HI2].
        replace (Z.of_nat bs) with (Z.of_nat (c + (bs - c))) by lia. rewrite (ctr_piece IV calls c) by (lia || easy). f_equal. nia.
Qed.
End Ctr.
