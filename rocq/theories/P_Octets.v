(** C117: int_to_bytes (pgp/utils.py:562-569) and byte_to_int (537-538). *)
From Verif Require Import Base BaseProofs Spec Utils UtilsProofs CodecProofs.

(** The octets are the shortest that hold the number, and reading them anywhere gives it back, where the floating-point logarithm is exact. *)
Theorem c117_octets_partial fl i : 0 < i -> fl i = Z.log2 i -> exists o d, int_to_bytes fl i = Ok (o :: d) /\ o <> 0 /\ wf (o :: d) /\ be_val (o :: d) = i /\
  forall pre suf, bytes_to_int (pre ++ (o :: d) ++ suf) (zlen pre) (zlen (o :: d)) = Ok i.
Proof.
  intros P E. unfold int_to_bytes. replace (i <=? 0) with false by lia. rewrite E. pose proof (Z.log2_nonneg i) as L. destruct (Z.log2_spec i P) as [Lo Hi].
  set (n := Z.to_nat (ceil8 (Z.log2 i + 1))). assert (N : Z.of_nat n = (Z.log2 i + 8) / 8) by (unfold n, ceil8; rewrite Z2Nat.id; [f_equal; lia|apply Z.div_pos; lia]).
  assert (Up : i < 256 ^ Z.of_nat n). { change 256 with (2 ^ 8). rewrite <- Z.pow_mul_r by lia. eapply Z.lt_le_trans; [exact Hi|]. apply Z.pow_le_mono_r; lia. }
  assert (Dn : 256 ^ (Z.of_nat n - 1) <= i). { change 256 with (2 ^ 8). rewrite <- Z.pow_mul_r by lia. eapply Z.le_trans; [|exact Lo]. apply Z.pow_le_mono_r; lia. }
  pose proof (be_bytes_val n i) as V. rewrite Z.mod_small in V by lia. pose proof (be_bytes_wf n i) as W. pose proof (be_bytes_len n i) as Z0.
  destruct (be_bytes n i) as [|o d] eqn:B; [cbn in Z0; lia|]. exists o, d. split; [reflexivity|]. split; [|split; [exact W|split; [exact V|]]].
  - intros ->. cbn [be_val] in V. rewrite Z.mul_0_l, Z.add_0_l in V. apply wf_cons in W as [_ W]. pose proof (proj2 (be_val_nonneg d W)) as Q. rewrite zlen_cons in Z0. replace (zlen d) with (Z.of_nat n - 1) in Q by lia. lia.
  - intros pre suf. rewrite (bytes_to_int_spec pre (o :: d) suf _ eq_refl). now rewrite V.
Qed.
Print Assumptions c117_octets_partial.
(** Zero and negative numbers have no octets. *)
Theorem c117_not_positive fl i : i <= 0 -> int_to_bytes fl i = Err ValueError.
Proof. intros H. unfold int_to_bytes. replace (i <=? 0) with true by lia. reflexivity. Qed.
Print Assumptions c117_not_positive.
(** Whatever the logarithm says, what is written is the number modulo the octets it asks for: one too many puts a zero first, one too few loses the number. *)
Theorem c117_octets_refuted fl i : 0 < i -> 0 <= fl i -> exists d, int_to_bytes fl i = Ok d /\ zlen d = (fl i + 8) / 8 /\ be_val d = i mod 256 ^ zlen d /\
  (forall k, i = 256 ^ k -> 0 < k -> fl i = 8 * k - 1 -> be_val d = 0) /\ (forall k, i = 256 ^ k - 1 -> 0 < k -> fl i = 8 * k -> exists t, d = 0 :: t).
Proof.
  intros P F. unfold int_to_bytes. replace (i <=? 0) with false by lia. set (n := Z.to_nat (ceil8 (fl i + 1))). assert (N : Z.of_nat n = (fl i + 8) / 8) by (unfold n, ceil8; rewrite Z2Nat.id; [f_equal; lia|apply Z.div_pos; lia]).
  pose proof (be_bytes_val n i) as V. pose proof (be_bytes_wf n i) as W. pose proof (be_bytes_len n i) as L. exists (be_bytes n i). split; [reflexivity|]. split; [lia|]. split; [rewrite L; exact V|]. split.
  - intros k E K Q. rewrite V. assert (Nk : Z.of_nat n = k) by lia. rewrite Nk, E. apply Z.mod_same. apply Z.pow_nonzero; lia.
  - intros k E K Q. assert (Nk : Z.of_nat n = k + 1) by lia. destruct (be_bytes n i) as [|o t] eqn:B; [cbn in L; lia|]. exists t. f_equal. rewrite Nk in V. rewrite Z.mod_small in V.
    + cbn [be_val] in V. rewrite zlen_cons in L. replace (zlen t) with k in V by lia. apply wf_cons in W as [Wo Wt]. pose proof (be_val_nonneg t Wt). unfold byte in Wo. assert (0 < 256 ^ k) by (apply Z.pow_pos_nonneg; lia). nia.
    + split; [lia|]. rewrite E. rewrite Z.pow_add_r by lia. assert (0 < 256 ^ k) by (apply Z.pow_pos_nonneg; lia). lia.
Qed.
Print Assumptions c117_octets_refuted.
Theorem c117_byte pre b suf : bytes_to_int (pre ++ [b] ++ suf) (zlen pre) 1 = byte_to_int (pre ++ [b] ++ suf) (zlen pre) /\ byte_to_int (pre ++ [b] ++ suf) (zlen pre) = Ok b.
Proof. split; [reflexivity|]. unfold byte_to_int. rewrite (bytes_to_int_spec pre [b] suf 1 eq_refl). f_equal. cbn [be_val]. change (zlen (@nil Z)) with 0. lia. Qed.
Print Assumptions c117_byte.
Example c117_example : int_to_bytes Z.log2 (2 ^ 64) = Ok [1; 0; 0; 0; 0; 0; 0; 0; 0] /\ int_to_bytes (fun _ => 63) (2 ^ 64) = Ok [0; 0; 0; 0; 0; 0; 0; 0] /\ int_to_bytes (fun _ => 64) (2 ^ 64 - 1) = Ok [0; 255; 255; 255; 255; 255; 255; 255; 255] /\
  byte_to_int [7; 9; 8] 1 = Ok 9.
Proof. split; [vm_compute; reflexivity|]. split; [vm_compute; reflexivity|]. split; vm_compute; reflexivity. Qed.
