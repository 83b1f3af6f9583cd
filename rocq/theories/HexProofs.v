(** Lemmas about the hexadecimal codecs of [Utils]. *)
From Verif Require Import Base BaseProofs Spec Utils UtilsProofs.

Lemma hex16 (P : Z -> Prop) :
  P 0 -> P 1 -> P 2 -> P 3 -> P 4 -> P 5 -> P 6 -> P 7 -> P 8 -> P 9 -> P 10 -> P 11 -> P 12 -> P 13 -> P 14 -> P 15 ->
  forall d, 0 <= d < 16 -> P d.
Proof.
  intros. assert (d = 0 \/ d = 1 \/ d = 2 \/ d = 3 \/ d = 4 \/ d = 5 \/ d = 6 \/ d = 7 \/ d = 8 \/ d = 9 \/ d = 10
    \/ d = 11 \/ d = 12 \/ d = 13 \/ d = 14 \/ d = 15) as Hd by lia.
  repeat (destruct Hd as [->|Hd]; [assumption|]). subst; assumption.
Qed.
Lemma hexdigit_char d : 0 <= d < 16 -> hexdigit d = hex_char d.
Proof. apply (hex16 (fun d => hexdigit d = hex_char d)); reflexivity. Qed.
Lemma hexval_char d : 0 <= d < 16 -> hexval (hex_char d) = Some d.
Proof. apply (hex16 (fun d => hexval (hex_char d) = Some d)); reflexivity. Qed.
Lemma hex_text_len bs : zlen (hex_text bs) = 2 * zlen bs.
Proof. induction bs as [|b bs IH]; [reflexivity|]. unfold hex_text in *. cbn [flat_map app]. rewrite !zlen_cons, IH. lia. Qed.
Lemma hex_text_app a b : hex_text (a ++ b) = hex_text a ++ hex_text b.
Proof. unfold hex_text. apply flat_map_app. Qed.

Lemma to_hex_loop_spec bs : forall pre suf, wf bs ->
  to_hex_loop (length bs) (pre ++ bs ++ suf) (zlen pre) = Ok (hex_text bs).
Proof.
  induction bs as [|b bs IH]; intros pre suf H; [reflexivity|].
  apply wf_cons in H as [Hb H]. unfold byte in Hb.
  cbn [length to_hex_loop app]. rewrite get_app_0. cbn [bind].
  replace (pre ++ b :: bs ++ suf) with ((pre ++ [b]) ++ bs ++ suf) by (now rewrite <- app_assoc).
  replace (zlen pre + 1) with (zlen (pre ++ [b])) by (rewrite zlen_app; reflexivity).
  rewrite IH by easy. cbn [bind]. unfold hex_text. cbn [flat_map app].
  rewrite !hexdigit_char by lia. reflexivity.
Qed.
Lemma bytearray_to_hex_all bs : wf bs -> bytearray_to_hex bs 0 None = Ok (hex_text bs).
Proof.
  intros H. unfold bytearray_to_hex. rewrite Z.sub_0_r, to_nat_zlen.
  pose proof (to_hex_loop_spec bs [] [] H) as E. rewrite app_nil_r in E. exact E.
Qed.
Lemma slice_from_all {A} (l : list A) n : n = zlen l -> slice_from l (- n) = l.
Proof.
  intros ->. unfold slice_from, clip. pose proof (zlen_nonneg l).
  dif; [|replace (zlen l) with 0 by lia; reflexivity].
  replace (Z.max 0 _) with 0 by lia. reflexivity.
Qed.
Lemma slice_from_last {A} (a l : list A) n : n = zlen l -> 0 < n -> slice_from (a ++ l) (- n) = l.
Proof.
  intros -> H. unfold slice_from, clip. rewrite zlen_app. pose proof (zlen_nonneg a).
  dif; [|lia]. replace (Z.max 0 _) with (zlen a) by lia.
  rewrite to_nat_zlen, skipn_app, skipn_all, Nat.sub_diag. reflexivity.
Qed.
Lemma bytearray_to_hex_at pre bs suf n : wf bs -> n = 2 * zlen bs ->
  bytearray_to_hex (pre ++ bs ++ suf) (zlen pre) (Some n) = Ok (hex_text bs).
Proof.
  intros H ->. unfold bytearray_to_hex. dif; [lia|].
  replace (2 * zlen bs / 2) with (zlen bs) by lia. rewrite to_nat_zlen, to_hex_loop_spec by easy. cbn [bind].
  rewrite hex_text_len. dif; [lia|]. rewrite slice_from_all by now rewrite hex_text_len. reflexivity.
Qed.
Lemma hex_pairs_spec bs : forall pre suf, wf bs ->
  hex_pairs (length bs) (zlen pre) (pre ++ hex_text bs ++ suf) = Ok bs.
Proof.
  induction bs as [|b bs IH]; intros pre suf H; [reflexivity|].
  apply wf_cons in H as [Hb H]. unfold byte in Hb.
  cbn [length hex_pairs]. unfold hex_text. cbn [flat_map]. fold (hex_text bs).
  set (p := [hex_char (b / 16); hex_char (b mod 16)]).
  rewrite <- app_assoc, slice_app' by (reflexivity || (unfold p, zlen; cbn [length]; lia)).
  unfold p at 1. cbn [int16_2]. rewrite !hexval_char by lia. cbn [bind].
  replace (pre ++ p ++ hex_text bs ++ suf) with ((pre ++ p) ++ hex_text bs ++ suf) by (now rewrite <- app_assoc).
  replace (zlen pre + 2) with (zlen (pre ++ p)) by (rewrite zlen_app; reflexivity).
  rewrite IH by easy. cbn [bind]. do 2 f_equal. lia.
Qed.
Lemma hex_to_bytes_text bs : wf bs -> hex_to_bytes (hex_text bs) None = Ok bs.
Proof.
  intros H. unfold hex_to_bytes. rewrite hex_text_len. replace (2 * zlen bs / 2) with (zlen bs) by lia.
  rewrite to_nat_zlen. pose proof (hex_pairs_spec bs [] [] H) as E. rewrite app_nil_r in E.
  cbn [app] in E. change (zlen []) with 0 in E. rewrite E. reflexivity.
Qed.
(** with an expected length: left-padded with zeros or cut to the low-order octets *)
Lemma hex_to_bytes_expected s n r : 0 <= n -> hex_to_bytes s (Some n) = Ok r -> 0 < n ->
  zlen r = n.
Proof.
  intros Hn H Hpos. unfold hex_to_bytes in H. apply bind_ok in H as (b & _ & H). injection H as <-.
  unfold slice_from, clip. rewrite zlen_app, zlen_repeat. dif; [|lia].
  unfold zlen. rewrite skipn_length, app_length, repeat_length. unfold zlen; lia.
Qed.
Lemma hex_to_bytes_text_expected bs n : wf bs -> 0 < n ->
  hex_to_bytes (hex_text bs) (Some n) =
    Ok (repeat 0 (Z.to_nat (n - zlen bs)) ++ slice_from bs (Z.max 0 (zlen bs - n))).
Proof.
  intros H Hn. unfold hex_to_bytes. pose proof (hex_to_bytes_text bs H) as E. unfold hex_to_bytes in E.
  destruct (hex_pairs _ _ _) as [r|] in *; cbn [bind] in *; [|discriminate].
  injection E as ->. f_equal. unfold slice_from, clip. rewrite !zlen_app, zlen_repeat.
  pose proof (zlen_nonneg bs). 
  destruct (- n <? 0) eqn:E1; [|lia]. destruct (Z.max 0 (zlen bs - n) <? 0) eqn:E2; [lia|].
  rewrite skipn_app, repeat_length.
  replace (Z.max 0 (- n + _)) with (zlen bs) by lia.
  replace (Z.to_nat (zlen bs) - Z.to_nat n)%nat with (Z.to_nat (Z.min (Z.max 0 (zlen bs - n)) (zlen bs))) by lia.
  f_equal. rewrite to_nat_zlen.
  destruct (Z.le_gt_cases (zlen bs) n) as [Hc|Hc].
  - replace (Z.to_nat n) with (length bs + Z.to_nat (n - zlen bs))%nat by (unfold zlen in *; lia).
    rewrite repeat_app, skipn_app, repeat_length, Nat.sub_diag, skipn_O.
    rewrite skipn_all2 by (rewrite repeat_length; lia). reflexivity.
  - replace (Z.to_nat (n - zlen bs)) with 0%nat by lia.
    rewrite skipn_all2; [reflexivity|]. rewrite repeat_length. unfold zlen in *; lia.
Qed.

(** int_to_hex *)
Lemma hex_fixed_len n i : zlen (hex_fixed n i) = Z.of_nat n.
Proof. induction n; [reflexivity|]. cbn [hex_fixed]. rewrite zlen_cons. lia. Qed.
Lemma hex_fixed_snoc n i : 0 <= i -> hex_fixed (S n) i = hex_fixed n (i / 16) ++ [hex_char (i mod 16)].
Proof.
  intros Hi. induction n as [|n IH].
  - cbn [hex_fixed app]. change (16 ^ Z.of_nat 0) with 1. now rewrite Z.div_1_r.
  - change (hex_fixed (S (S n)) i) with (hex_char ((i / 16 ^ Z.of_nat (S n)) mod 16) :: hex_fixed (S n) i).
    rewrite IH. cbn [hex_fixed app]. f_equal. f_equal.
    rewrite Z.div_div by (try apply Z.pow_pos_nonneg; lia). 
    rewrite Nat2Z.inj_succ, Z.pow_succ_r by lia. reflexivity.
Qed.
Lemma hex_digits_spec fuel : forall i, 0 <= i -> i < 16 ^ Z.of_nat fuel -> (0 < fuel)%nat ->
  exists n, (0 < n)%nat /\ i < 16 ^ Z.of_nat n /\ hex_digits fuel i = hex_fixed n i.
Proof.
  induction fuel as [|f IH]; intros i Hi Hlt Hf; [lia|]. cbn [hex_digits].
  destruct (i <? 16) eqn:E.
  - exists 1%nat. split; [lia|]. split; [cbn; lia|]. cbn [hex_fixed]. change (16 ^ Z.of_nat 0) with 1.
    rewrite Z.div_1_r, Z.mod_small by lia. now rewrite hexdigit_char by lia.
  - rewrite Nat2Z.inj_succ, Z.pow_succ_r in Hlt by lia.
    destruct f as [|f]; [cbn in Hlt; lia|].
    destruct (IH (i / 16)) as (n & Hn & Hln & En); [lia| apply Z.div_lt_upper_bound; lia |lia|].
    exists (S n). split; [lia|]. split.
    + rewrite Nat2Z.inj_succ, Z.pow_succ_r by lia. lia.
    + rewrite En, hex_fixed_snoc by lia. now rewrite hexdigit_char by lia.
Qed.
Lemma hex_of_spec i : 0 <= i -> exists n, (0 < n)%nat /\ i < 16 ^ Z.of_nat n /\ hex_of i = hex_fixed n i.
Proof.
  intros Hi. unfold hex_of. apply hex_digits_spec; [lia| |lia].
  destruct (Z.eq_dec i 0) as [->|Hne]; [cbn; lia|].
  assert (i < 2 ^ Z.succ (Z.log2 i)) by (apply Z.log2_spec; lia).
  pose proof (Z.log2_nonneg i).
  apply Z.lt_le_trans with (2 ^ Z.succ (Z.log2 i)); [easy|].
  change 16 with (2 ^ 4). rewrite <- Z.pow_mul_r by lia. apply Z.pow_le_mono_r; lia.
Qed.
Lemma hex_fixed_pad n k i : 0 <= i -> i < 16 ^ Z.of_nat n -> hex_fixed (k + n) i = repeat 48 k ++ hex_fixed n i.
Proof.
  intros Hi Hlt. induction k as [|k IH]; [reflexivity|]. cbn [Nat.add hex_fixed repeat app]. rewrite IH.
  f_equal. rewrite Z.div_small; [reflexivity|]. split; [easy|].
  apply Z.lt_le_trans with (1 := Hlt). apply Z.pow_le_mono_r; lia.
Qed.
Lemma hex_fixed_cut k : forall n i, exists a, hex_fixed (k + n) i = a ++ hex_fixed n i /\ zlen a = Z.of_nat k.
Proof.
  induction k as [|k IH]; intros n i; [now exists []|]. destruct (IH n i) as (a & E & L).
  eexists (_ :: a). cbn [Nat.add hex_fixed app]. rewrite E. split; [reflexivity|]. rewrite zlen_cons. lia.
Qed.
Lemma int_to_hex_spec i n : 0 <= i -> 0 < n -> int_to_hex i (Some n) = hex_fixed (Z.to_nat n) i.
Proof.
  intros Hi Hn. unfold int_to_hex, zpad. destruct (hex_of_spec i Hi) as (m & Hm & Hlt & ->).
  rewrite hex_fixed_len.
  destruct (Z.le_gt_cases n (Z.of_nat m)) as [Hc|Hc].
  - replace (Z.to_nat (n - Z.of_nat m)) with 0%nat by lia. cbn [repeat app].
    destruct (hex_fixed_cut (m - Z.to_nat n) (Z.to_nat n) i) as (a & E & L).
    replace (m - Z.to_nat n + Z.to_nat n)%nat with m in E by lia. rewrite E.
    apply slice_from_last; [rewrite hex_fixed_len; lia|lia].
  - rewrite <- hex_fixed_pad by lia. replace (Z.to_nat (n - Z.of_nat m) + m)%nat with (Z.to_nat n) by lia.
    apply slice_from_all. rewrite hex_fixed_len. lia.
Qed.
(** the hexadecimal text of an octet string is the fixed-width text of its big-endian value *)
Lemma hex_fixed_mod n i k : (n <= k)%nat -> hex_fixed n (i mod 16 ^ Z.of_nat k) = hex_fixed n i.
Proof.
  intros Hk. induction n as [|n IH]; [reflexivity|]. cbn [hex_fixed]. rewrite IH by lia. f_equal. f_equal.
  replace (Z.of_nat k) with (Z.of_nat n + Z.of_nat (k - n)) by lia.
  rewrite Z.pow_add_r by lia.
  assert (0 < 16 ^ Z.of_nat n) by (apply Z.pow_pos_nonneg; lia).
  assert (0 < 16 ^ Z.of_nat (k - n)) by (apply Z.pow_pos_nonneg; lia).
  rewrite Z.rem_mul_r by lia. rewrite Z.mul_comm, Z.div_add by lia.
  rewrite (Z.div_small (i mod _)) by (apply Z.mod_pos_bound; lia). rewrite Z.add_0_l.
  replace (Z.of_nat (k - n)) with (1 + Z.of_nat (k - n - 1)) by lia. rewrite Z.pow_add_r by lia.
  change (16 ^ 1) with 16.
  assert (0 < 16 ^ Z.of_nat (k - n - 1)) by (apply Z.pow_pos_nonneg; lia).
  set (q := 16 ^ Z.of_nat (k - n - 1)) in *. set (x := i / 16 ^ Z.of_nat n) in *. clearbody x q.
  rewrite Z.rem_mul_r by lia. rewrite (Z.mul_comm 16), Z.mod_add by lia. now rewrite Z.mod_mod by lia.
Qed.
Lemma hex_text_fixed bs : wf bs -> hex_text bs = hex_fixed (2 * length bs) (be_val bs).
Proof.
  induction bs as [|b bs IH]; intros H; [reflexivity|].
  apply wf_cons in H as [Hb H]. unfold byte in Hb.
  replace (2 * length (b :: bs))%nat with (S (S (2 * length bs))) by (cbn [length]; lia).
  cbn [hex_fixed be_val]. unfold hex_text. cbn [flat_map app]. fold (hex_text bs). rewrite IH by easy.
  pose proof (be_val_nonneg bs H) as HB.
  assert (E : 256 ^ zlen bs = 16 ^ Z.of_nat (2 * length bs)).
  { change 256 with (16 ^ 2). rewrite <- Z.pow_mul_r by (unfold zlen; lia). f_equal. unfold zlen; lia. }
  rewrite E in *. set (p := 16 ^ Z.of_nat (2 * length bs)) in *.
  assert (0 < p) by (apply Z.pow_pos_nonneg; lia).
  f_equal; [|f_equal].
  - f_equal. rewrite Nat2Z.inj_succ, Z.pow_succ_r by lia. fold p.
    rewrite (Z.mul_comm 16 p), <- Z.div_div by lia. rewrite Z.div_add_l, (Z.div_small (be_val bs)) by lia.
    clear - Hb. lia.
  - f_equal. rewrite Z.div_add_l, (Z.div_small (be_val bs)) by lia. now rewrite Z.add_0_r.
  - rewrite <- (hex_fixed_mod _ (b * p + be_val bs) (2 * length bs)) by lia. fold p.
    rewrite Z.add_comm, Z.mod_add, Z.mod_small by lia. reflexivity.
Qed.
