(** Lemmas about the codecs of [Utils]. *)
From Verif Require Import Base BaseProofs Spec Utils.

Lemma land_255 x : Z.land x 255 = x mod 256.
Proof. change 255 with (Z.ones 8). rewrite Z.land_ones by lia. reflexivity. Qed.
Lemma land_byte x : byte (Z.land x 255).
Proof. rewrite land_255. unfold byte. apply Z.mod_pos_bound. lia. Qed.
Global Hint Resolve land_byte : core.

Lemma be_val_app a b : be_val (a ++ b) = be_val a * 256 ^ zlen b + be_val b.
Proof.
  induction a as [|x a IH]; cbn [app be_val]; [lia|].
  rewrite IH, zlen_app, Z.pow_add_r by apply zlen_nonneg. ring.
Qed.
Lemma be_val_nonneg bs : wf bs -> 0 <= be_val bs < 256 ^ zlen bs.
Proof.
  induction 1 as [|b t Hb Ht IH]; cbn [be_val]; [cbn; lia|].
  rewrite zlen_cons, Z.add_comm, Z.pow_add_r by (try apply zlen_nonneg; lia).
  unfold byte in Hb. nia.
Qed.
Lemma be_val_inj a b : wf a -> wf b -> zlen a = zlen b -> be_val a = be_val b -> a = b.
Proof.
  revert b; induction a as [|x a IH]; intros [|y b] Ha Hb Hl Hv; try easy.
  - rewrite !zlen_cons in Hl. assert (Hl' : zlen a = zlen b) by lia.
    apply wf_cons in Ha as [Hx Ha]. apply wf_cons in Hb as [Hy Hb].
    cbn [be_val] in Hv. rewrite Hl' in Hv.
    pose proof (be_val_nonneg a Ha) as Ba. pose proof (be_val_nonneg b Hb) as Bb. rewrite Hl' in Ba.
    assert (x = y) by nia. subst. f_equal. apply IH; auto; lia.
Qed.

Lemma bytes_to_int_loop_spec bs : forall pre suf offset length i acc,
  offset + i = zlen pre -> length - i = zlen bs ->
  bytes_to_int_loop (pre ++ bs ++ suf) offset length i (Datatypes.length bs) acc = Ok (acc + be_val bs).
Proof.
  induction bs as [|b bs IH]; intros pre suf offset len i acc Ho Hl; cbn [Datatypes.length bytes_to_int_loop be_val].
  - f_equal; lia.
  - rewrite Ho. cbn [app]. rewrite get_app_0. cbn [bind].
    replace (pre ++ b :: bs ++ suf) with ((pre ++ [b]) ++ bs ++ suf) by (now rewrite <- app_assoc).
    rewrite zlen_cons in Hl.
    rewrite IH; [|rewrite zlen_app, zlen_cons, zlen_nil; lia|lia].
    rewrite Z.shiftl_mul_pow2 by (pose proof (zlen_nonneg bs); lia).
    replace (len - i - 1) with (zlen bs) by lia.
    replace (2 ^ (8 * zlen bs)) with (256 ^ zlen bs).
    + f_equal; lia.
    + rewrite Z.pow_mul_r by (pose proof (zlen_nonneg bs); lia). reflexivity.
Qed.
Lemma bytes_to_int_spec pre bs suf n :
  n = zlen bs -> bytes_to_int (pre ++ bs ++ suf) (zlen pre) n = Ok (be_val bs).
Proof.
  intros ->. unfold bytes_to_int. rewrite to_nat_zlen.
  rewrite bytes_to_int_loop_spec; [reflexivity|lia|lia].
Qed.
Lemma bytes_to_int_loop_inv data offset len n : forall i acc r,
  0 <= offset + i ->
  bytes_to_int_loop data offset len i n acc = Ok r -> offset + i + Z.of_nat n <= Z.max (offset + i) (zlen data).
Proof.
  induction n as [|n IH]; intros i acc r H0 H; [lia|].
  cbn [bytes_to_int_loop] in H. apply bind_ok in H as (b & Hb & H).
  apply get_ok_lt in Hb; [|lia]. apply IH in H; lia.
Qed.
Lemma bytes_to_int_bound data offset len r :
  0 <= offset -> 0 < len -> bytes_to_int data offset len = Ok r -> offset + len <= zlen data.
Proof.
  intros H0 Hl H. unfold bytes_to_int in H.
  apply bytes_to_int_loop_inv in H; [|lia]. lia.
Qed.
(** a successful read is the big-endian value of the slice *)
Lemma bytes_to_int_slice data offset len r :
  0 <= offset -> 0 <= len -> bytes_to_int data offset len = Ok r ->
  r = be_val (slice data offset (offset + len)) /\ (0 < len -> offset + len <= zlen data).
Proof.
  intros H0 Hl H. destruct (Z.eq_dec len 0) as [->|Hne].
  - unfold bytes_to_int in H. cbn in H. injection H as <-. split; [|lia].
    unfold slice. rewrite Z.add_0_r, Z.sub_diag. reflexivity.
  - assert (Hb : offset + len <= zlen data) by (apply (bytes_to_int_bound data offset len r); lia || exact H). split; [|auto].
    set (p := firstn (Z.to_nat offset) data).
    set (m := firstn (Z.to_nat len) (skipn (Z.to_nat offset) data)).
    set (s := skipn (Z.to_nat len) (skipn (Z.to_nat offset) data)).
    assert (Hd : data = p ++ m ++ s) by (unfold p, m, s; now rewrite !firstn_skipn).
    assert (Hp : zlen p = offset) by (unfold p, zlen in *; rewrite firstn_length; lia).
    assert (Hm : zlen m = len) by (unfold m, zlen in *; rewrite firstn_length, skipn_length; lia).
    clearbody p m s. subst data. rewrite <- Hp in H. rewrite (bytes_to_int_spec p m s len) in H by lia.
    injection H as <-. f_equal. symmetry. apply slice_app'; lia.
Qed.

Lemma be_bytes_len n i : zlen (be_bytes n i) = Z.of_nat n.
Proof. induction n; cbn [be_bytes]; [reflexivity|]. rewrite zlen_cons. lia. Qed.
Lemma be_bytes_wf n i : wf (be_bytes n i).
Proof. induction n; cbn [be_bytes]; [auto|]. apply wf_cons; auto. Qed.
Lemma be_bytes_val n i : be_val (be_bytes n i) = i mod 256 ^ Z.of_nat n.
Proof.
  induction n as [|n IH]; cbn [be_bytes be_val]; [cbn; now rewrite Z.mod_1_r|].
  rewrite IH, be_bytes_len, land_255, Z.shiftr_div_pow2 by lia.
  rewrite Z.pow_mul_r by lia. change (2 ^ 8) with 256.
  rewrite Nat2Z.inj_succ, Z.pow_succ_r by lia.
  set (p := 256 ^ Z.of_nat n). assert (0 < p) by (unfold p; apply Z.pow_pos_nonneg; lia).
  rewrite (Z.mul_comm 256 p), Z.rem_mul_r by lia. lia.
Qed.
Lemma be_bytes_be_val bs : wf bs -> be_bytes (length bs) (be_val bs) = bs.
Proof.
  intros H. apply be_val_inj; auto using be_bytes_wf.
  - now rewrite be_bytes_len.
  - rewrite be_bytes_val. apply Z.mod_small. now apply be_val_nonneg.
Qed.

Lemma shiftr_div x k : 0 <= k -> Z.shiftr x k = x / 2 ^ k.
Proof. apply Z.shiftr_div_pow2. Qed.

Lemma int_to_2byte_be i : int_to_2byte i = be_bytes 2 i.
Proof. reflexivity. Qed.
Lemma int_to_4byte_be i : int_to_4byte i = be_bytes 4 i.
Proof. reflexivity. Qed.
Lemma int_to_8byte_be i : int_to_8byte i = be_bytes 8 i.
Proof. reflexivity. Qed.

Lemma fixed_width_read k pre suf i :
  bytes_to_int (pre ++ be_bytes k i ++ suf) (zlen pre) (Z.of_nat k) = Ok (i mod 256 ^ Z.of_nat k).
Proof. rewrite bytes_to_int_spec by now rewrite be_bytes_len. now rewrite be_bytes_val. Qed.

(** MPI *)
Lemma mpi_to_int_spec pre l body suf n :
  zlen l = 2 -> be_val l = n -> zlen body = ceil8 n ->
  mpi_to_int (pre ++ (l ++ body) ++ suf) (zlen pre) = Ok (be_val body, zlen pre + 2 + ceil8 n).
Proof.
  intros Hl Hn Hb. unfold mpi_to_int, mpi_length, short_to_int.
  rewrite <- app_assoc, (bytes_to_int_spec pre l (body ++ suf) 2) by lia. cbn [bind]. rewrite Hn.
  replace (pre ++ l ++ body ++ suf) with ((pre ++ l) ++ body ++ suf) by (now rewrite !app_assoc).
  replace (zlen pre + 2) with (zlen (pre ++ l)) by (rewrite zlen_app; lia).
  rewrite bytes_to_int_spec by lia. reflexivity.
Qed.

Lemma ceil8_pos n : 0 <= n -> 0 <= ceil8 n. Proof. unfold ceil8. lia. Qed.

(** exact behaviour of the MPI codec for any floating-point log *)
Lemma int_to_mpi_shape fl i : 0 < i -> 
  int_to_mpi fl i = Ok (int_to_2byte (fl i + 1) ++ be_bytes (Z.to_nat (ceil8 (fl i + 1))) i).
Proof. intros. unfold int_to_mpi. destruct (i <? 0) eqn:?, (i =? 0) eqn:?; try lia. reflexivity. Qed.

Lemma mpi_decode_encode fl i pre suf enc :
  0 < i -> 0 <= fl i <= 65534 -> int_to_mpi fl i = Ok enc ->
  mpi_to_int (pre ++ enc ++ suf) (zlen pre) =
    Ok (i mod 256 ^ ceil8 (fl i + 1), zlen (pre ++ enc)).
Proof.
  intros Hi Hf He. rewrite int_to_mpi_shape in He by lia.
  set (b := int_to_2byte (fl i + 1)) in He. assert (Hb : b = int_to_2byte (fl i + 1)) by reflexivity.
  clearbody b. injection He as <-. subst b.
  rewrite (mpi_to_int_spec pre _ _ suf (fl i + 1)).
  - rewrite be_bytes_val, !zlen_app, be_bytes_len. 
    pose proof (ceil8_pos (fl i + 1)). rewrite Z2Nat.id by lia.
    change (zlen (int_to_2byte (fl i + 1))) with 2. f_equal. f_equal. lia.
  - reflexivity.
  - rewrite int_to_2byte_be, be_bytes_val. apply Z.mod_small. cbn. lia.
  - rewrite be_bytes_len. pose proof (ceil8_pos (fl i + 1)). lia.
Qed.
Lemma mpi_round_trip fl i pre suf :
  0 <= i -> (0 < i -> 0 <= fl i <= 65534 /\ i < 256 ^ ceil8 (fl i + 1)) ->
  exists enc, int_to_mpi fl i = Ok enc /\
    mpi_to_int (pre ++ enc ++ suf) (zlen pre) = Ok (i, zlen (pre ++ enc)).
Proof.
  intros Hi Hf. destruct (Z.eq_dec i 0) as [->|Hne].
  - exists [0;0]. split; [reflexivity|].
    change (pre ++ [0;0] ++ suf) with (pre ++ ([0;0] ++ []) ++ suf).
    rewrite (mpi_to_int_spec pre [0;0] [] suf 0) by reflexivity. cbn [be_val]. f_equal. f_equal.
    rewrite zlen_app. change (ceil8 0) with 0. change (zlen [0;0]) with 2. lia.
  - destruct Hf as [Hf Hlt]; [lia|]. eexists. split; [apply int_to_mpi_shape; lia|].
    rewrite (mpi_decode_encode fl i) by (lia || (apply int_to_mpi_shape; lia)).
    now rewrite Z.mod_small by lia.
Qed.

Lemma log2_lt_256 i n : 0 < i -> Z.log2 i <= n -> i < 256 ^ ceil8 (n + 1).
Proof.
  intros Hi Hn.
  pose proof (Z.log2_nonneg i).
  apply Z.lt_le_trans with (2 ^ (n + 1)).
  - apply Z.log2_lt_pow2; lia.
  - change 256 with (2 ^ 8). rewrite <- Z.pow_mul_r; [|lia|unfold ceil8; lia].
    apply Z.pow_le_mono_r; [lia|]. unfold ceil8. lia.
Qed.

(** S2K counts *)
Lemma land_15 x : Z.land x 15 = x mod 16.
Proof. change 15 with (Z.ones 4). rewrite Z.land_ones by lia. reflexivity. Qed.
Lemma s2k_count_val c : 0 <= c -> s2k_count_to_int c = (16 + c mod 16) * 2 ^ (c / 16 + 6).
Proof.
  intros. unfold s2k_count_to_int, EXPBIAS. rewrite land_15, shiftr_div by lia.
  change (2 ^ 4) with 16. rewrite Z.shiftl_mul_pow2 by lia. reflexivity.
Qed.
Lemma s2k_count_bounds c : byte c -> 1024 <= s2k_count_to_int c <= 65011712.
Proof.
  intros Hc. unfold byte in Hc.
  assert (forallb (fun c => (1024 <=? s2k_count_to_int (Z.of_nat c)) && (s2k_count_to_int (Z.of_nat c) <=? 65011712)) (seq 0 256) = true) as H by (vm_compute; reflexivity).
  rewrite forallb_forall in H. specialize (H (Z.to_nat c)). rewrite in_seq in H. specialize (H ltac:(lia)).
  rewrite Z2Nat.id in H by lia. lia.
Qed.
Lemma s2k_count_encode fl c :
  byte c -> (forall i, 1024 <= i <= 65011712 -> fl i = Z.log2 i) ->
  int_to_s2k_count fl (s2k_count_to_int c) = Ok [c].
Proof.
  intros Hc Hfl. pose proof (s2k_count_bounds c Hc) as Hb. unfold int_to_s2k_count.
  destruct (_ <? 1024) eqn:E1; [lia|]. destruct (65011712 <? _) eqn:E2; [lia|]. rewrite Hfl by lia.
  clear E1 E2 Hb Hfl. unfold byte in Hc.
  assert (forallb (fun n => let c := Z.of_nat n in let i := s2k_count_to_int c in let shift := Z.log2 i - 4 in
     (Z.land i (Z.shiftl 1 shift - 1) =? 0) && (Z.shiftl (shift - EXPBIAS) 4 + Z.land (Z.shiftr i shift) 15 =? c)) (seq 0 256) = true) as H by (vm_compute; reflexivity).
  rewrite forallb_forall in H. specialize (H (Z.to_nat c)). rewrite in_seq in H. specialize (H ltac:(lia)).
  cbv zeta in H. rewrite Z2Nat.id in H by lia. apply andb_true_iff in H as [H1 H2]. rewrite H1. cbn [negb].
  apply Z.eqb_eq in H2. cbv zeta. rewrite H2. apply mk_bytes_wf. apply wf_cons. split; [exact Hc|auto].
Qed.
Lemma s2k_count_accept fl i bs :
  (forall i, 1024 <= i <= 65011712 -> fl i = Z.log2 i) ->
  int_to_s2k_count fl i = Ok bs -> exists c, byte c /\ bs = [c] /\ i = s2k_count_to_int c.
Proof.
  intros Hfl H. unfold int_to_s2k_count in H.
  destruct (i <? 1024) eqn:E1; [discriminate|]. destruct (65011712 <? i) eqn:E2; [discriminate|].
  rewrite Hfl in H by lia. cbv zeta in H.
  set (sh := Z.log2 i - 4) in *.
  assert (HL : 2 ^ Z.log2 i <= i < 2 ^ Z.succ (Z.log2 i)) by (apply Z.log2_spec; lia).
  assert (HL1 : 10 <= Z.log2 i) by (apply Z.log2_le_pow2; lia).
  assert (HL2 : Z.log2 i < 26) by (apply Z.log2_lt_pow2; lia).
  assert (Hsh : 6 <= sh <= 21) by lia.
  replace (Z.log2 i) with (sh + 4) in HL by (unfold sh; lia).
  replace (Z.succ (sh + 4)) with (sh + 5) in HL by lia.
  rewrite !Z.pow_add_r in HL by lia. change (2 ^ 4) with 16 in HL. change (2^5) with 32 in HL.
  set (p := 2 ^ sh) in *. assert (Hp : 0 < p) by (apply Z.pow_pos_nonneg; lia).
  rewrite Z.shiftl_1_l in H. fold p in H. replace (p - 1) with (Z.ones sh) in H by (rewrite Z.ones_equiv; fold p; lia).
  rewrite Z.land_ones in H by lia. fold p in H.
  destruct (i mod p =? 0) eqn:E3; [|discriminate]. cbn [negb] in H.
  rewrite land_15, Z.shiftr_div_pow2 in H by lia. fold p in H. unfold EXPBIAS in H.
  apply mk_bytes_inv in H as [-> Hw]. apply wf_cons in Hw as [Hw _].
  rewrite Z.shiftl_mul_pow2 in * by lia. change (2 ^ 4) with 16 in *.
  eexists; split; [exact Hw|]. split; [reflexivity|].
  pose proof (Z.div_mod i p ltac:(lia)) as Hd. assert (i mod p = 0) by lia.
  assert (Hq : 16 <= i / p < 32) by nia.
  assert (Hq2 : (i / p) mod 16 = i / p - 16) by lia.
  rewrite Hq2 in *. set (q := i / p) in *. clearbody q.
  rewrite s2k_count_val by (unfold byte in Hw; lia).
  replace (((sh - 6) * 16 + (q - 16)) mod 16) with (q - 16) by lia.
  replace (((sh - 6) * 16 + (q - 16)) / 16 + 6) with sh by lia. fold p. lia.
Qed.

(** Length octets *)
Lemma bytes_to_int_loop_app_r pre l len n : forall k i acc, 0 <= k + i ->
  bytes_to_int_loop (pre ++ l) (zlen pre + k) len i n acc = bytes_to_int_loop l k len i n acc.
Proof.
  induction n as [|n IH]; intros k i acc Hk; cbn [bytes_to_int_loop]; [reflexivity|].
  rewrite <- Z.add_assoc, get_app_r by lia. destruct (get l (k + i)); cbn [bind]; [|reflexivity].
  apply IH. lia.
Qed.
Lemma bytes_to_int_app_r pre l k len : 0 <= k ->
  bytes_to_int (pre ++ l) (zlen pre + k) len = bytes_to_int l k len.
Proof. intros. apply bytes_to_int_loop_app_r. lia. Qed.

Lemma bytes_to_int_4 a b c d suf :
  bytes_to_int (a :: b :: c :: d :: suf) 0 4 = Ok (a * 16777216 + b * 65536 + c * 256 + d).
Proof. 
  change (a :: b :: c :: d :: suf) with ([] ++ [a;b;c;d] ++ suf).
  change 0 with (zlen (@nil Z)). rewrite bytes_to_int_spec by reflexivity.
  cbn [be_val]. f_equal. change (zlen [b;c;d]) with 3. change (zlen [c;d]) with 2. change (zlen [d]) with 1.
  change (zlen (@nil Z)) with 0. lia.
Qed.
Lemma bytes_to_int_2 a b suf : bytes_to_int (a :: b :: suf) 0 2 = Ok (a * 256 + b).
Proof. 
  change (a :: b :: suf) with ([] ++ [a;b] ++ suf).
  change 0 with (zlen (@nil Z)). rewrite bytes_to_int_spec by reflexivity.
  cbn [be_val]. f_equal. change (zlen [b]) with 1. change (zlen (@nil Z)) with 0. lia.
Qed.

(** shifting a buffer shifts the parse *)
Definition sh_new (k : Z) (r : res (Z * Z * bool)) : res (Z * Z * bool) :=
  match r with Ok (o, n, p) => Ok (k + o, n, p) | Err e => Err e end.
Lemma new_packet_length_app_r pre l k : 0 <= k ->
  new_packet_length (pre ++ l) (zlen pre + k) = sh_new (zlen pre) (new_packet_length l k).
Proof.
  intros Hk. unfold new_packet_length, long_to_int. rewrite get_app_r by lia.
  destruct (get l k) as [t|e]; [cbn [bind]|reflexivity].
  replace (zlen pre + k + 1) with (zlen pre + (k + 1)) by lia.
  rewrite get_app_r, bytes_to_int_app_r by lia.
  destruct (t <? 192); [reflexivity|]. destruct (t <? 224).
  { destruct (get l (k + 1)); cbn; [|reflexivity]. apply ok3; (lia || easy). }
  destruct (t =? 255); [|reflexivity].
  destruct (bytes_to_int l (k + 1) 4); cbn [bind sh_new]; [|reflexivity]. apply ok3; (lia || easy).
Qed.

Lemma new_length_round_trip_0 suf n ap l r :
  0 <= n <= MAX_PACKET_LENGTH -> new_packet_length_to_bytes n ap = Ok (l, r) ->
  r = 0 /\ new_packet_length (l ++ suf) 0 = Ok (zlen l, n, false).
Proof.
  intros Hn H. unfold new_packet_length_to_bytes in H. unfold new_packet_length, long_to_int.
  destruct (n <? 192) eqn:E1.
  { apply bind_ok in H as (x & Hx & H). apply mk_bytes_inv in Hx as [-> _]. injection H as <- <-.
    split; [easy|]. cbn [app]. rewrite get_cons_0. cbn [bind]. rewrite E1. reflexivity. }
  destruct (n <? 8384) eqn:E2.
  { apply bind_ok in H as (x & Hx & H). apply mk_bytes_inv in Hx as [-> _]. injection H as <- <-.
    split; [easy|]. cbn [app]. rewrite get_cons_0. cbn [bind].
    rewrite get_cons_S by lia. cbn [Z.add Z.sub Z.opp Z.pos_sub]. rewrite get_cons_0. cbn [bind].
    rewrite shiftr_div, land_255 by lia. change (2 ^ 8) with 256.
    dif; [lia|]. dif; [|lia].
    rewrite Z.shiftl_mul_pow2 by lia. change (2 ^ 8) with 256.
    apply ok3; (lia || easy). }
  rewrite !shiftr_div in H by lia. rewrite !land_255 in H.
  destruct (n <=? MAX_PACKET_LENGTH) eqn:E3; [|lia]. injection H as <- <-. split; [easy|].
  unfold MAX_PACKET_LENGTH in *.
  cbn [app]. rewrite get_cons_0. cbn [bind].
  change (255 <? 192) with false. change (255 <? 224) with false. change (255 =? 255) with true. cbv iota.
  match goal with |- context [bytes_to_int (255 :: ?t) _ _] => 
    change (255 :: t) with ([255] ++ t); change (0 + 1) with (zlen [255] + 0) end.
  rewrite bytes_to_int_app_r by lia. rewrite bytes_to_int_4. cbn [bind]. apply ok3; try easy.
  change (2 ^ 24) with 16777216. change (2 ^ 16) with 65536. change (2 ^ 8) with 256. lia.
Qed.
Lemma new_length_round_trip pre suf n ap l r :
  0 <= n <= MAX_PACKET_LENGTH -> new_packet_length_to_bytes n ap = Ok (l, r) ->
  r = 0 /\ new_packet_length (pre ++ l ++ suf) (zlen pre) = Ok (zlen pre + zlen l, n, false).
Proof.
  intros Hn H. destruct (new_length_round_trip_0 suf n ap l r Hn H) as [Hr He]. split; [exact Hr|].
  rewrite <- (Z.add_0_r (zlen pre)) at 1. rewrite new_packet_length_app_r by lia. rewrite He. reflexivity.
Qed.
Lemma new_length_total n ap : 0 <= n <= MAX_PACKET_LENGTH ->
  exists l, new_packet_length_to_bytes n ap = Ok (l, 0) /\ wf l /\
    zlen l = (if n <? 192 then 1 else if n <? 8384 then 2 else 5).
Proof.
  intros Hn. unfold new_packet_length_to_bytes.
  destruct (n <? 192) eqn:E1.
  { exists [n]. assert (wf [n]) by (apply wf_cons; split; [unfold byte; lia|auto]).
    rewrite mk_bytes_wf by easy. easy. }
  destruct (n <? 8384) eqn:E2.
  { eexists. rewrite mk_bytes_wf; [split; [reflexivity|]|]; [split|]; [|reflexivity|].
    all: apply wf_cons; split; [|apply wf_cons; split; auto].
    all: unfold byte; rewrite shiftr_div by lia; change (2 ^ 8) with 256; lia. }
  destruct (n <=? MAX_PACKET_LENGTH) eqn:E3; [|lia]. eexists. split; [reflexivity|]. split; [|reflexivity].
  repeat (apply wf_cons; split; auto). unfold byte; lia.
Qed.
Lemma new_length_too_big n ap : MAX_PACKET_LENGTH < n ->
  new_packet_length_to_bytes n ap = if ap then Ok ([254], n - 2 ^ 30) else Err ValueError.
Proof.
  intros Hn. unfold new_packet_length_to_bytes, MAX_PACKET_LENGTH in *.
  destruct (n <? 192) eqn:E1; [lia|]. destruct (n <? 8384) eqn:E2; [lia|].
  destruct (n <=? 4294967295) eqn:E3; [lia|]. reflexivity.
Qed.
Lemma new_packet_length_bound data o o' n p :
  0 <= o -> wf data -> new_packet_length data o = Ok (o', n, p) ->
  o < o' <= zlen data /\ 0 <= n.
Proof.
  intros Ho Hw H. unfold new_packet_length in H. apply bind_ok in H as (t & Ht & H).
  pose proof (get_byte _ _ _ Hw Ht) as Hb. pose proof (get_ok_lt _ _ _ Ho Ht) as Hlt. unfold byte in Hb.
  destruct (t <? 192) eqn:E1; [injection H as <- <- <-; lia|].
  destruct (t <? 224) eqn:E2.
  { apply bind_ok in H as (b & Hb2 & H). pose proof (get_byte _ _ _ Hw Hb2) as Hbb. unfold byte in Hbb.
    assert (HX := Hb2); apply get_ok_lt in HX; [|lia]. rewrite Z.shiftl_mul_pow2 in H by lia. change (2 ^ 8) with 256 in H.
    injection H as <- <- <-. lia. }
  destruct (t =? 255) eqn:E3.
  { apply bind_ok in H as (b & Hb2 & H). injection H as <- <- <-. unfold long_to_int in Hb2.
    apply bytes_to_int_slice in Hb2 as [-> Hle]; [|lia|lia]. specialize (Hle ltac:(lia)).
    pose proof (be_val_nonneg (slice data (o + 1) (o + 1 + 4)) (slice_wf _ _ _ Hw)). lia. }
  injection H as <- <- <-. split; [lia|]. rewrite Z.shiftl_1_l. apply Z.pow_nonneg. lia.
Qed.

Definition sh_old (k : Z) (r : res (Z * Z)) : res (Z * Z) :=
  match r with Ok (o, n) => Ok (k + o, n) | Err e => Err e end.
Lemma old_packet_length_app_r pre l k : 0 <= k ->
  old_packet_length (pre ++ l) (zlen pre + k) = sh_old (zlen pre) (old_packet_length l k).
Proof.
  intros Hk. unfold old_packet_length, long_to_int, short_to_int. rewrite get_app_r by lia.
  destruct (get l k) as [t|e]; [cbn [bind]|reflexivity].
  replace (zlen pre + k + 1) with (zlen pre + (k + 1)) by lia.
  rewrite get_app_r, !bytes_to_int_app_r by lia. rewrite zlen_app.
  destruct (Z.land t 3 =? 0).
  { destruct (get l (k + 1)); cbn; [|reflexivity]. apply ok2; (lia || easy). }
  destruct (Z.land t 3 =? 1).
  { destruct (bytes_to_int l (k + 1) 2); cbn [bind sh_old]; [|reflexivity]. apply ok2; (lia || easy). }
  destruct (Z.land t 3 =? 2).
  { destruct (bytes_to_int l (k + 1) 4); cbn [bind sh_old]; [|reflexivity]. apply ok2; (lia || easy). }
  cbn [sh_old]. apply ok2; (lia || easy).
Qed.
Lemma land_3 x : Z.land x 3 = x mod 4.
Proof. change 3 with (Z.ones 2). rewrite Z.land_ones by lia. reflexivity. Qed.

(** tag octet t with length type lt in its low two bits *)
Lemma old_length_round_trip_0 n t rest lt lb :
  0 <= n -> old_packet_length_to_bytes n = (lt, lb) -> t mod 4 = lt ->
  (lt = 3 -> zlen rest = n) ->
  old_packet_length (t :: lb ++ rest) 0 = Ok (1 + zlen lb, n).
Proof.
  intros Hn H Ht Hr. unfold old_packet_length, long_to_int, short_to_int. rewrite get_cons_0. cbn [bind].
  rewrite land_3, Ht. unfold old_packet_length_to_bytes in H.
  destruct (n <? 256) eqn:E1.
  { injection H as <- <-. change (0 =? 0) with true. cbv iota. cbn [app]. rewrite get_cons_S by lia.
    change (0 + 1 - 1) with 0. rewrite get_cons_0. reflexivity. }
  destruct (n <? 65536) eqn:E2.
  { injection H as <- <-. change (1 =? 0) with false. change (1 =? 1) with true. cbv iota.
    rewrite shiftr_div, land_255 by lia. cbn [app].
    match goal with |- context [bytes_to_int (t :: ?u) _ 2] => 
      change (t :: u) with ([t] ++ u); change (0 + 1) with (zlen [t] + 0) end.
    rewrite bytes_to_int_app_r by lia. rewrite bytes_to_int_2. cbn [bind]. apply ok2; [reflexivity|].
    change (2 ^ 8) with 256. lia. }
  destruct (n <? 16777216) eqn:E3.
  { injection H as <- <-. change (2 =? 0) with false. change (2 =? 1) with false. change (2 =? 2) with true. cbv iota.
    rewrite !shiftr_div, !land_255 by lia. cbn [app].
    match goal with |- context [bytes_to_int (t :: ?u) _ 4] => 
      change (t :: u) with ([t] ++ u); change (0 + 1) with (zlen [t] + 0) end.
    rewrite bytes_to_int_app_r by lia. rewrite bytes_to_int_4. cbn [bind]. apply ok2; [reflexivity|].
    change (2 ^ 24) with 16777216. change (2 ^ 16) with 65536. change (2 ^ 8) with 256. lia. }
  injection H as <- <-. cbn [app]. change (3 =? 0) with false. change (3 =? 1) with false. change (3 =? 2) with false.
  cbv iota. rewrite zlen_cons, Hr by easy. apply ok2; [reflexivity|lia].
Qed.
Lemma old_length_wf n lt lb : 0 <= n -> old_packet_length_to_bytes n = (lt, lb) ->
  wf lb /\ 0 <= lt <= 3 /\ (lt = 3 <-> 16777216 <= n) /\
  zlen lb = (if n <? 256 then 1 else if n <? 65536 then 2 else if n <? 16777216 then 4 else 0).
Proof.
  intros Hn H. unfold old_packet_length_to_bytes in H.
  destruct (n <? 256) eqn:E1.
  { injection H as <- <-. split; [apply wf_cons; split; [unfold byte; lia|auto]|]. repeat split; lia. }
  destruct (n <? 65536) eqn:E2.
  { injection H as <- <-. split; [apply wf_cons; split; [|apply wf_cons; split; auto]|repeat split; lia].
    unfold byte; rewrite shiftr_div by lia; change (2 ^ 8) with 256; lia. }
  destruct (n <? 16777216) eqn:E3.
  { injection H as <- <-. split; [apply wf_cons; split; [|repeat (apply wf_cons; split; auto)]|repeat split; lia].
    unfold byte; rewrite shiftr_div by lia; change (2 ^ 24) with 16777216; lia. }
  injection H as <- <-. split; [auto|]. repeat split; lia.
Qed.
Lemma old_packet_length_bound data o o' n :
  0 <= o -> wf data -> old_packet_length data o = Ok (o', n) ->
  o < o' <= zlen data /\ 0 <= n.
Proof.
  intros Ho Hw H. unfold old_packet_length in H. apply bind_ok in H as (t & Ht & H).
  pose proof (get_ok_lt _ _ _ Ho Ht) as Hlt.
  destruct (Z.land t 3 =? 0).
  { apply bind_ok in H as (b & Hb2 & H). pose proof (get_byte _ _ _ Hw Hb2) as Hbb. unfold byte in Hbb.
    assert (HX := Hb2); apply get_ok_lt in HX; [|lia]. injection H as <- <-. lia. }
  destruct (Z.land t 3 =? 1).
  { apply bind_ok in H as (b & Hb2 & H). injection H as <- <-. unfold short_to_int in Hb2.
    apply bytes_to_int_slice in Hb2 as [-> Hle]; [|lia|lia]. specialize (Hle ltac:(lia)).
    pose proof (be_val_nonneg (slice data (o + 1) (o + 1 + 2)) (slice_wf _ _ _ Hw)). lia. }
  destruct (Z.land t 3 =? 2).
  { apply bind_ok in H as (b & Hb2 & H). injection H as <- <-. unfold long_to_int in Hb2.
    apply bytes_to_int_slice in Hb2 as [-> Hle]; [|lia|lia]. specialize (Hle ltac:(lia)).
    pose proof (be_val_nonneg (slice data (o + 1) (o + 1 + 4)) (slice_wf _ _ _ Hw)). lia. }
  injection H as <- <-. lia.
Qed.
