(** Lemmas behind the theorems of [P_Codec]. *)
From Verif Require Import Base BaseProofs Spec Utils UtilsProofs HexProofs Framing SpecFraming FramingProofs.

Lemma c01_2 (i : Z) (pre suf : bytes) : 0 <= i -> zlen (int_to_2byte i) = 2 /\ wf (int_to_2byte i) /\
  bytes_to_int (pre ++ int_to_2byte i ++ suf) (zlen pre) 2 = Ok (i mod 2 ^ 16).
Proof. intros _. rewrite int_to_2byte_be. split; [apply be_bytes_len|]. split; [apply be_bytes_wf|]. apply (fixed_width_read 2). Qed.
Lemma c01_4 (i : Z) (pre suf : bytes) : 0 <= i -> zlen (int_to_4byte i) = 4 /\ wf (int_to_4byte i) /\
  bytes_to_int (pre ++ int_to_4byte i ++ suf) (zlen pre) 4 = Ok (i mod 2 ^ 32).
Proof. intros _. rewrite int_to_4byte_be. split; [apply be_bytes_len|]. split; [apply be_bytes_wf|]. apply (fixed_width_read 4). Qed.
Lemma c01_8 (i : Z) (pre suf : bytes) : 0 <= i -> zlen (int_to_8byte i) = 8 /\ wf (int_to_8byte i) /\
  bytes_to_int (pre ++ int_to_8byte i ++ suf) (zlen pre) 8 = Ok (i mod 2 ^ 64).
Proof. intros _. rewrite int_to_8byte_be. split; [apply be_bytes_len|]. split; [apply be_bytes_wf|]. apply (fixed_width_read 8). Qed.
Lemma split_at (data : bytes) (o n : Z) : 0 <= o -> 0 <= n -> o + n <= zlen data ->
  exists p m s, data = p ++ m ++ s /\ zlen p = o /\ zlen m = n.
Proof.
  intros Ho Hn Hl.
  exists (firstn (Z.to_nat o) data), (firstn (Z.to_nat n) (skipn (Z.to_nat o) data)), (skipn (Z.to_nat n) (skipn (Z.to_nat o) data)).
  split; [now rewrite !firstn_skipn|]. unfold zlen in *. rewrite !firstn_length, skipn_length. lia.
Qed.
Lemma bytes_to_int_exact (data : bytes) (offset len : Z) : 0 <= offset -> 0 < len ->
  bytes_to_int data offset len =
    if offset + len <=? zlen data then Ok (be_val (slice data offset (offset + len))) else Err IndexError.
Proof.
  intros Ho Hl. dif.
  - destruct (split_at data offset len) as (p & m & s & -> & Hp & Hm); [lia..|].
    subst offset len. rewrite bytes_to_int_spec by easy. now rewrite slice_app.
  - apply bytes_to_int_short; lia.
Qed.

Lemma c02_round_trip (fl : Z -> Z) (i : Z) (pre suf : bytes) :
  0 <= i -> bit_length i <= 65535 -> (0 < i -> Z.log2 i <= fl i <= 65534) ->
  exists enc, int_to_mpi fl i = Ok enc /\ wf enc /\
    mpi_to_int (pre ++ enc ++ suf) (zlen pre) = Ok (i, zlen (pre ++ enc)).
Proof.
  intros Hi _ Hf. destruct (mpi_round_trip fl i pre suf) as (enc & E & R); [lia| |].
  - intros Hp. specialize (Hf Hp). pose proof (Z.log2_nonneg i). split; [lia|]. apply log2_lt_256; lia.
  - exists enc. split; [easy|]. split; [|easy]. unfold int_to_mpi in E.
    destruct (i <? 0); [discriminate|]. destruct (i =? 0).
    + injection E as <-. repeat (apply wf_cons; split; [unfold byte; lia|]). auto.
    + set (b := int_to_2byte (fl i + 1)) in E. assert (Hb : wf b) by (apply (be_bytes_wf 2)). clearbody b.
      injection E as <-. apply wf_app. split; [easy|apply be_bytes_wf].
Qed.
Lemma c02_negative (fl : Z -> Z) (i : Z) : i < 0 -> int_to_mpi fl i = Err ValueError.
Proof. intros. unfold int_to_mpi. dif; [reflexivity|lia]. Qed.
Lemma c02_undershoot : exists (fl : Z -> Z) (i : Z) (enc : bytes),
  fl i = Z.log2 i - 1 /\ 0 < i /\ bit_length i <= 65535 /\ int_to_mpi fl i = Ok enc /\ mpi_to_int enc 0 = Ok (0, zlen enc).
Proof.
  exists (fun i => Z.log2 i - 1), (2 ^ 2960). eexists. split; [reflexivity|].
  split; [reflexivity|]. split; [vm_compute; discriminate|].
  split; vm_compute; reflexivity.
Qed.
Lemma mpi_wrap fl i : 0 < i -> fl i = 65535 -> forall enc, int_to_mpi fl i = Ok enc -> mpi_to_int enc 0 = Ok (0, 2).
Proof.
  intros Hi Hf enc E. rewrite int_to_mpi_shape, Hf in E by easy. change (65535 + 1) with 65536 in E.
  generalize (be_bytes (Z.to_nat (ceil8 65536)) i) as b, E. clear E. intros b E.
  change (int_to_2byte 65536) with [0;0] in E. cbn [app] in E. injection E as <-.
  pose proof (mpi_to_int_spec [] [0;0] [] b 0) as H.
  cbn [app] in H. change (zlen []) with 0 in H. rewrite H by reflexivity. reflexivity.
Qed.
Lemma c02_too_long : exists (i : Z) (enc : bytes),
  0 <= i /\ int_to_mpi Z.log2 i = Ok enc /\ mpi_to_int enc 0 = Ok (0, 2).
Proof.
  assert (H : exists i, 0 < i /\ Z.log2 i = 65535).
  { exists (Z.shiftl 1 65535). split; [vm_compute; reflexivity|vm_compute; reflexivity]. }
  destruct H as (i & Hi & Hl). exists i. eexists. split; [lia|]. split; [now apply int_to_mpi_shape|].
  apply (mpi_wrap Z.log2 i Hi Hl). now apply int_to_mpi_shape.
Qed.

Lemma rfc_mpi_unique i a b : rfc_mpi i a -> rfc_mpi i b -> a = b.
Proof.
  intros (l & x & -> & Hl & Hv & Hx & Hxv & Hw) (l' & x' & -> & Hl' & Hv' & Hx' & Hxv' & Hw').
  apply wf_app in Hw as [? ?]. apply wf_app in Hw' as [? ?]. f_equal; apply be_val_inj; auto; congruence.
Qed.
Lemma c03_canonical (fl : Z -> Z) (i : Z) (enc : bytes) :
  0 <= i -> bit_length i <= 65535 -> (0 < i -> fl i = Z.log2 i) -> int_to_mpi fl i = Ok enc -> rfc_mpi i enc.
Proof.
  unfold rfc_mpi, bit_length. intros Hi Hbl Hf E. destruct (Z.eq_dec i 0) as [->|Hne].
  - injection E as <-. exists [0;0], []. repeat split. repeat (apply wf_cons; split; [unfold byte; lia|]). auto.
  - rewrite int_to_mpi_shape in E by lia. rewrite Hf in E by lia.
    assert (Hlog : 0 <= Z.log2 i < 65535) by (split; [apply Z.log2_nonneg|destruct (i =? 0) eqn:E0; lia]).
    set (b := int_to_2byte (Z.log2 i + 1)) in E.
    assert (Hb : wf b /\ zlen b = 2 /\ be_val b = Z.log2 i + 1).
    { split; [apply (be_bytes_wf 2)|]. split; [reflexivity|]. unfold b. rewrite int_to_2byte_be, be_bytes_val.
      apply Z.mod_small. change (256 ^ Z.of_nat 2) with 65536. lia. }
    clearbody b. destruct Hb as (Hb1 & Hb2 & Hb3). injection E as <-.
    exists b, (be_bytes (Z.to_nat (ceil8 (Z.log2 i + 1))) i).
    dif; [lia|]. split; [easy|]. split; [easy|]. split; [easy|].
    assert (0 <= ceil8 (Z.log2 i + 1)) by (apply ceil8_pos; lia).
    split; [rewrite be_bytes_len, Z2Nat.id by lia; reflexivity|].
    split; [|apply wf_app; split; [easy|apply be_bytes_wf]].
    rewrite be_bytes_val, Z2Nat.id by lia. apply Z.mod_small. split; [lia|]. apply log2_lt_256; lia.
Qed.
Lemma c03_refuted : exists (fl : Z -> Z) (i : Z) (enc : bytes),
  0 < i < 2 ^ 64 /\ fl i = Z.log2 i + 1 /\ int_to_mpi fl i = Ok enc /\ ~ rfc_mpi i enc.
Proof.
  exists (fun i => Z.log2 i + 1), (2 ^ 48 - 1). eexists. split; [lia|]. split; [reflexivity|].
  split; [vm_compute; reflexivity|]. intros H.
  assert (H0 : rfc_mpi (2 ^ 48 - 1) [0; 48; 255; 255; 255; 255; 255; 255]).
  { apply (c03_canonical Z.log2); [lia|vm_compute; discriminate|easy|vm_compute; reflexivity]. }
  pose proof (rfc_mpi_unique _ _ _ H H0). discriminate.
Qed.

Lemma c04_round_trip (fl : Z -> Z) : (forall i, 1024 <= i <= 65011712 -> fl i = Z.log2 i) ->
  forall c, byte c -> int_to_s2k_count fl (s2k_count_to_int c) = Ok [c].
Proof. intros. now apply s2k_count_encode. Qed.
Lemma c04_accepts (fl : Z -> Z) : (forall i, 1024 <= i <= 65011712 -> fl i = Z.log2 i) ->
  forall i, (exists bs, int_to_s2k_count fl i = Ok bs) <-> (exists c, byte c /\ i = s2k_count_to_int c).
Proof.
  intros Hfl i. split.
  - intros (bs & H). destruct (s2k_count_accept fl i bs Hfl H) as (c & Hc & _ & E). eauto.
  - intros (c & Hc & ->). exists [c]. now apply s2k_count_encode.
Qed.
Lemma c04_rejects (fl : Z -> Z) : (forall i, 1024 <= i <= 65011712 -> fl i = Z.log2 i) ->
  forall i, (forall c, byte c -> i <> s2k_count_to_int c) -> int_to_s2k_count fl i = Err ValueError.
Proof.
  intros Hfl i H. destruct (int_to_s2k_count fl i) as [bs|e] eqn:E.
  - destruct (s2k_count_accept fl i bs Hfl E) as (c & Hc & _ & Ei). now apply H in Hc.
  - unfold int_to_s2k_count in E. destruct (i <? 1024); [congruence|]. destruct (65011712 <? i); [congruence|].
    destruct (negb _); [congruence|]. unfold mk_bytes in E. destruct (wfb _); congruence.
Qed.
Lemma c04_value c : byte c -> s2k_count_to_int c = (16 + c mod 16) * 2 ^ (c / 16 + 6).
Proof. intros Hc. apply s2k_count_val. unfold byte in Hc. lia. Qed.

Lemma c05_round_trip bs : wf bs -> bytearray_to_hex bs 0 None = Ok (hex_text bs) /\ hex_to_bytes (hex_text bs) None = Ok bs.
Proof. intros. split; [now apply bytearray_to_hex_all|now apply hex_to_bytes_text]. Qed.
Lemma c05_at_offset pre bs suf : wf bs ->
  bytearray_to_hex (pre ++ bs ++ suf) (zlen pre) (Some (2 * zlen bs)) = Ok (hex_text bs).
Proof. intros. now apply bytearray_to_hex_at. Qed.
Lemma be_val_zeros n l : be_val (repeat 0 n ++ l) = be_val l.
Proof. induction n as [|n IH]; [reflexivity|]. cbn [repeat app be_val]. rewrite IH. lia. Qed.
Lemma c05_expected bs n : wf bs -> 0 < n ->
  exists r, hex_to_bytes (hex_text bs) (Some n) = Ok r /\ zlen r = n /\ be_val r = be_val bs mod 256 ^ n.
Proof.
  intros Hw Hn. eexists. split; [now apply hex_to_bytes_text_expected|].
  pose proof (hex_to_bytes_text_expected bs n Hw Hn) as E. apply hex_to_bytes_expected in E as El; [|lia|lia].
  split; [exact El|]. rewrite be_val_zeros. clear E El. pose proof (zlen_nonneg bs).
  destruct (Z.le_gt_cases (zlen bs) n) as [Hc|Hc].
  - replace (Z.max 0 (zlen bs - n)) with 0 by lia. unfold slice_from. rewrite clip_in by lia. cbn [Z.to_nat skipn].
    symmetry. apply Z.mod_small. pose proof (be_val_nonneg bs Hw). split; [lia|].
    apply Z.lt_le_trans with (256 ^ zlen bs); [lia|]. apply Z.pow_le_mono_r; lia.
  - replace (Z.max 0 (zlen bs - n)) with (zlen bs - n) by lia.
    destruct (split_at bs (zlen bs - n) n) as (p & m & s & Hb & Hp & Hm); [lia..|].
    assert (s = []). { apply zlen_0. rewrite Hb, !zlen_app in Hp. lia. } subst s. rewrite app_nil_r in Hb.
    rewrite <- Hp. rewrite Hb at 1 2. rewrite slice_from_app, be_val_app, Hm.
    rewrite Z.add_comm, Z.mod_add by (apply Z.pow_nonzero; lia). symmetry. apply Z.mod_small.
    rewrite Hb in Hw. apply wf_app in Hw as [_ Hw]. pose proof (be_val_nonneg m Hw). rewrite Hm in *. lia.
Qed.
Lemma c05_int i n : 0 <= i -> 0 < n -> int_to_hex i (Some n) = hex_fixed (Z.to_nat n) i /\ zlen (int_to_hex i (Some n)) = n.
Proof. intros Hi Hn. rewrite int_to_hex_spec by easy. split; [easy|]. rewrite hex_fixed_len. lia. Qed.
Lemma c05_consistent bs : wf bs -> bs <> [] -> hex_text bs = int_to_hex (be_val bs) (Some (2 * zlen bs)).
Proof.
  intros Hw Hne. pose proof (be_val_nonneg bs Hw). pose proof (zlen_nonneg bs).
  assert (zlen bs <> 0) by (intros E; apply Hne, zlen_0, E).
  rewrite int_to_hex_spec by lia. rewrite hex_text_fixed by easy. f_equal. unfold zlen. lia.
Qed.

Lemma c06_round_trip (n : Z) (ap : bool) (pre suf : bytes) : 0 <= n <= 4294967295 ->
  exists l, new_packet_length_to_bytes n ap = Ok (l, 0) /\ wf l /\
    new_packet_length (pre ++ l ++ suf) (zlen pre) = Ok (zlen (pre ++ l), n, false).
Proof.
  intros Hn. destruct (new_length_conforms n ap Hn) as (l & E & Hw & R). exists l. split; [easy|]. split; [easy|].
  rewrite zlen_app. now apply rfc_new_length_parse.
Qed.
Lemma c06_conforms (n : Z) (ap : bool) : 0 <= n <= 4294967295 ->
  exists l, new_packet_length_to_bytes n ap = Ok (l, 0) /\ rfc_new_length n l /\
    zlen l = (if n <=? 191 then 1 else if n <=? 8383 then 2 else 5) /\
    forall l', rfc_new_length n l' -> zlen l <= zlen l'.
Proof.
  intros Hn. destruct (new_length_conforms n ap Hn) as (l & E & Hw & R). exists l. split; [easy|]. split; [easy|].
  split.
  - destruct (new_length_total n ap Hn) as (l' & E' & _ & Hl'). assert (l' = l) by congruence. subst l'. rewrite Hl'.
    destruct (n <? 192) eqn:?, (n <=? 191) eqn:?; try lia. destruct (n <? 8384) eqn:?, (n <=? 8383) eqn:?; lia.
  - intros l' Hl'. eapply new_length_shortest; eauto. lia.
Qed.
Lemma c06_rejects n : 4294967295 < n -> new_packet_length_to_bytes n false = Err ValueError.
Proof. intros. now rewrite new_length_too_big. Qed.

Lemma c07_round_trip (n t lt : Z) (lb pre body suf : bytes) : 0 <= n ->
  old_packet_length_to_bytes n = (lt, lb) -> t mod 4 = 0 -> zlen body = n -> (n < 16777216 \/ suf = []) ->
  wf lb /\ 0 <= lt <= 3 /\
  old_packet_length (pre ++ (t + lt) :: lb ++ body ++ suf) (zlen pre) = Ok (zlen pre + 1 + zlen lb, n).
Proof.
  intros Hn E Ht Hb Hs. pose proof (old_length_wf n lt lb Hn E) as (Hw & Hlt & H3 & _).
  split; [easy|]. split; [easy|].
  rewrite <- (Z.add_0_r (zlen pre)) at 1. rewrite old_packet_length_app_r by lia.
  rewrite (old_length_round_trip_0 n (t + lt) (body ++ suf) lt lb); [|lia|easy|lia|].
  - cbn [sh_old]. apply ok2; lia.
  - intros Hl3. destruct Hs as [Hs| ->]; [lia|]. now rewrite app_nil_r.
Qed.
Lemma c07_indeterminate (n t : Z) (pre rest : bytes) : 16777216 <= n -> t mod 4 = 0 ->
  old_packet_length_to_bytes n = (3, []) /\
  old_packet_length (pre ++ (t + 3) :: rest) (zlen pre) = Ok (zlen pre + 1, zlen rest).
Proof.
  intros Hn Ht. split.
  - unfold old_packet_length_to_bytes. dif; [lia|]. dif; [lia|]. dif; [lia|reflexivity].
  - unfold old_packet_length. rewrite get_app_0. cbn [bind]. rewrite land_3.
    replace ((t + 3) mod 4) with 3 by lia.
    change (3 =? 0) with false. change (3 =? 1) with false. change (3 =? 2) with false. cbv iota.
    apply ok2; [reflexivity|]. rewrite zlen_app, zlen_cons. lia.
Qed.
