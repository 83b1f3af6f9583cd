(** Lemmas about packet framing. *)
From Verif Require Import Base BaseProofs Spec Utils UtilsProofs Framing SpecFraming.

Lemma byte_forall (f : Z -> bool) :
  forallb (fun n => f (Z.of_nat n)) (seq 0 256) = true -> forall b, byte b -> f b = true.
Proof.
  intros H b Hb. unfold byte in Hb. rewrite forallb_forall in H. specialize (H (Z.to_nat b)).
  rewrite in_seq, Z2Nat.id in H by lia. apply H. lia.
Qed.
Lemma land_63 x : Z.land x 63 = x mod 64.
Proof. change 63 with (Z.ones 6). rewrite Z.land_ones by lia. reflexivity. Qed.
Lemma land_31 x : Z.land x 31 = x mod 32.
Proof. change 31 with (Z.ones 5). rewrite Z.land_ones by lia. reflexivity. Qed.
Lemma land_64_byte b : byte b -> (Z.land b 64 =? 0) = ((b / 64) mod 2 =? 0).
Proof.
  intros Hb. apply (byte_forall (fun b => Bool.eqb (Z.land b 64 =? 0) ((b / 64) mod 2 =? 0))) in Hb.
  - now apply eqb_prop in Hb.
  - vm_compute. reflexivity.
Qed.

(** ** Lengths *)
Lemma rfc_new_length_nonneg n l : rfc_new_length n l -> 0 <= n /\ 1 <= zlen l.
Proof.
  intros H. destruct H as [n Hn|b0 b1 H0 H1|q Hq Hw].
  - change (zlen [n]) with 1. lia.
  - change (zlen [b0;b1]) with 2. unfold byte in *. lia.
  - rewrite zlen_cons. pose proof (be_val_nonneg q Hw). lia.
Qed.
Lemma rfc_new_length_parse_0 n l suf : rfc_new_length n l ->
  new_packet_length (l ++ suf) 0 = Ok (zlen l, n, false).
Proof.
  intros H. unfold new_packet_length. destruct H as [n Hn|b0 b1 H0 H1|q Hq Hw]; cbn [app]; rewrite get_cons_0; cbn [bind].
  - dif; [reflexivity|lia].
  - dif; [lia|]. dif; [|lia]. rewrite get_cons_S by lia. change (0 + 1 - 1) with 0. rewrite get_cons_0. cbn [bind].
    rewrite Z.shiftl_mul_pow2 by lia. apply ok3; [reflexivity|change (2 ^ 8) with 256; lia|reflexivity].
  - change (255 <? 192) with false. change (255 <? 224) with false. change (255 =? 255) with true. cbv iota.
    unfold long_to_int. change (255 :: q ++ suf) with ([255] ++ q ++ suf). change (0 + 1) with (zlen [255]).
    rewrite bytes_to_int_spec by lia. cbn [bind]. apply ok3; try reflexivity. rewrite !zlen_cons, Hq. reflexivity.
Qed.
Lemma rfc_new_length_parse n l pre suf : rfc_new_length n l ->
  new_packet_length (pre ++ l ++ suf) (zlen pre) = Ok (zlen pre + zlen l, n, false).
Proof.
  intros H. rewrite <- (Z.add_0_r (zlen pre)) at 1. rewrite new_packet_length_app_r by lia.
  now rewrite (rfc_new_length_parse_0 n l suf H).
Qed.
Lemma new_length_conforms n ap : 0 <= n <= MAX_PACKET_LENGTH ->
  exists l, new_packet_length_to_bytes n ap = Ok (l, 0) /\ wf l /\ rfc_new_length n l.
Proof.
  intros Hn. destruct (new_length_total n ap Hn) as (l & El & Hw & Hlen). exists l. split; [easy|]. split; [easy|].
  unfold new_packet_length_to_bytes in El.
  destruct (n <? 192) eqn:E1.
  { apply bind_ok in El as (x & Hx & El). apply mk_bytes_inv in Hx as [-> _]. injection El as <-. constructor. lia. }
  destruct (n <? 8384) eqn:E2.
  { apply bind_ok in El as (x & Hx & El). apply mk_bytes_inv in Hx as [-> _]. injection El as <-.
    rewrite shiftr_div, land_255 in * by lia. change (2 ^ 8) with 256 in *.
    replace n with (((n - 192) / 256 + 192 - 192) * 256 + (n - 192) mod 256 + 192) at 1 by lia.
    constructor; unfold byte; lia. }
  destruct (n <=? MAX_PACKET_LENGTH) eqn:E3; [|lia].
  apply (f_equal (fun r => match r with Ok (x, _) => x | Err _ => [] end)) in El. cbv beta iota in El. rewrite <- El.
  fold (int_to_4byte n). rewrite int_to_4byte_be.
  replace n with (be_val (be_bytes 4 n)) at 1.
  - constructor; [reflexivity|apply be_bytes_wf].
  - rewrite be_bytes_val. apply Z.mod_small. unfold MAX_PACKET_LENGTH in *. change (256 ^ Z.of_nat 4) with 4294967296. lia.
Qed.
(** the chosen encoding is a shortest one *)
Lemma new_length_shortest n ap l l' : 0 <= n -> new_packet_length_to_bytes n ap = Ok (l, 0) ->
  rfc_new_length n l' -> zlen l <= zlen l'.
Proof.
  intros Hn H H'. assert (n <= MAX_PACKET_LENGTH) as Hm.
  { destruct (Z.le_gt_cases n MAX_PACKET_LENGTH) as [Hc|Hc]; [easy|].
    rewrite new_length_too_big in H by easy. destruct ap; [|discriminate]. injection H as _ H. unfold MAX_PACKET_LENGTH in Hc. lia. }
  destruct (new_length_total n ap ltac:(lia)) as (l0 & E & _ & Hl). rewrite E in H. injection H as <-. rewrite Hl.
  destruct H' as [n Hn'|b0 b1 H0 H1|q Hq Hw].
  - change (zlen [n]) with 1. dif; lia.
  - change (zlen [b0;b1]) with 2. unfold byte in *. dif; [lia|]. dif; lia.
  - rewrite zlen_cons. dif; [lia|]. dif; lia.
Qed.

Lemma rfc_old_length_parse_0 n lt l t rest : rfc_old_length n lt l -> t mod 4 = lt ->
  old_packet_length (t :: l ++ rest) 0 = Ok (1 + zlen l, n).
Proof.
  intros H Ht. unfold old_packet_length, short_to_int, long_to_int. rewrite get_cons_0. cbn [bind]. rewrite land_3, Ht.
  change (t :: l ++ rest) with ([t] ++ l ++ rest). change (0 + 1) with (zlen [t] + 0).
  rewrite !bytes_to_int_app_r, get_app_r by lia.
  destruct H as [n Hn Hw|n Hn Hw|n Hn Hw].
  - change (0 =? 0) with true. cbv iota. destruct (zlen_1 n Hn) as (b & ->).
    cbn [app]. rewrite get_cons_0. cbn [bind be_val]. apply ok2; [reflexivity|]. change (zlen (@nil Z)) with 0. lia.
  - change (1 =? 0) with false. change (1 =? 1) with true. cbv iota.
    pose proof (bytes_to_int_spec [] n rest 2 ltac:(lia)) as E. cbn [app] in E. change (zlen []) with 0 in E. rewrite E.
    cbn [bind]. apply ok2; [|reflexivity]. change (zlen [t]) with 1. lia.
  - change (2 =? 0) with false. change (2 =? 1) with false. change (2 =? 2) with true. cbv iota.
    pose proof (bytes_to_int_spec [] n rest 4 ltac:(lia)) as E. cbn [app] in E. change (zlen []) with 0 in E. rewrite E.
    cbn [bind]. apply ok2; [|reflexivity]. change (zlen [t]) with 1. lia.
Qed.
Lemma old_length_conforms n lt lb : 0 <= n < 16777216 -> old_packet_length_to_bytes n = (lt, lb) ->
  wf lb /\ rfc_old_length n lt lb.
Proof.
  intros Hn H. pose proof (old_length_wf n lt lb ltac:(lia) H) as (Hw & _ & _ & Hl). split; [easy|].
  unfold old_packet_length_to_bytes in H.
  destruct (n <? 256) eqn:E1.
  { injection H as <- <-. replace n with (be_val [n]) at 1 by (cbn; lia). constructor; easy. }
  destruct (n <? 65536) eqn:E2.
  { injection H as <- <-. rewrite shiftr_div, land_255 in * by lia. change (2 ^ 8) with 256 in *.
    replace n with (be_val [n / 256; n mod 256]) at 1.
    - constructor; easy.
    - cbn [be_val]. change (zlen [n mod 256]) with 1. change (zlen (@nil Z)) with 0. lia. }
  destruct (n <? 16777216) eqn:E3; [|lia].
  injection H as <- <-. rewrite !shiftr_div, !land_255 in * by lia.
  change (2 ^ 24) with 16777216 in *. change (2 ^ 16) with 65536 in *. change (2 ^ 8) with 256 in *.
  match goal with |- rfc_old_length _ _ ?q => replace n with (be_val q) at 1 end.
  - constructor; easy.
  - cbn [be_val]. rewrite !zlen_cons. change (zlen (@nil Z)) with 0. 
    change (256 ^ (1 + (1 + (1 + 0)))) with 16777216. change (256 ^ (1 + (1 + 0))) with 65536.
    change (256 ^ (1 + 0)) with 256. change (256 ^ 0) with 1. lia.
Qed.

(** ** Reading one packet *)
(** the part of an iteration of packet_from_packet_data after the tag is known *)
Definition pfd_rest (fuel' : nat) (data : bytes) (offset tag : Z) (h : header_format) (acc : bytes) :=
  match h with
  | NewH =>
      do (offset, data_length, incomplete) <- new_packet_length data offset;;
      let packet_data := acc ++ slice data offset (offset + data_length) in
      let offset := offset + data_length in
      if (incomplete : bool) then pfd_loop fuel' data offset (Some tag) h packet_data
      else Ok (offset, h, tag, packet_data)
  | OldH =>
      do (offset, data_length) <- old_packet_length data offset;;
      Ok (offset + data_length, h, tag, acc ++ slice data offset (offset + data_length))
  end.
Lemma pfd_loop_some f data o t h acc : t <> 0 ->
  pfd_loop (S f) data o (Some t) h acc = pfd_rest f data o t h acc.
Proof. intros Ht. cbn [pfd_loop]. dif; [lia|]. reflexivity. Qed.
Lemma pfd_loop_none f data o h acc :
  pfd_loop (S f) data o None h acc =
    do b <- get data o;;
    if Z.land b 64 =? 0 then pfd_rest f data o (Z.shiftr (Z.land b 63) 2) OldH acc
    else pfd_rest f data (o + 1) (Z.land b 63) NewH acc.
Proof.
  cbn [pfd_loop]. destruct (get data o) as [b|e]; cbn [bind]; [|reflexivity].
  destruct (Z.land b 64 =? 0); reflexivity.
Qed.
Lemma pfd_loop_zero f data o h acc :
  pfd_loop (S f) data o (Some 0) h acc = pfd_loop (S f) data o None h acc.
Proof. reflexivity. Qed.

Lemma rfc_new_body_len body enc : rfc_new_body body enc -> zlen body <= zlen enc /\ 1 <= zlen enc.
Proof.
  induction 1 as [body l Hl|k c body enc Hk Hc Hb IH].
  - rewrite zlen_app. apply rfc_new_length_nonneg in Hl. pose proof (zlen_nonneg body). lia.
  - rewrite zlen_cons, !zlen_app. pose proof (zlen_nonneg c). lia.
Qed.
Lemma new_partial_parse pre k rest : 0 <= k <= 30 ->
  new_packet_length (pre ++ (224 + k) :: rest) (zlen pre) = Ok (zlen pre + 1, 2 ^ k, true).
Proof.
  intros Hk. unfold new_packet_length. rewrite get_app_0. cbn [bind].
  dif; [lia|]. dif; [lia|]. dif; [lia|]. rewrite land_31, Z.shiftl_1_l.
  replace ((224 + k) mod 32) with k by lia. reflexivity.
Qed.
Lemma pfd_body body enc : rfc_new_body body enc -> forall fuel pre suf t acc,
  t <> 0 -> (length enc <= fuel)%nat ->
  pfd_loop fuel (pre ++ enc ++ suf) (zlen pre) (Some t) NewH acc
    = Ok (zlen (pre ++ enc), NewH, t, acc ++ body).
Proof.
  induction 1 as [body l Hl|k c body enc Hk Hc Hb IH]; intros fuel pre suf t acc Ht Hf.
  - destruct fuel as [|fuel].
    { apply rfc_new_length_nonneg in Hl. rewrite app_length in Hf. unfold zlen in Hl. lia. }
    rewrite pfd_loop_some by easy. unfold pfd_rest.
    rewrite <- app_assoc, (rfc_new_length_parse _ _ pre (body ++ suf) Hl). cbn [bind].
    rewrite app_assoc, slice_app' by (rewrite zlen_app; lia).
    rewrite !zlen_app. do 4 f_equal. lia.
  - destruct fuel as [|fuel]; [cbn [length] in Hf; lia|].
    rewrite pfd_loop_some by easy. unfold pfd_rest. cbn [app].
    rewrite new_partial_parse by lia. cbn [bind].
    assert (Hc' : slice (pre ++ (224 + k) :: (c ++ enc) ++ suf) (zlen pre + 1) (zlen pre + 1 + 2 ^ k) = c).
    { replace (pre ++ (224 + k) :: (c ++ enc) ++ suf) with ((pre ++ [224 + k]) ++ c ++ enc ++ suf)
        by (rewrite <- !app_assoc; reflexivity).
      apply slice_app'; rewrite zlen_app; change (zlen [224 + k]) with 1; lia. }
    rewrite Hc'.
    replace (pre ++ (224 + k) :: (c ++ enc) ++ suf) with ((pre ++ (224 + k) :: c) ++ enc ++ suf)
        by (rewrite <- !app_assoc; reflexivity).
    replace (zlen pre + 1 + 2 ^ k) with (zlen (pre ++ (224 + k) :: c)) by (rewrite zlen_app, zlen_cons; lia).
    rewrite IH; [|easy|cbn [length] in Hf; rewrite app_length in Hf; lia].
    rewrite <- !app_assoc. reflexivity.
Qed.

Lemma raw_from_data_rfc part p enc pre suf : rfc_packet part p enc ->
  raw_from_data (pre ++ enc ++ suf) (zlen pre) = Ok (zlen (pre ++ enc), p).
Proof.
  intros H. unfold raw_from_data. destruct H as [t body l Ht Hl|t body enc Ht Hb|t body lt l Ht Hl].
  - rewrite pfd_loop_none. cbn [app]. rewrite get_app_0. cbn [bind].
    rewrite land_64_byte, land_63 by (unfold byte; lia). dif; [lia|].
    unfold pfd_rest.
    replace (pre ++ 192 + t :: (l ++ body) ++ suf) with ((pre ++ [192 + t]) ++ l ++ (body ++ suf))
      by (rewrite <- !app_assoc; reflexivity).
    replace (zlen pre + 1) with (zlen (pre ++ [192 + t])) by (rewrite zlen_app; reflexivity).
    rewrite (rfc_new_length_parse _ _ _ _ Hl). cbn [bind].
    rewrite (app_assoc _ l), slice_app' by (rewrite !zlen_app; lia). cbn [bind app].
    apply ok2; [rewrite !zlen_app, !zlen_cons, !zlen_app; change (zlen (@nil Z)) with 0; lia|]. f_equal. lia.
  - rewrite pfd_loop_none. cbn [app]. rewrite get_app_0. cbn [bind].
    rewrite land_64_byte, land_63 by (unfold byte; lia). dif; [lia|].
    replace ((192 + t) mod 64) with t by lia.
    assert (Hlen : exists g, length (pre ++ 192 + t :: enc ++ suf) = S g /\ (length enc <= S g)%nat).
    { eexists. split; [|]; [rewrite app_length; cbn [length]; rewrite Nat.add_succ_r; reflexivity|rewrite app_length; lia]. }
    destruct Hlen as (g & -> & Hg).
    rewrite <- pfd_loop_some by lia.
    replace (pre ++ 192 + t :: enc ++ suf) with ((pre ++ [192 + t]) ++ enc ++ suf)
      by (rewrite <- !app_assoc; reflexivity).
    replace (zlen pre + 1) with (zlen (pre ++ [192 + t])) by (rewrite zlen_app; reflexivity).
    rewrite (pfd_body body enc Hb) by lia. cbn [bind app]. rewrite <- app_assoc. reflexivity.
  - rewrite pfd_loop_none. cbn [app]. rewrite get_app_0. cbn [bind].
    assert (Hlt : 0 <= lt <= 2) by (destruct Hl; lia).
    rewrite land_64_byte, land_63 by (unfold byte; lia). dif; [|lia].
    unfold pfd_rest. rewrite <- (Z.add_0_r (zlen pre)) at 1. rewrite old_packet_length_app_r by lia.
    rewrite <- app_assoc, (rfc_old_length_parse_0 (zlen body) lt l) by (easy || lia).
    cbn [sh_old bind].
    assert (Hs : slice (pre ++ 128 + 4 * t + lt :: l ++ body ++ suf) (zlen pre + (1 + zlen l)) (zlen pre + (1 + zlen l) + zlen body) = body).
    { replace (pre ++ 128 + 4 * t + lt :: l ++ body ++ suf) with ((pre ++ 128 + 4 * t + lt :: l) ++ body ++ suf)
       by (rewrite <- !app_assoc; reflexivity).
      apply slice_app'; rewrite zlen_app, zlen_cons; lia. }
    rewrite Hs. cbn [app]. apply ok2.
    + rewrite !zlen_app, zlen_cons, zlen_app. lia.
    + f_equal. rewrite shiftr_div by lia. change (2 ^ 2) with 4. lia.
Qed.

(** ** Writing one packet *)
Lemma packet_bytes_conforms p :
  representable p -> (hfmt p = NewH -> pcontent p <> []) ->
  exists enc, packet_bytes p = Ok enc /\ rfc_packet false p enc.
Proof.
  destruct p as [h t body]. unfold representable, packet_bytes, packet_bytes_fuel; cbn [hfmt ptype pcontent].
  intros Hr Hne. destruct h.
  - destruct Hr as [Ht Hl]. specialize (Hne eq_refl).
    rewrite mk_bytes_wf by (apply wf_cons; split; [unfold byte; lia|auto]). cbn [bind].
    cbn [new_body_loop].
    destruct (zlen body =? 0) eqn:E0. { exfalso. apply Hne, zlen_0. lia. }
    destruct (new_length_conforms (zlen body) (is_data_type t)) as (l & El & Hw & Hc).
    { pose proof (zlen_nonneg body). unfold MAX_PACKET_LENGTH. lia. }
    rewrite El. cbn [bind]. change (0 =? 0) with true. cbv iota.
    rewrite Z.sub_0_r, slice_full. eexists. split; [reflexivity|].
    replace ([128 + (64 + t)] ++ l ++ body) with (192 + t :: l ++ body) by (cbn [app]; f_equal; lia).
    now constructor.
  - destruct Hr as [Ht Hl].
    destruct (old_packet_length_to_bytes (zlen body)) as [lt lb] eqn:El.
    pose proof (zlen_nonneg body).
    destruct (old_length_conforms (zlen body) lt lb ltac:(lia) El) as [Hw Hc].
    assert (Hlt : 0 <= lt <= 2) by (destruct Hc; lia).
    rewrite Z.shiftl_mul_pow2 by lia. change (2 ^ 2) with 4.
    rewrite mk_bytes_wf by (apply wf_cons; split; [unfold byte; lia|auto]). cbn [bind].
    rewrite mk_bytes_wf by easy. cbn [bind]. eexists. split; [reflexivity|].
    replace ([128 + t * 4 + lt] ++ lb ++ body) with (128 + 4 * t + lt :: lb ++ body) by (cbn [app]; f_equal; lia).
    now constructor.
Qed.
Lemma packet_bytes_empty_new t : 0 <= t <= 63 -> packet_bytes (Raw NewH t []) = Ok [192 + t].
Proof.
  intros Ht. unfold packet_bytes, packet_bytes_fuel; cbn [hfmt ptype pcontent].
  rewrite mk_bytes_wf by (apply wf_cons; split; [unfold byte; lia|auto]). cbn [bind].
  cbn [new_body_loop]. change (zlen (@nil Z) =? 0) with true. cbv iota. do 2 f_equal. lia.
Qed.
Lemma packet_bytes_indeterminate t body suf : 0 <= t <= 15 -> 16777216 <= zlen body ->
  packet_bytes (Raw OldH t body) = Ok (128 + 4 * t + 3 :: body) /\
  raw_from_data (128 + 4 * t + 3 :: body ++ suf) 0 = Ok (1 + zlen (body ++ suf), Raw OldH t (body ++ suf)).
Proof.
  intros Ht Hl. split.
  - unfold packet_bytes, packet_bytes_fuel; cbn [hfmt ptype pcontent]. unfold old_packet_length_to_bytes.
    dif; [lia|]. dif; [lia|]. dif; [lia|].
    rewrite Z.shiftl_mul_pow2 by lia. change (2 ^ 2) with 4.
    rewrite mk_bytes_wf by (apply wf_cons; split; [unfold byte; lia|auto]). cbn [bind].
    rewrite mk_bytes_wf by auto. cbn [bind app]. do 2 f_equal. lia.
  - unfold raw_from_data. rewrite pfd_loop_none, get_cons_0. cbn [bind].
    rewrite land_64_byte, land_63 by (unfold byte; lia). dif; [|lia].
    unfold pfd_rest, old_packet_length. rewrite get_cons_0. cbn [bind]. rewrite land_3.
    replace ((128 + 4 * t + 3) mod 4) with 3 by lia.
    change (3 =? 0) with false. change (3 =? 1) with false. change (3 =? 2) with false. cbv iota. cbn [bind app].
    rewrite zlen_cons. change (128 + 4 * t + 3 :: body ++ suf) with ([128 + 4 * t + 3] ++ (body ++ suf)).
    rewrite slice_app_end; [|reflexivity|change (zlen [128 + 4 * t + 3]) with 1; lia].
    apply ok2; [lia|]. f_equal. rewrite shiftr_div by lia. change (2 ^ 2) with 4. lia.
Qed.

(** ** Sequences *)
Inductive rfc_packets : list raw_packet -> bytes -> Prop :=
| rps_nil : rfc_packets [] []
| rps_cons part p ps enc encs : rfc_packet part p enc -> rfc_packets ps encs -> rfc_packets (p :: ps) (enc ++ encs).

Lemma rfc_packet_len part p enc : rfc_packet part p enc -> 0 < zlen enc.
Proof. intros H; destruct H; rewrite zlen_cons; [pose proof (zlen_nonneg (l ++ body))|pose proof (zlen_nonneg enc)|pose proof (zlen_nonneg (l ++ body))]; lia. Qed.
Lemma parse_loop_rfc {A} (dec : raw_packet -> res A) ps enc : rfc_packets ps enc -> forall objs,
  mapM dec ps = Ok objs -> forall fuel pre,
  (length enc < fuel)%nat -> parse_loop fuel dec (pre ++ enc) (zlen pre) = (objs, None).
Proof.
  induction 1 as [|part p ps enc encs Hp Hps IH]; intros objs Ho fuel pre Hf.
  - destruct fuel; [cbn in Hf; lia|]. cbn in Ho. injection Ho as <-.
    cbn [parse_loop]. rewrite app_nil_r. dif; [lia|reflexivity].
  - destruct fuel as [|fuel]; [lia|]. pose proof (rfc_packet_len _ _ _ Hp).
    cbn [mapM] in Ho. apply bind_ok in Ho as (o & Ho & Hos). apply bind_ok in Hos as (os & Hos & E). injection E as <-.
    cbn [parse_loop]. dif; [|rewrite !zlen_app in E; pose proof (zlen_nonneg encs); lia].
    unfold packet_from_packet_data. rewrite (raw_from_data_rfc part p enc pre encs Hp). cbn [bind]. rewrite Ho. cbn [bind].
    rewrite app_assoc. rewrite (IH os Hos). reflexivity.
    rewrite app_length in Hf. unfold zlen in *; lia.
Qed.
Lemma parse_rfc_packets {A} (dec : raw_packet -> res A) ps enc objs : rfc_packets ps enc ->
  mapM dec ps = Ok objs -> parse_binary_packet_data dec enc = (objs, None).
Proof.
  intros H Ho. unfold parse_binary_packet_data.
  apply (parse_loop_rfc dec ps enc H objs Ho _ []). lia.
Qed.
Lemma mapM_packet_bytes ps :
  (forall p, In p ps -> representable p /\ (hfmt p = NewH -> pcontent p <> [])) ->
  exists encs, mapM packet_bytes ps = Ok encs /\ rfc_packets ps (concat encs).
Proof.
  induction ps as [|p ps IH]; intros H.
  - exists []. split; [reflexivity|constructor].
  - destruct IH as (encs & E & R); [intros; apply H; now right|].
    destruct (packet_bytes_conforms p) as (enc & Ep & Rp); [apply H; now left|apply H; now left|].
    exists (enc :: encs). cbn [mapM]. rewrite Ep. cbn [bind]. rewrite E. split; [reflexivity|].
    cbn [concat]. now apply rps_cons with false.
Qed.

(** ** Progress and termination on arbitrary octets *)
Lemma pfd_progress data : wf data -> forall fuel o tag h acc o' h' t' b,
  0 <= o -> pfd_loop fuel data o tag h acc = Ok (o', h', t', b) -> o < o'.
Proof.
  intros Hw fuel. induction fuel as [|fuel IH]; intros o tag h acc o' h' t' b Ho H; [discriminate|].
  assert (Hrest : forall o1 t1 h1, o <= o1 -> pfd_rest fuel data o1 t1 h1 acc = Ok (o', h', t', b) -> o < o').
  { intros o1 t1 h1 Ho1 H1. unfold pfd_rest in H1. destruct h1.
    - apply bind_ok in H1 as ([[o2 n] inc] & E & H1).
      apply new_packet_length_bound in E as [E1 E2]; [|lia|easy].
      destruct inc.
      + apply IH in H1; lia.
      + injection H1 as <- <- <- <-. lia.
    - apply bind_ok in H1 as ([o2 n] & E & H1).
      apply old_packet_length_bound in E as [E1 E2]; [|lia|easy]. injection H1 as <- <- <- <-. lia. }
  assert (Hnone : forall h acc, pfd_loop (S fuel) data o None h acc = Ok (o', h', t', b) -> acc = acc -> True) by auto.
  destruct tag as [t|].
  - destruct (Z.eq_dec t 0) as [->|Hne].
    + rewrite pfd_loop_zero, pfd_loop_none in H. apply bind_ok in H as (x & Hx & H).
      destruct (Z.land x 64 =? 0); eapply Hrest; eauto; lia.
    + rewrite pfd_loop_some in H by easy. eapply Hrest; eauto; lia.
  - rewrite pfd_loop_none in H. apply bind_ok in H as (x & Hx & H).
    destruct (Z.land x 64 =? 0); eapply Hrest; eauto; lia.
Qed.
Lemma raw_from_data_progress data o o' p : wf data -> 0 <= o -> raw_from_data data o = Ok (o', p) -> o < o'.
Proof.
  intros Hw Ho H. unfold raw_from_data in H. apply bind_ok in H as ([[[o1 h1] t1] b1] & E & H).
  injection H as <- <-. eapply pfd_progress; eauto.
Qed.
Lemma bytes_to_int_err bs o n e : bytes_to_int bs o n = Err e -> e = IndexError.
Proof.
  unfold bytes_to_int. generalize 0 at 2 as acc. generalize 0 as i. generalize (Z.to_nat n) as m. intros m.
  induction m as [|m IH]; intros i acc H; [discriminate|]. cbn [bytes_to_int_loop] in H.
  destruct (get bs (o + i)) eqn:E; cbn [bind] in H; [eauto|]. injection H as ->. now apply get_err in E.
Qed.
Lemma new_packet_length_err data o e : new_packet_length data o = Err e -> e = IndexError.
Proof.
  unfold new_packet_length, long_to_int. destruct (get data o) eqn:E; cbn [bind]; [|intros [= ->]; now apply get_err in E].
  destruct (a <? 192); [discriminate|]. destruct (a <? 224).
  - destruct (get data (o + 1)) eqn:E2; cbn [bind]; [discriminate|intros [= ->]; now apply get_err in E2].
  - destruct (a =? 255); [|discriminate].
    destruct (bytes_to_int data (o + 1) 4) eqn:E2; cbn [bind]; [discriminate|intros [= ->]; now apply bytes_to_int_err in E2].
Qed.
Lemma old_packet_length_err data o e : old_packet_length data o = Err e -> e = IndexError.
Proof.
  unfold old_packet_length, long_to_int, short_to_int. destruct (get data o) eqn:E; cbn [bind]; [|intros [= ->]; now apply get_err in E].
  destruct (Z.land a 3 =? 0).
  { destruct (get data (o + 1)) eqn:E2; cbn [bind]; [discriminate|intros [= ->]; now apply get_err in E2]. }
  destruct (Z.land a 3 =? 1).
  { destruct (bytes_to_int data (o + 1) 2) eqn:E2; cbn [bind]; [discriminate|intros [= ->]; now apply bytes_to_int_err in E2]. }
  destruct (Z.land a 3 =? 2); [|discriminate].
  destruct (bytes_to_int data (o + 1) 4) eqn:E2; cbn [bind]; [discriminate|intros [= ->]; now apply bytes_to_int_err in E2].
Qed.
Lemma pfd_err data : wf data -> forall fuel o tag h acc e,
  0 <= o -> zlen data - o < Z.of_nat fuel -> (0 < fuel)%nat ->
  pfd_loop fuel data o tag h acc = Err e -> e = IndexError.
Proof.
  intros Hw fuel. induction fuel as [|fuel IH]; intros o tag h acc e Ho Hf Hf0 H; [lia|].
  assert (Hrest : forall o1 t1 h1, o <= o1 -> pfd_rest fuel data o1 t1 h1 acc = Err e -> e = IndexError).
  { intros o1 t1 h1 Ho1 H1. unfold pfd_rest in H1. destruct h1.
    - destruct (new_packet_length data o1) as [[[o2 n] inc]|] eqn:E; cbn [bind] in H1.
      + apply new_packet_length_bound in E as [E1 E2]; [|lia|easy].
        destruct inc; [|discriminate]. apply IH in H1; (easy || lia).
      + injection H1 as ->. now apply new_packet_length_err in E.
    - destruct (old_packet_length data o1) as [[o2 n]|] eqn:E; cbn [bind] in H1; [discriminate|].
      injection H1 as ->. now apply old_packet_length_err in E. }
  destruct tag as [t|].
  - destruct (Z.eq_dec t 0) as [->|Hne].
    + rewrite pfd_loop_zero, pfd_loop_none in H. destruct (get data o) eqn:E; cbn [bind] in H.
      * destruct (Z.land a 64 =? 0); eapply Hrest; eauto; lia.
      * injection H as ->. now apply get_err in E.
    + rewrite pfd_loop_some in H by easy. eapply Hrest; eauto; lia.
  - rewrite pfd_loop_none in H. destruct (get data o) eqn:E; cbn [bind] in H.
    * destruct (Z.land a 64 =? 0); eapply Hrest; eauto; lia.
    * injection H as ->. now apply get_err in E.
Qed.
Lemma raw_from_data_err data o e : wf data -> 0 <= o -> raw_from_data data o = Err e -> e = IndexError.
Proof.
  intros Hw Ho H. unfold raw_from_data in H.
  destruct (pfd_loop (S (length data)) data o None NewH []) as [[[[o1 h1] t1] b1]|] eqn:E; cbn [bind] in H; [discriminate|].
  injection H as ->. eapply pfd_err in E; eauto; unfold zlen; lia.
Qed.
Lemma parse_loop_total {A} (dec : raw_packet -> res A) data : wf data -> (forall r, dec r <> Err OutOfFuel) ->
  forall fuel o, 0 <= o -> zlen data - o < Z.of_nat fuel -> (0 < fuel)%nat ->
  let '(ps, e) := parse_loop fuel dec data o in
  e <> Some OutOfFuel /\ zlen ps <= Z.max 0 (zlen data - o).
Proof.
  intros Hw Hd fuel. induction fuel as [|fuel IH]; intros o Ho Hf H0; [lia|]. cbn [parse_loop].
  destruct (o <? zlen data) eqn:E; [|split; [easy|change (zlen (@nil A)) with 0; lia]].
  unfold packet_from_packet_data. destruct (raw_from_data data o) as [[o' r]|e] eqn:Er; cbn [bind].
  - pose proof (raw_from_data_progress _ _ _ _ Hw Ho Er) as Hp.
    destruct (dec r) as [p|e] eqn:Ed; cbn [bind].
    + specialize (IH o' ltac:(lia) ltac:(lia) ltac:(lia)).
      destruct (parse_loop fuel dec data o') as [ps e]. destruct IH as [I1 I2]. split; [easy|]. rewrite zlen_cons. lia.
    + split; [intros [= ->]; now apply Hd in Ed|change (zlen (@nil A)) with 0; lia].
  - apply raw_from_data_err in Er; [subst|easy|easy]. split; [easy|change (zlen (@nil A)) with 0; lia].
Qed.

(** ** Streams *)
Lemma fread_app n a s : n = zlen a -> fread n (a ++ s) = (a, s).
Proof.
  intros ->. unfold fread. rewrite to_nat_zlen, firstn_app, skipn_app, firstn_all, skipn_all, Nat.sub_diag.
  cbn. now rewrite app_nil_r.
Qed.
Lemma rfc_new_length_stream n l s : rfc_new_length n l -> new_packet_length_from_stream (l ++ s) = Ok (n, false, s).
Proof.
  intros H. unfold new_packet_length_from_stream. destruct H as [n Hn|b0 b1 H0 H1|q Hq Hw]; cbn [app ord_read bind].
  - dif; [reflexivity|lia].
  - dif; [lia|]. dif; [|lia]. rewrite Z.shiftl_mul_pow2 by lia. reflexivity.
  - change (255 <? 192) with false. change (255 <? 224) with false. change (255 =? 255) with true. cbv iota.
    rewrite fread_app by lia. unfold long_to_int. pose proof (bytes_to_int_spec [] q [] 4 ltac:(lia)) as E.
    cbn [app] in E. rewrite app_nil_r in E. change (zlen []) with 0 in E. rewrite E. reflexivity.
Qed.
Lemma rfc_old_length_stream n lt l t s : rfc_old_length n lt l -> t mod 4 = lt ->
  old_packet_length_from_stream (t :: l ++ s) = Ok (n, s).
Proof.
  intros H Ht. unfold old_packet_length_from_stream. cbn [ord_read bind]. rewrite land_3, Ht.
  destruct H as [n Hn Hw|n Hn Hw|n Hn Hw].
  - change (0 =? 0) with true. cbv iota. destruct (zlen_1 n Hn) as (b & ->).
    cbn. f_equal. f_equal. lia.
  - change (1 =? 0) with false. change (1 =? 1) with true. cbv iota. rewrite fread_app by lia. unfold short_to_int.
    pose proof (bytes_to_int_spec [] n [] 2 ltac:(lia)) as E. cbn [app] in E. rewrite app_nil_r in E. change (zlen []) with 0 in E. rewrite E. reflexivity.
  - change (2 =? 0) with false. change (2 =? 1) with false. change (2 =? 2) with true. cbv iota. rewrite fread_app by lia. unfold long_to_int.
    pose proof (bytes_to_int_spec [] n [] 4 ltac:(lia)) as E. cbn [app] in E. rewrite app_nil_r in E. change (zlen []) with 0 in E. rewrite E. reflexivity.
Qed.
Lemma pfs_rfc p enc s fuel : rfc_packet false p enc -> 
  pfs_loop (S fuel) (enc ++ s) None [] = Ok (hfmt p, ptype p, pcontent p, s).
Proof.
  intros H. cbn [pfs_loop]. inversion H as [t body l Ht Hl|t body enc' Ht Hb|t body lt l Ht Hl]; subst; cbn [hfmt ptype pcontent app ord_read bind].
  - rewrite land_64_byte, land_63 by (unfold byte; lia). dif; [lia|].
    rewrite <- app_assoc, (rfc_new_length_stream _ _ _ Hl). cbn [bind]. rewrite fread_app by reflexivity. cbn [app]. do 4 f_equal. lia.
  - assert (Hlt : 0 <= lt <= 2) by (destruct Hl; lia).
    rewrite land_64_byte, land_63 by (unfold byte; lia). dif; [|lia].
    rewrite <- app_assoc, (rfc_old_length_stream (zlen body) lt l) by (easy || lia). cbn [bind].
    rewrite fread_app by reflexivity. cbn [app]. do 4 f_equal. rewrite shiftr_div by lia. change (2 ^ 2) with 4. lia.
Qed.
Lemma packet_from_stream_rfc {A} (dec : raw_packet -> res A) p enc s : rfc_packet false p enc ->
  packet_from_packet_stream dec (enc ++ s) = do o <- dec p;; Ok (o, s).
Proof.
  intros H. unfold packet_from_packet_stream. rewrite (pfs_rfc p enc s _ H). cbn [bind]. destruct p; reflexivity.
Qed.

(** ** Truncation *)
Lemma bytes_to_int_short bs o n : 0 <= o -> 0 < n -> zlen bs < o + n -> bytes_to_int bs o n = Err IndexError.
Proof.
  intros Ho Hn Hs. destruct (bytes_to_int bs o n) eqn:E.
  - apply bytes_to_int_bound in E; lia.
  - apply bytes_to_int_err in E. now subst.
Qed.
Lemma firstn_cases {A} (a : A) l k : (k < length (a :: l))%nat -> k = 0%nat \/ exists k', k = S k' /\ (k' < length l)%nat.
Proof. cbn [length]. destruct k; [now left|right; exists k; split; [easy|lia]]. Qed.
Lemma new_length_truncated n l k : rfc_new_length n l -> (k < length l)%nat ->
  forall t, new_packet_length (t :: firstn k l) 1 = Err IndexError.
Proof.
  intros H Hk t. unfold new_packet_length. rewrite get_cons_S by lia. change (1 - 1) with 0.
  destruct H as [n Hn|b0 b1 H0 H1|q Hq Hw].
  - destruct k; [reflexivity|cbn in Hk; lia].
  - destruct k as [|[|k]]; [reflexivity| |cbn in Hk; lia]. cbn [firstn]. rewrite get_cons_0. cbn [bind].
    dif; [lia|]. dif; [|lia]. reflexivity.
  - destruct k as [|k]; [reflexivity|]. cbn [firstn]. rewrite get_cons_0. cbn [bind].
    change (255 <? 192) with false. change (255 <? 224) with false. change (255 =? 255) with true. cbv iota.
    unfold long_to_int. rewrite bytes_to_int_short; [reflexivity|lia|lia|].
    rewrite !zlen_cons. unfold zlen in *. cbn [length] in Hk. rewrite firstn_length. lia.
Qed.
Lemma old_length_truncated n lt l t k : rfc_old_length n lt l -> t mod 4 = lt -> (k < length l)%nat ->
  old_packet_length (t :: firstn k l) 0 = Err IndexError.
Proof.
  intros H Ht Hk. unfold old_packet_length, short_to_int, long_to_int. rewrite get_cons_0. cbn [bind]. rewrite land_3, Ht.
  destruct H as [n Hn Hw|n Hn Hw|n Hn Hw].
  - change (0 =? 0) with true. cbv iota. rewrite get_ge_err; [reflexivity|]. rewrite zlen_cons. unfold zlen in *. rewrite firstn_length. lia.
  - change (1 =? 0) with false. change (1 =? 1) with true. cbv iota. rewrite bytes_to_int_short; [reflexivity|lia|lia|].
    rewrite zlen_cons. unfold zlen in *. rewrite firstn_length. lia.
  - change (2 =? 0) with false. change (2 =? 1) with false. change (2 =? 2) with true. cbv iota. rewrite bytes_to_int_short; [reflexivity|lia|lia|].
    rewrite zlen_cons. unfold zlen in *. rewrite firstn_length. lia.
Qed.

Lemma truncated_packet p enc k : rfc_packet false p enc -> 0 <= k < zlen enc ->
  let header := zlen enc - zlen (pcontent p) in
  raw_from_data (firstn (Z.to_nat k) enc) 0 =
    if k <? header then Err IndexError
    else Ok (zlen enc, Raw (hfmt p) (ptype p) (firstn (Z.to_nat (k - header)) (pcontent p))).
Proof.
  intros H Hk. cbv zeta. unfold raw_from_data.
  destruct (Z.to_nat k) as [|k'] eqn:Ek.
  { assert (k = 0) as -> by lia. cbn [firstn]. rewrite pfd_loop_none. cbn [get bind].
    rewrite get_ge_err by (change (zlen (@nil Z)) with 0; lia). cbn [bind].
    inversion H; subst; cbn [pcontent]; rewrite ?zlen_cons, ?zlen_app in *; (dif; [reflexivity|pose proof (zlen_nonneg l); lia]). }
  inversion H as [t body l Ht Hl|t body enc' Ht Hb|t body lt l Ht Hl]; subst; cbn [hfmt ptype pcontent firstn];
    rewrite ?zlen_cons, ?zlen_app in *.
  - rewrite pfd_loop_none, get_cons_0. cbn [bind].
    rewrite land_64_byte, land_63 by (unfold byte; lia). dif; [lia|]. unfold pfd_rest. change (0 + 1) with 1.
    dif.
    + rewrite firstn_app. replace (k' - length l)%nat with 0%nat by (unfold zlen in *; lia).
      cbn [firstn]. rewrite app_nil_r. rewrite (new_length_truncated _ _ _ Hl) by (unfold zlen in *; lia). reflexivity.
    + rewrite firstn_app, firstn_all2 by (unfold zlen in *; lia).
      set (b' := firstn (k' - length l) body).
      change (192 + t :: l ++ b') with ([192 + t] ++ l ++ b'). change 1 with (zlen [192 + t]).
      rewrite (rfc_new_length_parse _ _ _ _ Hl). cbn [bind app].
      replace ((192 + t) :: l ++ b') with ((192 + t :: l) ++ b') by reflexivity.
      rewrite slice_app_end.
      * apply ok2; [change (zlen [192 + t]) with 1; lia|]. f_equal; [lia|]. unfold b'. f_equal. change (zlen [192 + t]) with 1. unfold zlen in *; lia.
      * rewrite !zlen_cons. change (zlen (@nil Z)) with 0. lia.
      * rewrite !zlen_cons. change (zlen (@nil Z)) with 0. unfold b'. unfold zlen in *. rewrite firstn_length. lia.
  - rewrite pfd_loop_none, get_cons_0. cbn [bind].
    assert (Hlt : 0 <= lt <= 2) by (destruct Hl; lia).
    rewrite land_64_byte, land_63 by (unfold byte; lia). dif; [|lia]. unfold pfd_rest.
    dif.
    + rewrite firstn_app. replace (k' - length l)%nat with 0%nat by (unfold zlen in *; lia).
      cbn [firstn]. rewrite app_nil_r. rewrite (old_length_truncated _ _ _ _ _ Hl) by (unfold zlen in *; lia). reflexivity.
    + rewrite firstn_app, firstn_all2 by (unfold zlen in *; lia).
      set (b' := firstn (k' - length l) body).
      rewrite (rfc_old_length_parse_0 (zlen body) lt l) by (easy || lia). cbn [bind app].
      replace ((128 + 4 * t + lt) :: l ++ b') with ((128 + 4 * t + lt :: l) ++ b') by reflexivity.
      rewrite slice_app_end.
      * apply ok2; [lia|]. f_equal; [rewrite shiftr_div by lia; change (2 ^ 2) with 4; lia|]. unfold b'. f_equal. unfold zlen in *; lia.
      * rewrite !zlen_cons. lia.
      * rewrite !zlen_cons. unfold b'. unfold zlen in *. rewrite firstn_length. lia.
Qed.

(** ** The partial-length writer *)
Lemma new_body_loop_diverges data : MAX_PACKET_LENGTH < zlen data -> forall fuel remaining offset result,
  remaining = zlen data \/ remaining = zlen data - 2 ^ 30 ->
  new_body_loop fuel data true remaining offset result = Err OutOfFuel.
Proof.
  intros Hd fuel. induction fuel as [|fuel IH]; intros r o acc Hr; [reflexivity|].
  cbn [new_body_loop]. unfold MAX_PACKET_LENGTH in Hd. dif; [lia|].
  rewrite new_length_too_big by (unfold MAX_PACKET_LENGTH; lia). cbn [bind]. apply IH. now right.
Qed.
Lemma packet_bytes_diverges t body fuel : is_data_type t = true -> MAX_PACKET_LENGTH < zlen body ->
  packet_bytes_fuel fuel (Raw NewH t body) = Err OutOfFuel.
Proof.
  intros Ht Hl. unfold packet_bytes_fuel; cbn [hfmt ptype pcontent]. rewrite Ht.
  rewrite mk_bytes_wf; [|apply wf_cons; split; [unfold byte, is_data_type in *; lia|auto]].
  cbn [bind]. apply new_body_loop_diverges; auto.
Qed.
Lemma packet_bytes_terminates p fuel : (2 <= fuel)%nat ->
  hfmt p = OldH \/ is_data_type (ptype p) = false \/ zlen (pcontent p) <= MAX_PACKET_LENGTH ->
  packet_bytes_fuel fuel p = packet_bytes p /\ packet_bytes p <> Err OutOfFuel.
Proof.
  destruct p as [h t body]. unfold packet_bytes, packet_bytes_fuel; cbn [hfmt ptype pcontent]. intros Hf Hc.
  destruct h; [|split; [reflexivity|]].
  2:{ destruct (old_packet_length_to_bytes (zlen body)). unfold mk_bytes. destruct (wfb _); cbn [bind]; [|discriminate].
      destruct (wfb l); cbn [bind]; discriminate. }
  destruct fuel as [|[|fuel]]; try lia. clear Hf.
  unfold mk_bytes. destruct (wfb [128 + (64 + t)]); cbn [bind]; [|easy].
  cbn [new_body_loop]. destruct (zlen body =? 0) eqn:E; [easy|].
  destruct (Z.le_gt_cases (zlen body) MAX_PACKET_LENGTH) as [Hl|Hl].
  - pose proof (zlen_nonneg body).
    destruct (new_length_conforms (zlen body) (is_data_type t) ltac:(lia)) as (l & El & _ & _). rewrite El. cbn [bind].
    easy.
  - rewrite new_length_too_big by easy. destruct Hc as [Hc|[Hc|Hc]]; [easy| |lia]. rewrite Hc. easy.
Qed.
