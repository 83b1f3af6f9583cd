(** Which subpacket contents are written back as they were read. *)
From Verif Require Import Base BaseProofs Spec Utils UtilsProofs HexProofs CodecProofs SpecFraming FramingProofs Text Utf8 SpecUtf8 Utf8Proofs S2k SessionKeysProofs KeyPackets SpecKey KeyProofs DataProofs SigPackets SpecSig SigProofs.

Lemma in64_utf8 s : Forall scalar s -> In 64 (utf8 s) -> In 64 s.
Proof.
  intros Hs H. unfold utf8 in H. apply in_concat in H as (x & Hx & H). apply in_map_iff in Hx as (c & <- & Hc). rewrite Forall_forall in Hs. specialize (Hs c Hc). unfold scalar in Hs.
  enough (c = 64) by now subst. unfold rfc3629 in H. repeat match type of H with context [if ?b then _ else _] => destruct b eqn:? end; cbn [In] in H; lia.
Qed.
Lemma uniq64 n x y : ~ In 64 n -> ~ In 64 x -> n ++ [64] = x ++ 64 :: y -> y = [].
Proof. intros Hn Hx E. pose proof (split_some n [] Hn) as P. rewrite E, (split_some x y Hx) in P. now injection P. Qed.
Definition raw_of (s : text) : bytes :=
  let '(a, o) := split_at_sign s in utf8_encode_replace a ++ match o with Some (c :: r) => [64] ++ utf8_encode_replace (c :: r) | _ => [] end.
Lemma notation_content name value : plain_content (notation_of name value) =
  Ok ([128; 0; 0; 0] ++ int_to_2byte (zlen (raw_of (utf8_decode_replace name))) ++ int_to_2byte (zlen (utf8_encode_replace (utf8_decode_replace value))) ++ raw_of (utf8_decode_replace name) ++ utf8_encode_replace (utf8_decode_replace value)).
Proof. unfold notation_of, raw_of. destruct (split_at_sign (utf8_decode_replace name)) as [a o]. reflexivity. Qed.
Lemma raw_iff name : wf name -> raw_of (utf8_decode_replace name) = name <-> valid_utf8 name /\ ~ (exists n, name = n ++ [64] /\ ~ In 64 n).
Proof.
  intros W. pose proof (decode_replace_scalar name W) as Hs. unfold raw_of. pose proof (split_inv (utf8_decode_replace name)) as P. destruct (split_at_sign (utf8_decode_replace name)) as [a o]. destruct P as [Ha Es].
  rewrite Es in Hs. apply Forall_app in Hs as [Sa So]. rewrite (encode_scalar a Sa). destruct o as [[|c r]|].
  - split.
    + rewrite app_nil_r. intros E. exfalso. pose proof (decode_replace_utf8 a Sa) as D. rewrite E, Es in D. apply (f_equal (@length Z)) in D. rewrite app_length in D. cbn in D. lia.
    + intros [(s & Ss & Ev) Hn]. exfalso. apply Hn. rewrite Ev, (decode_replace_utf8 s Ss) in Es. exists (utf8 a). split; [|intros K; now apply Ha, in64_utf8].
      rewrite Ev, Es, utf8_app. reflexivity.
  - assert (Sr : Forall scalar (c :: r)) by now inversion So. rewrite (encode_scalar _ Sr).
    assert (Eu : utf8 (a ++ 64 :: c :: r) = utf8 a ++ [64] ++ utf8 (c :: r)) by now rewrite utf8_app.
    split.
    + intros E. split; [exists (a ++ 64 :: c :: r); split; [apply Forall_app; split; [exact Sa|exact So]|now rewrite Eu]|]. intros (n & En & Hn). rewrite <- E in En. symmetry in En. apply uniq64 in En; [|exact Hn|intros K; now apply Ha, in64_utf8].
      pose proof (utf8_nonempty (c :: r) ltac:(discriminate) Sr) as Q. rewrite En in Q. cbn in Q. lia.
    + intros [(s & Ss & Ev) _]. rewrite Ev, (decode_replace_utf8 s Ss) in Es. rewrite Ev, Es, Eu. reflexivity.
  - rewrite !app_nil_r in *. split.
    + intros E. split; [exists a; easy|]. intros (n & En & Hn). rewrite <- E in En. apply Ha, in64_utf8; [exact Sa|]. rewrite En. apply in_or_app. right. now left.
    + intros [(s & Ss & Ev) _]. rewrite Ev, (decode_replace_utf8 s Ss) in Es. now rewrite Ev, Es.
Qed.
Lemma notation_stable fl emb d b : wf d -> subbody_from emb 20 d = Ok b -> (sub_content fl b = Ok d <-> stable_sub (fun _ => False) 20 d).
Proof.
  intros W H. destruct (notation_inv emb d b W H) as (f & nl & vl & name & value & Ed & Hf & L1 & V1 & L2 & V2 & Eb).
  assert (Hc : forall name value, sub_content fl (notation_of name value) = plain_content (notation_of name value)) by (intros; unfold notation_of; now destruct (split_at_sign _)).
  change (stable_sub (fun _ => False) 20 d) with (exists nl vl name value, d = [128; 0; 0; 0] ++ nl ++ vl ++ name ++ value /\
      zlen nl = 2 /\ be_val nl = zlen name /\ zlen vl = 2 /\ be_val vl = zlen value /\ valid_utf8 name /\ valid_utf8 value /\
      ~ (exists n, name = n ++ [64] /\ ~ In 64 n)).
  split.
  - rewrite Eb, Hc, notation_content. set (raw := raw_of (utf8_decode_replace name)). set (rv := utf8_encode_replace (utf8_decode_replace value)). intros E. apply ok_inj in E. rewrite Ed in E.
    rewrite Ed in W. rewrite !wf_app in W. destruct W as (_ & Wn & Wv & Wname & Wvalue).
    assert (D1 : be_val (int_to_2byte (zlen raw)) = zlen raw mod 65536) by (rewrite int_to_2byte_be, be_bytes_val; reflexivity).
    assert (D2 : be_val (int_to_2byte (zlen rv)) = zlen rv mod 65536) by (rewrite int_to_2byte_be, be_bytes_val; reflexivity).
    assert (D3 : zlen (int_to_2byte (zlen raw)) = 2) by (rewrite int_to_2byte_be, be_bytes_len; reflexivity).
    assert (D4 : zlen (int_to_2byte (zlen rv)) = 2) by (rewrite int_to_2byte_be, be_bytes_len; reflexivity).
    set (l1 := int_to_2byte (zlen raw)) in *. set (l2 := int_to_2byte (zlen rv)) in *. clearbody l1 l2.
    apply app_inj_len in E; [|reflexivity]. destruct E as [Ef E]. apply app_inj_len in E; [|lia]. destruct E as [E1 E]. apply app_inj_len in E; [|lia]. destruct E as [E2 E]. subst l1 l2.
    pose proof (f_equal zlen E) as El. rewrite !zlen_app in El.
    pose proof (be_val_nonneg nl Wn) as Bn. rewrite L1 in Bn. change (256 ^ 2) with 65536 in Bn. pose proof (be_val_nonneg vl Wv) as Bv. rewrite L2 in Bv. change (256 ^ 2) with 65536 in Bv.
    pose proof (zlen_nonneg raw). pose proof (zlen_nonneg rv). pose proof (zlen_nonneg name). pose proof (zlen_nonneg value).
    apply app_inj_len in E; [|lia]. destruct E as [Er Ev].
    exists nl, vl, name, value. split; [rewrite Ed; f_equal; now symmetry|]. repeat (split; [assumption|]). apply (raw_iff name Wname) in Er. apply (reencode_iff value Wvalue) in Ev. tauto.
  - intros (nl' & vl' & name' & value' & Ed' & L1' & V1' & L2' & V2' & N1 & N2 & N3). rewrite Ed' in H.
    rewrite (notation_parse emb 128 nl' vl' name' value' (or_intror eq_refl) L1' V1' L2' V2') in H. apply ok_inj in H. rewrite <- H. rewrite Hc, notation_content.
    rewrite Ed' in W. rewrite !wf_app in W. destruct W as (_ & Wn & Wv & Wname & Wvalue).
    assert (Er : raw_of (utf8_decode_replace name') = name') by (now apply raw_iff). assert (Ev : utf8_encode_replace (utf8_decode_replace value') = value') by (now apply reencode_iff). rewrite Er, Ev, Ed'.
    pose proof (be_bytes_be_val nl' Wn) as Q1. replace (length nl') with 2%nat in Q1 by (unfold zlen in L1'; lia). pose proof (be_bytes_be_val vl' Wv) as Q2. replace (length vl') with 2%nat in Q2 by (unfold zlen in L2'; lia).
    rewrite <- V1', <- V2', (int_to_2byte_be (be_val nl')), (int_to_2byte_be (be_val vl')), Q1, Q2. reflexivity.
Qed.
Lemma ascii_len l : zlen (ascii_encode_replace (ascii_decode_replace l)) = zlen l.
Proof. unfold ascii_encode_replace, ascii_decode_replace, zlen. now rewrite !map_length. Qed.
Lemma ok_iff {A} (x y : A) : Ok x = Ok y <-> x = y.
Proof. split; [apply ok_inj|now intros ->]. Qed.
Lemma to_hex_loop_bound n : forall arr i r, 0 <= i -> to_hex_loop n arr i = Ok r -> n = O \/ i + Z.of_nat n <= zlen arr.
Proof.
  induction n as [|n IH]; intros arr i r Hi H; [now left|right]. cbn [to_hex_loop] in H. apply bind_ok in H as (b & Hb & H). apply bind_ok in H as (q & Hq & _).
  assert (i < zlen arr). { unfold get in Hb. replace (i <? 0) with false in Hb by lia. destruct ((i <? 0) || (zlen arr <=? i)) eqn:E; [discriminate|lia]. }
  apply IH in Hq; lia.
Qed.
Lemma hex_bound arr i n r : 0 <= i -> 0 < n -> bytearray_to_hex arr i (Some n) = Ok r -> i + n / 2 <= zlen arr.
Proof.
  intros Hi Hn H. unfold bytearray_to_hex in H. destruct (n mod 2 =? 0) eqn:E; [|discriminate]. cbn [negb] in H. apply bind_ok in H as (q & Hq & _). apply to_hex_loop_bound in Hq; lia.
Qed.
(** additional recipient: ten octets of the fingerprint are read, twenty written *)
Lemma recipient_stable emb fl d b : wf d -> subbody_from emb 10 d = Ok b -> (sub_content fl b = Ok d <-> exists a, d = [0; a] ++ repeat 0 20 \/ d = [128; a] ++ repeat 0 20).
Proof.
  intros W H. change (subbody_from emb 10 d) with (do c <- get d 0;; do a <- get d 1;; do f <- bytearray_to_hex d 2 (Some 20);; Ok (SbAddRecip (bit c 128) a f)) in H.
  apply bind_ok in H as (c & Hc & H). apply bind_ok in H as (a & Ha & H). apply bind_ok in H as (f & Hf & H). apply ok_inj in H. subst b.
  pose proof (hex_bound d 2 20 f ltac:(lia) ltac:(lia) Hf) as Hl. change (20 / 2) with 10 in Hl.
  destruct d as [|c' [|a' t]]; [cbn in Hl; lia|cbn in Hl; lia|]. rewrite get_cons_0 in Hc. apply ok_inj in Hc as ->. rewrite get_cons_S in Ha by lia; change (1 - 1) with 0 in Ha; rewrite get_cons_0 in Ha. apply ok_inj in Ha as ->.
  rewrite !zlen_cons in Hl. destruct (split_at t 0 10 ltac:(lia) ltac:(lia) ltac:(lia)) as (p & x & y & Et & Lp & Lx). apply zlen_0 in Lp as ->. cbn [app] in Et. subst t.
  assert (Wx : wf x /\ byte c /\ byte a). { inversion W as [|? ? ? W1]; subst. inversion W1 as [|? ? ? W2]; subst. apply wf_app in W2. tauto. } destruct Wx as (Wx & Bc & Ba).
  pose proof (bytearray_to_hex_at [c; a] x y 20 Wx ltac:(lia)) as Q. cbn [app] in Q. change (zlen [c; a]) with 2 in Q. rewrite Q in Hf. apply ok_inj in Hf as <-.
  cbn [sub_content plain_content]. rewrite mk_bytes_wf by (unfold bflag; destruct (bit c 128); wfl). cbn [bind]. rewrite hex_to_bytes_text_expected by (assumption || lia). cbn [bind]. rewrite Lx. change (Z.to_nat (20 - 10)) with 10%nat. change (Z.max 0 (10 - 20)) with 0.
  assert (S0 : slice_from x 0 = x) by (unfold slice_from, clip; change (0 <? 0) with false; cbv iota; rewrite Lx; reflexivity). rewrite S0, ok_iff.
  pose proof (byte_all (fun c => Bool.eqb (bflag (bit c 128) 128 =? c) ((c =? 0) || (c =? 128))) ltac:(vm_compute; reflexivity) c Bc) as Pc. cbv beta in Pc. apply eqb_prop in Pc.
  cbn [app]. split.
  - intros E. injection E as E1 E2. rewrite E1, Z.eqb_refl in Pc.
    assert (Hx : x = repeat 0 10 /\ y = x). { pose proof (app_inj_len (repeat 0 10) x x y E2) as P. rewrite Lx in P. destruct (P eq_refl). split; congruence. }
    destruct Hx as [Hx ->]. exists a. rewrite Hx. cbn [app repeat]. symmetry in Pc. apply orb_prop in Pc as [P|P]; apply Z.eqb_eq in P; rewrite P; [now left|now right].
  - intros (a' & E).
    assert (Hx : (c = 0 \/ c = 128) /\ x ++ y = repeat 0 20) by (destruct E as [E|E]; inversion E; auto). destruct Hx as [Hc Hx].
    assert (Hx' : x = repeat 0 10 /\ y = repeat 0 10). { change (repeat 0 20) with (repeat 0 10 ++ repeat 0 10) in Hx. apply app_inj_len in Hx; [exact Hx|]. now rewrite Lx. } destruct Hx' as [-> ->].
    destruct Hc as [-> | ->]; reflexivity.
Qed.
Lemma single (d : bytes) : zlen d = 1 -> exists x, d = [x].
Proof. destruct d as [|x [|y t]]; intros H; [discriminate|eauto|]. rewrite !zlen_cons in H. pose proof (zlen_nonneg t). lia. Qed.
Lemma cons_single (x y : Z) t : [x] = y :: t <-> x = y /\ t = [].
Proof. split; [intros E; inversion E; auto|intros [-> ->]; reflexivity]. Qed.
Lemma stable_subs fl emb ty d b : wf d -> 0 <= ty < 128 -> subbody_from emb ty d = Ok b ->
  (sub_content fl b = Ok d <-> stable_sub (fun d => exists s, emb d = Ok s /\ sig_content fl s = Ok d) ty d).
Proof.
  intros W Ht H. destruct (in_dec Z.eq_dec ty known_subs) as [K|K].
  2:{ rewrite unknown_parse in H by exact K. apply ok_inj in H as <-. cbn [sub_content plain_content]. rewrite ok_iff.
      assert (E : forall P, stable_sub P ty d <-> d = []). { intros P. unfold stable_sub, known_subs in *. repeat match goal with |- context [ty =? ?k] => replace (ty =? k) with false by (symmetry; apply Z.eqb_neq; intros ->; apply K; cbn; tauto) end. reflexivity. }
      rewrite E. split; congruence. }
  assert (Htime : In ty [2; 3; 9] -> sub_content fl b = Ok d /\ zlen d = 4).
  { intros T. rewrite time_parse in H by exact T. destruct (zlen d =? 4) eqn:E; [|discriminate]. cbn [negb] in H. apply bind_ok in H as (t & Hl & H). apply ok_inj in H as <-. cbn [sub_content plain_content].
    pose proof (bytes_to_int_spec [] d [] 4 ltac:(lia)) as P. rewrite app_nil_r in P. cbn [app] in P. change (zlen (@nil Z)) with 0 in P. unfold long_to_int in Hl. rewrite P in Hl. apply ok_inj in Hl as <-.
    pose proof (be_bytes_be_val d W) as Q. replace (length d) with 4%nat in Q by (unfold zlen in E; lia). rewrite int_to_4byte_be, Q. split; [reflexivity|lia]. }
  assert (Hbool : In ty [4; 7; 25] -> sub_content fl b = Ok d /\ (d = [0] \/ d = [1])).
  { intros T. rewrite boolean_parse in H by exact T. apply bind_ok in H as (v & Hv & H). apply ok_inj in H as <-. unfold bool_from in Hv. destruct (zlen d =? 1) eqn:E; [|discriminate]. cbn [negb] in Hv. destruct (single d ltac:(lia)) as [x ->].
    rewrite get_cons_0 in Hv. cbn [bind] in Hv. destruct (Z.land x 254 =? 0) eqn:El; [|discriminate]. cbn [negb] in Hv. apply ok_inj in Hv as <-. assert (Bx : byte x) by now inversion W.
    pose proof (byte_all (fun x => negb (Z.land x 254 =? 0) || (x =? 0) || (x =? 1)) ltac:(vm_compute; reflexivity) x Bx) as P. cbv beta in P. rewrite El in P. cbn [negb orb] in P. apply orb_prop in P as [P|P]; apply Z.eqb_eq in P; subst x; split; auto. }
  assert (Huri : In ty [24; 26] -> (sub_content fl b = Ok d <-> d <> [] /\ valid_utf8 d)).
  { intros T. rewrite uri_parse in H by exact T. destruct (0 <? zlen d) eqn:E; [|discriminate]. cbn [negb] in H. apply ok_inj in H as <-. cbn [sub_content plain_content]. rewrite ok_iff, reencode_iff by exact W. split; [|tauto]. intros V. split; [|exact V]. intros ->. discriminate. }
  unfold known_subs in K. cbn [In] in K. repeat match type of K with _ \/ _ => destruct K as [K|K] end; try contradiction; subst ty.
  1: change (sub_content fl b = Ok d <-> zlen d = 4); specialize (Htime ltac:(cbn; tauto)); tauto.
  1: change (sub_content fl b = Ok d <-> zlen d = 4); specialize (Htime ltac:(cbn; tauto)); tauto.
  1: change (sub_content fl b = Ok d <-> d = [0] \/ d = [1]); specialize (Hbool ltac:(cbn; tauto)); tauto.
  - change (sub_content fl b = Ok d <-> zlen d = 2). change (subbody_from emb 5 d) with (if negb (zlen d =? 2) then Err AssertionError else do x <- get d 0;; do y <- get d 1;; Ok (SbTrust x y)) in H.
    destruct (zlen d =? 2) eqn:E; [|discriminate]. destruct (zlen2_get d ltac:(lia)) as (x & y & ->). change (negb true) with false in H. cbv iota in H. change (Ok (SbTrust x y) = Ok b) in H. apply ok_inj in H as <-. cbn [sub_content plain_content]. rewrite mk_bytes_wf by exact W. split; reflexivity.
  - change (sub_content fl b = Ok d <-> False). change (subbody_from emb 6 d) with (if negb (0 <? zlen d) then Err AssertionError else do z <- get d (-1);; if negb (z =? 0) then Err AssertionError else Ok (SbRegex (ascii_decode_replace (slice d 0 (-1))))) in H.
    destruct (0 <? zlen d) eqn:E; [|discriminate]. cbn [negb] in H. apply bind_ok in H as (z & Hz & H). destruct (z =? 0); [|discriminate]. cbn [negb] in H. apply ok_inj in H as <-. cbn [sub_content plain_content]. rewrite ok_iff. split; [|contradiction].
    intros Q. apply (f_equal zlen) in Q. rewrite ascii_len in Q. unfold slice, clip in Q. change (0 <? 0) with false in Q. change (-1 <? 0) with true in Q. cbv iota in Q. unfold zlen in *. rewrite firstn_length, skipn_length in Q. lia.
  - change (sub_content fl b = Ok d <-> d = [0] \/ d = [1]); specialize (Hbool ltac:(cbn; tauto)); tauto.
  - change (sub_content fl b = Ok d <-> zlen d = 4); specialize (Htime ltac:(cbn; tauto)); tauto.
  - exact (recipient_stable emb fl d b W H).
  - change (sub_content fl b = Ok d <-> True). rewrite algs_parse in H by (cbn; tauto). apply ok_inj in H as <-. cbn [sub_content plain_content]. rewrite mk_bytes_wf by exact W. tauto.
  - change (subbody_from emb 12 d) with (if negb (zlen d =? 22) then Err AssertionError else @Err subbody TypeError) in H. destruct (zlen d =? 22); discriminate.
  - change (sub_content fl b = Ok d <-> zlen d = 8). rewrite issuer_parse in H. destruct (zlen d =? 8) eqn:E; [|discriminate]. cbn [negb] in H. apply bind_ok in H as (k & Hk & H). apply ok_inj in H as <-.
    pose proof (bytearray_to_hex_at [] d [] 16 W ltac:(lia)) as P. rewrite app_nil_r in P. cbn [app] in P. change (zlen (@nil Z)) with 0 in P. rewrite P in Hk. apply ok_inj in Hk as <-. cbn [sub_content plain_content].
    rewrite hex_to_bytes_text_expected by (assumption || lia). assert (L : zlen d = 8) by lia. rewrite L. change (Z.to_nat (8 - 8)) with O. cbn [repeat app]. unfold slice_from, clip. change (Z.max 0 (8 - 8)) with 0. change (0 <? 0) with false. cbv iota. rewrite L. split; reflexivity.
  - exact (notation_stable fl emb d b W H).
  - change (sub_content fl b = Ok d <-> True). rewrite algs_parse in H by (cbn; tauto). apply ok_inj in H as <-. cbn [sub_content plain_content]. rewrite mk_bytes_wf by exact W. tauto.
  - change (sub_content fl b = Ok d <-> True). rewrite algs_parse in H by (cbn; tauto). apply ok_inj in H as <-. cbn [sub_content plain_content]. rewrite mk_bytes_wf by exact W. tauto.
  - change (sub_content fl b = Ok d <-> d = [0] \/ d = [128]). change (subbody_from emb 23 d) with (if negb (0 <? zlen d) then Err AssertionError else do x <- get d 0;; Ok (SbNoModify (bit x 128))) in H. destruct (0 <? zlen d); [|discriminate]. cbn [negb] in H.
    apply bind_ok in H as (x & Hx & H). apply ok_inj in H as <-. destruct (get0_inv d x Hx) as [t ->]. cbn [sub_content plain_content]. assert (Bx : byte x) by now inversion W. rewrite ok_iff, cons_single.
    pose proof (byte_all (fun c => Bool.eqb (bflag (bit c 128) 128 =? c) ((c =? 0) || (c =? 128))) ltac:(vm_compute; reflexivity) x Bx) as P. cbv beta in P. apply eqb_prop in P. split.
    + intros [E ->]. rewrite E, Z.eqb_refl in P. symmetry in P. apply orb_prop in P as [P|P]; apply Z.eqb_eq in P; subst x; auto.
    + intros [E|E]; inversion E; subst; auto.
  - exact (Huri ltac:(cbn; tauto)).
  - change (sub_content fl b = Ok d <-> d = [0] \/ d = [1]); specialize (Hbool ltac:(cbn; tauto)); tauto.
  - exact (Huri ltac:(cbn; tauto)).
  - change (sub_content fl b = Ok d <-> exists k, d = [k] /\ (k / 64) mod 2 = 0). change (subbody_from emb 27 d) with (if negb (0 <? zlen d) then Err AssertionError else do k <- get d 0;; Ok (SbFlags (bit k 1) (bit k 2) (bit k 4) (bit k 8) (bit k 32) (bit k 16) (bit k 128))) in H.
    destruct (0 <? zlen d); [|discriminate]. cbn [negb] in H. apply bind_ok in H as (x & Hx & H). apply ok_inj in H as <-. destruct (get0_inv d x Hx) as [t ->]. cbn [sub_content plain_content]. assert (Bx : byte x) by now inversion W. rewrite ok_iff, cons_single.
    pose proof (byte_all (fun k => Bool.eqb (bflag (bit k 1) 1 + bflag (bit k 2) 2 + bflag (bit k 4) 4 + bflag (bit k 8) 8 + bflag (bit k 16) 16 + bflag (bit k 32) 32 + bflag (bit k 128) 128 =? k) ((k / 64) mod 2 =? 0)) ltac:(vm_compute; reflexivity) x Bx) as P. cbv beta in P. apply eqb_prop in P.
    set (v := bflag (bit x 1) 1 + bflag (bit x 2) 2 + bflag (bit x 4) 4 + bflag (bit x 8) 8 + bflag (bit x 16) 16 + bflag (bit x 32) 32 + bflag (bit x 128) 128) in *. clearbody v. split.
    + intros [E ->]. exists x. split; [reflexivity|]. rewrite E, Z.eqb_refl in P. symmetry in P. now apply Z.eqb_eq.
    + intros (k & E & Hk). inversion E; subst. split; [|reflexivity]. rewrite Hk, Z.eqb_refl in P. now apply Z.eqb_eq.
  - change (sub_content fl b = Ok d <-> valid_utf8 d). change (subbody_from emb 28 d) with (do s <- utf8_decode d;; Ok (SbUserId s)) in H. apply bind_ok in H as (s & Hs & H). apply ok_inj in H as <-. destruct (decode_ok_inv d s W Hs) as [Ss Ed]. cbn [sub_content plain_content]. rewrite (encode_scalar s Ss), ok_iff. split; [|now symmetry in Ed]. intros _. exists s. auto.
  - change (sub_content fl b = Ok d <-> exists c t, d = c :: t /\ valid_utf8 t). change (subbody_from emb 29 d) with (do x <- get d 0;; Ok (SbReason x (utf8_decode_replace (slice_from d 1)))) in H.
    apply bind_ok in H as (x & Hx & H). apply ok_inj in H as <-. destruct (get0_inv d x Hx) as [t ->]. rewrite slice_from_1. assert (Bx : byte x /\ wf t) by (inversion W; auto). destruct Bx as [Bx Wt].
    cbn [sub_content plain_content]. rewrite mk_bytes_wf by wfl. cbn [bind app]. rewrite ok_iff. split.
    + intros E. injection E as E. exists x, t. split; [reflexivity|]. now apply reencode_iff.
    + intros (c & t' & E & V). inversion E; subst. f_equal. now apply reencode_iff.
  - change (sub_content fl b = Ok d <-> d = [0] \/ d = [1]). change (subbody_from emb 30 d) with (if negb (0 <? zlen d) then Err AssertionError else do x <- get d 0;; Ok (SbFeatures (bit x 1))) in H. destruct (0 <? zlen d); [|discriminate]. cbn [negb] in H.
    apply bind_ok in H as (x & Hx & H). apply ok_inj in H as <-. destruct (get0_inv d x Hx) as [t ->]. cbn [sub_content plain_content]. assert (Bx : byte x) by now inversion W. rewrite ok_iff, cons_single.
    pose proof (byte_all (fun c => Bool.eqb (bflag (bit c 1) 1 =? c) ((c =? 0) || (c =? 1))) ltac:(vm_compute; reflexivity) x Bx) as P. cbv beta in P. apply eqb_prop in P. split.
    + intros [E ->]. rewrite E, Z.eqb_refl in P. symmetry in P. apply orb_prop in P as [P|P]; apply Z.eqb_eq in P; subst x; auto.
    + intros [E|E]; inversion E; subst; auto.
  - change (sub_content fl b = Ok d <-> False). split; [|contradiction]. change (subbody_from emb 31 d) with (if negb (2 <? zlen d) then Err AssertionError else
    do a <- get d 0;; do h <- get d 1;;
    do l <- (match hash_lengths h with None => Ok (zlen d - 2) | Some n => if n =? zlen d - 2 then Ok n else Err AssertionError end);;
    do x <- bytearray_to_hex d 2 (Some (zlen d - 2));; Ok (SbTarget a h x (Some l))) in H. destruct (2 <? zlen d); [|discriminate]. cbn [negb] in H.
    apply bind_ok in H as (a & _ & H). apply bind_ok in H as (h & _ & H). apply bind_ok in H as (l & _ & H). apply bind_ok in H as (x & _ & H). apply ok_inj in H as <-. discriminate.
  - change (sub_content fl b = Ok d <-> exists s, emb d = Ok s /\ sig_content fl s = Ok d). change (subbody_from emb 32 d) with (do s <- emb d;; Ok (SbEmbedded s)) in H. apply bind_ok in H as (s & Hs & H). apply ok_inj in H as <-. cbn [sub_content]. split; [eauto|]. intros (s' & E1 & E2). rewrite E1 in Hs. apply ok_inj in Hs as ->. exact E2.
Qed.
(** stable contents do parse *)
Lemma stable_parses fl emb ty d : wf d -> 0 <= ty < 128 -> stable_sub (fun d => exists s, emb d = Ok s /\ sig_content fl s = Ok d) ty d -> exists b, subbody_from emb ty d = Ok b.
Proof.
  intros W Ht H. destruct (in_dec Z.eq_dec ty known_subs) as [K|K]; [|eexists; now apply unknown_parse].
  assert (Htime : In ty [2; 3; 9] -> zlen d = 4 -> exists b, subbody_from emb ty d = Ok b).
  { intros T L. rewrite time_parse by exact T. rewrite L. cbn [negb Z.eqb Pos.eqb]. pose proof (bytes_to_int_spec [] d [] 4 ltac:(lia)) as P. rewrite app_nil_r in P. cbn [app] in P. change (zlen (@nil Z)) with 0 in P. unfold long_to_int. rewrite P. cbn [bind]. eauto. }
  assert (Hbool : In ty [4; 7; 25] -> d = [0] \/ d = [1] -> exists b, subbody_from emb ty d = Ok b).
  { intros T D. rewrite boolean_parse by exact T. destruct D as [-> | ->]; eexists; reflexivity. }
  assert (Huri : In ty [24; 26] -> d <> [] /\ valid_utf8 d -> exists b, subbody_from emb ty d = Ok b).
  { intros T [D _]. rewrite uri_parse by exact T. destruct d as [|x t]; [easy|]. destruct (0 <? zlen (x :: t)) eqn:E; [eexists; reflexivity|]. rewrite zlen_cons in E. pose proof (zlen_nonneg t). lia. }
  assert (Halg : In ty [11; 21; 22] -> exists b, subbody_from emb ty d = Ok b) by (intros T; eexists; now apply algs_parse).
  unfold known_subs in K. cbn [In] in K. repeat match type of K with _ \/ _ => destruct K as [K|K] end; try contradiction; subst ty;
    try (apply Htime; [cbn; tauto|exact H]); try (apply Hbool; [cbn; tauto|exact H]); try (apply Huri; [cbn; tauto|exact H]); try (apply Halg; cbn; tauto); try (exfalso; exact H).
  - destruct (zlen2_get d H) as (x & y & ->). eexists. reflexivity.
  - destruct H as (a & [E|E]); rewrite E; eexists; reflexivity.
  - change (zlen d = 8) in H. rewrite issuer_parse, H. cbn [negb Z.eqb Pos.eqb]. pose proof (bytearray_to_hex_at [] d [] 16 W ltac:(lia)) as P. rewrite app_nil_r in P. cbn [app] in P. change (zlen (@nil Z)) with 0 in P. rewrite P. eexists. reflexivity.
  - destruct H as (nl & vl & name & value & -> & L1 & V1 & L2 & V2 & _). eexists. apply notation_parse; auto.
  - destruct H as [-> | ->]; eexists; reflexivity.
  - destruct H as (k & -> & _). eexists. reflexivity.
  - destruct H as (s & Ss & ->). eexists. change (subbody_from emb 28 (utf8 s)) with (do s <- utf8_decode (utf8 s);; Ok (SbUserId s)). now rewrite decode_utf8.
  - destruct H as (c & t & -> & _). eexists. change (subbody_from emb 29 (c :: t)) with (do x <- get (c :: t) 0;; Ok (SbReason x (utf8_decode_replace (slice_from (c :: t) 1)))). rewrite get_cons_0. reflexivity.
  - destruct H as [-> | ->]; eexists; reflexivity.
  - destruct H as (s & Hs & _). eexists. change (subbody_from emb 32 d) with (do s <- emb d;; Ok (SbEmbedded s)). now rewrite Hs.
Qed.
Lemma rfc_new_length_inj l l' n n' s s' : rfc_new_length n l -> rfc_new_length n' l' -> l ++ s = l' ++ s' -> n = n' /\ l = l' /\ s = s'.
Proof.
  intros H H' E. pose proof (rfc_new_length_parse n l [] s H) as P. pose proof (rfc_new_length_parse n' l' [] s' H') as P'. cbn [app] in P, P'. rewrite E, P' in P. apply ok_inj in P. injection P as P1 P2.
  apply app_inj_len in E; [|lia]. now destruct E.
Qed.
Lemma sub_frame_inv ty c d enc : 0 <= ty < 128 -> sub_frame ty c d = Ok enc -> rfc_sub ty c d enc /\ (forall enc', rfc_sub ty c d enc' -> zlen enc <= zlen enc').
Proof.
  intros Ht H. unfold sub_frame in H. apply bind_ok in H as ([l' q] & Hl' & H). rewrite mk_bytes_wf in H by (destruct c; wfl). cbn [bind] in H. apply ok_inj in H. pose proof (zlen_nonneg d).
  assert (Hm : zlen d + 1 <= MAX_PACKET_LENGTH). { destruct (Z.le_gt_cases (zlen d + 1) MAX_PACKET_LENGTH) as [Hc|Hc]; [easy|]. rewrite new_length_too_big in Hl' by easy. discriminate. }
  destruct (new_length_conforms (zlen d + 1) false ltac:(lia)) as (l & E & _ & R). rewrite E in Hl'. apply ok_inj in Hl'. injection Hl' as <- <-. rewrite <- H. split; [split; [exact Ht|]; exists l; auto|].
  intros enc' (_ & l2 & R2 & ->). pose proof (new_length_shortest (zlen d + 1) false l l2 ltac:(lia) E R2). rewrite !zlen_app. lia.
Qed.
Lemma rfc_new_length_max n l : rfc_new_length n l -> n <= MAX_PACKET_LENGTH.
Proof.
  unfold MAX_PACKET_LENGTH. intros [n' H|b0 b1 H0 H1|q Hq Hw]; [lia|unfold byte in *; lia|]. pose proof (be_val_nonneg q Hw) as P. rewrite Hq in P. change (256 ^ 4) with 4294967296 in P. lia.
Qed.
Lemma sub_survives fl ty c d enc pre suf : rfc_sub ty c d enc -> wf d ->
  (exists s enc', sub_from_data sig_from_content (pre ++ enc ++ suf) (zlen pre) = Ok (s, zlen pre + zlen enc) /\ sub_bytes fl s = Ok enc' /\ rfc_sub ty c d enc' /\ zlen enc' <= zlen enc) <->
  stable_sub (fun d => exists s, sig_from_content d = Ok s /\ sig_content fl s = Ok d) ty d.
Proof.
  intros R W. pose proof R as (Ht & l0 & R0 & Ee0). rewrite (sub_at _ ty c d enc pre suf R). split.
  - intros (s & enc' & Hs & Hb & (_ & l & Hl & Ee) & _). apply bind_ok in Hs as (b & Hp & Hs). apply ok_inj in Hs. injection Hs as <-. apply (stable_subs fl _ ty d b W Ht Hp).
    unfold sub_bytes in Hb. apply bind_ok in Hb as (d' & Hd & Hf). rewrite Hd. f_equal. destruct (sub_frame_inv ty c d' enc' Ht Hf) as [(_ & l' & Hl' & Ee') _]. rewrite Ee in Ee'.
    destruct (rfc_new_length_inj _ _ _ _ _ _ Hl Hl' Ee') as (_ & _ & E). cbn [app] in E. now injection E.
  - intros H. destruct (stable_parses fl _ ty d W Ht H) as [b Hb]. rewrite Hb. cbn [bind]. exists (Sub ty c b). pose proof (proj2 (stable_subs fl _ ty d b W Ht Hb) H) as Hc.
    assert (Hm : zlen d < 4294967295). { apply rfc_new_length_max in R0. unfold MAX_PACKET_LENGTH in R0. lia. }
    destruct (sub_frame_rfc ty c d Ht Hm) as (enc' & E1 & E2 & _). exists enc'. split; [reflexivity|]. split; [unfold sub_bytes; rewrite Hc; exact E1|]. split; [exact E2|]. apply (proj2 (sub_frame_inv ty c d enc' Ht E1) enc R).
Qed.
(** ** version 3 *)
Lemma sig3_parse emb v st ct kid pk ha h2 ms encs data : rfc_sig3 v st ct kid pk ha h2 encs data -> Forall2 readable_mpi ms encs ->
  sig_body emb data = Ok (SigV3 v st pk ha h2 ms ct (hex_text (slice kid 0 4))).
Proof.
  intros (ctb & Hd & Hv & Lc & Vc & Lk & Lh & W) Hm. unfold sig_body. pose proof (len_mpis _ _ Hm) as A3. set (fuel := S (length data)). assert (Hf : (length ms < fuel)%nat) by (unfold fuel; rewrite Hd, !app_length; lia). clearbody fuel.
  destruct (split_at kid 0 4 ltac:(lia) ltac:(lia) ltac:(lia)) as (p & k1 & k2 & Ek & Lp & L1). apply zlen_0 in Lp as ->. cbn [app] in Ek. assert (L2 : zlen k2 = 4) by (subst kid; rewrite zlen_app in Lk; lia).
  assert (Sk : slice kid 0 4 = k1) by (rewrite Ek; apply (slice_app' [] k1 k2 0 4); change (zlen (@nil Z)) with 0; lia). rewrite Sk.
  assert (G0 : get data 0 = Ok v) by (rewrite Hd; reflexivity). assert (G1 : get data 1 = Ok 5) by (rewrite Hd; cbn [app]; rewrite get_cons_S by lia; apply get_cons_0).
  assert (G2 : get data 2 = Ok st) by (rewrite Hd; cbn [app]; rewrite get_cons_S by lia; change (2 - 1) with 1; rewrite get_cons_S by lia; apply get_cons_0).
  rewrite G0. cbn [bind]. replace ((v =? 2) || (v =? 3)) with true by lia. rewrite G1. cbn [bind]. change (negb (5 =? 5)) with false. cbv iota. rewrite G2. cbn [bind].
  assert (T : long_to_int data 3 = Ok ct). { rewrite Hd. change 3 with (zlen [v; 5; st]). unfold long_to_int. rewrite (bytes_to_int_spec [v; 5; st] ctb _ 4) by lia. now rewrite Vc. } rewrite T. cbn [bind].
  set (p1 := [v; 5; st] ++ ctb). assert (P1 : zlen p1 = 7) by (unfold p1; rewrite zlen_app, Lc; reflexivity).
  assert (D1 : data = p1 ++ k1 ++ k2 ++ [pk; ha] ++ h2 ++ concat encs) by (rewrite Hd, Ek; unfold p1; now rewrite <- !app_assoc).
  assert (Wk : wf k1). { rewrite D1 in W. rewrite !wf_app in W. tauto. }
  rewrite <- P1, D1, (bytearray_to_hex_at p1 k1 _ 8 Wk ltac:(lia)), <- D1. cbn [bind].
  set (p2 := p1 ++ k1 ++ k2). assert (P2 : zlen p2 = 15) by (unfold p2; rewrite !zlen_app; lia).
  assert (D2 : data = p2 ++ pk :: ha :: h2 ++ concat encs) by (rewrite D1; unfold p2; now rewrite <- !app_assoc).
  assert (G3 : get data 15 = Ok pk) by (rewrite D2, <- P2; apply get_app_0).
  assert (G4 : get data 16 = Ok ha). { replace (p2 ++ pk :: ha :: h2 ++ concat encs) with ((p2 ++ [pk]) ++ ha :: h2 ++ concat encs) in D2 by (now rewrite <- app_assoc). rewrite D2. replace 16 with (zlen (p2 ++ [pk])) by (rewrite zlen_app, P2; reflexivity). apply get_app_0. }
  rewrite G3, G4. cbn [bind].
  set (p3 := p2 ++ [pk; ha]). assert (P3 : zlen p3 = 17) by (unfold p3; rewrite zlen_app, P2; reflexivity).
  assert (D3 : data = p3 ++ h2 ++ concat encs) by (rewrite D2; unfold p3; now rewrite <- !app_assoc).
  assert (S1 : slice data 17 19 = h2) by (rewrite D3; apply slice_app'; lia). rewrite S1.
  set (p4 := p3 ++ h2). assert (P4 : zlen p4 = 19) by (unfold p4; rewrite zlen_app; lia).
  assert (D4 : data = p4 ++ concat encs) by (rewrite D3; unfold p4; now rewrite <- !app_assoc).
  rewrite <- P4. rewrite D4, (sig_values_ok ms encs Hm p4 [] fuel Hf). reflexivity.
Qed.
Lemma sig3_write fl v st pk ha h2 vs ct kid : exists e, sig_content fl (SigV3 v st pk ha h2 vs ct kid) = Err e /\ (byte v -> byte st -> e = TypeError).
Proof.
  cbn [sig_content]. unfold mk_bytes. destruct (wfb [v; 5; st]) eqn:E; cbn [bind]; [eexists; split; [reflexivity|auto]|]. eexists. split; [reflexivity|]. intros. exfalso. cbn [wfb forallb] in E. unfold byteb, byte in *. lia.
Qed.
(** ** the recursion bound is never reached *)
Lemma slice_shorter (data : bytes) o e : 1 <= o -> data <> [] -> (length (slice data o e) < length data)%nat.
Proof.
  intros Ho Hn. destruct data as [|x t]; [easy|]. unfold slice. rewrite firstn_length, skipn_length. unfold clip. replace (o <? 0) with false by lia. pose proof (zlen_nonneg t). rewrite zlen_cons. cbn [length].
  destruct (Z.min o (1 + zlen t)) eqn:E; unfold zlen in *; lia.
Qed.
Lemma subbody_ext emb emb' ty d : emb d = emb' d -> subbody_from emb ty d = subbody_from emb' ty d.
Proof. intros E. unfold subbody_from. now rewrite E. Qed.
Lemma sub_loop_ext emb emb' data e : wf data -> data <> [] -> (forall d, wf d -> (length d < length data)%nat -> emb d = emb' d) ->
  forall fuel o acc, 1 <= o -> sub_loop fuel emb data o e acc = sub_loop fuel emb' data o e acc.
Proof.
  intros W Hn Hx. induction fuel as [|f IH]; intros o acc Ho; [reflexivity|]. cbn [sub_loop]. destruct (o <? e); [|reflexivity]. unfold sub_from_data.
  destruct (new_packet_length data o) as [[[o' n] p]|x] eqn:E; [|reflexivity]. cbn [bind]. destruct p; [reflexivity|]. apply new_packet_length_bound in E as [E1 E2]; [|lia|exact W].
  destruct (get data o') as [tag|x]; [|reflexivity]. cbn [bind]. rewrite (subbody_ext emb emb' (Z.land tag 127) (slice data (o' + 1) (o' + 1 + (n - 1)))); [|apply Hx; [now apply slice_wf|apply slice_shorter; lia || assumption]].
  destruct (subbody_from emb' _ _) as [b|x]; [|reflexivity]. cbn [bind]. apply IH. lia.
Qed.
Lemma sub_loop_end emb data e : wf data -> forall fuel o acc l o', 1 <= o -> sub_loop fuel emb data o e acc = Ok (l, o') -> o <= o'.
Proof.
  intros W. induction fuel as [|f IH]; intros o acc l o' Ho H; [discriminate|]. cbn [sub_loop] in H. destruct (o <? e); [|apply ok_inj in H; injection H as _ <-; lia]. unfold sub_from_data in H.
  destruct (new_packet_length data o) as [[[o1 n] p]|x] eqn:E; [|discriminate]. cbn [bind] in H. destruct p; [discriminate|]. apply new_packet_length_bound in E as [E1 E2]; [|lia|exact W].
  destruct (get data o1) as [tag|x]; [|discriminate]. cbn [bind] in H. destruct (subbody_from emb _ _) as [b|x]; [|discriminate]. cbn [bind] in H. apply IH in H; lia.
Qed.
Lemma sig_body_ext emb emb' data : wf data -> (forall d, wf d -> (length d < length data)%nat -> emb d = emb' d) -> sig_body emb data = sig_body emb' data.
Proof.
  intros W Hx. destruct data as [|v t]; [reflexivity|]. set (data := v :: t) in *. unfold sig_body. destruct (get data 0) as [v'|]; [|reflexivity]. cbn [bind]. destruct ((v' =? 2) || (v' =? 3)); [reflexivity|]. destruct (v' =? 4); [|reflexivity].
  destruct (get data 1); [|reflexivity]. cbn [bind]. destruct (get data 2); [|reflexivity]. cbn [bind]. destruct (get data 3); [|reflexivity]. cbn [bind]. destruct (short_to_int data 4) as [l1|]; [|reflexivity]. cbn [bind].
  rewrite (sub_loop_ext emb emb' data (6 + l1) W ltac:(discriminate) Hx) by lia. destruct (sub_loop _ emb' data 6 _ []) as [[hs o]|] eqn:E; [|reflexivity]. cbn [bind]. apply sub_loop_end in E; [|exact W|lia].
  destruct (short_to_int data o) as [l2|]; [|reflexivity]. cbn [bind]. now rewrite (sub_loop_ext emb emb' data (o + 2 + l2) W ltac:(discriminate) Hx) by lia.
Qed.
Lemma sig_from_fuel n : forall data f, wf data -> (length data < n)%nat -> (length data < f)%nat -> sig_from f data = sig_from_content data.
Proof.
  induction n as [|n IH]; intros data f W Hn Hf; [lia|]. destruct f as [|f]; [lia|]. unfold sig_from_content. cbn [sig_from]. apply sig_body_ext; [exact W|]. intros d Wd Hd. rewrite (IH d f), (IH d (length data)) by (assumption || lia). reflexivity.
Qed.
Lemma sig_from_unfold data : wf data -> sig_from_content data = sig_body sig_from_content data.
Proof.
  intros W. unfold sig_from_content at 1. cbn [sig_from]. apply sig_body_ext; [exact W|]. intros d Wd Hd. now apply (sig_from_fuel (length data)).
Qed.
(** *** never out of fuel *)
Definition nofuel {A} (r : res A) : Prop := r <> Err OutOfFuel.
Lemma nf_bind {A B} (r : res A) (k : A -> res B) : nofuel r -> (forall a, r = Ok a -> nofuel (k a)) -> nofuel (bind r k).
Proof. unfold nofuel. intros H1 H2. destruct r as [a|e]; cbn [bind]; [now apply H2|congruence]. Qed.
Lemma nf_ok {A} (a : A) : nofuel (Ok a). Proof. discriminate. Qed.
Lemma nf_get {A} (l : list A) i : nofuel (get l i).
Proof. unfold nofuel, get. destruct (_ || _); [discriminate|]. destruct (nth_error _ _); discriminate. Qed.
Lemma nf_if {A} (b : bool) (x y : res A) : nofuel x -> nofuel y -> nofuel (if b then x else y).
Proof. now destruct b. Qed.
Lemma nf_err {A} e : e <> OutOfFuel -> nofuel (@Err A e). Proof. unfold nofuel. congruence. Qed.
Lemma nf_bti bs o n : nofuel (bytes_to_int bs o n).
Proof. intros E. apply bytes_to_int_err in E. discriminate. Qed.
Lemma nf_to_hex n : forall arr i, nofuel (to_hex_loop n arr i).
Proof. induction n as [|n IH]; intros; cbn [to_hex_loop]; [apply nf_ok|]. apply nf_bind; [apply nf_get|]. intros. apply nf_bind; [apply IH|]. intros. apply nf_ok. Qed.
Lemma nf_hex arr i n : nofuel (bytearray_to_hex arr i (Some n)).
Proof. unfold bytearray_to_hex. apply nf_if; [now apply nf_err|]. apply nf_bind; [apply nf_to_hex|]. intros. apply nf_if; [now apply nf_err|apply nf_ok]. Qed.
Lemma nf_mpi data o : nofuel (mpi_to_int data o).
Proof. unfold mpi_to_int. apply nf_bind; [unfold mpi_length; repeat first [apply nf_ok | apply nf_bti | apply nf_bind; [|intros]]|]. intros. apply nf_bind; [apply nf_bti|]. intros. apply nf_ok. Qed.
Lemma nf_utf8 d : nofuel (utf8_decode d).
Proof. unfold utf8_decode. induction (items d) as [|[c|] l IH]; cbn [mapM]; [apply nf_ok| |now apply nf_err]. cbn [bind]. apply nf_bind; [exact IH|]. intros. apply nf_ok. Qed.
Lemma nf_subbody emb ty d : nofuel (emb d) -> nofuel (subbody_from emb ty d).
Proof.
  intros He. unfold subbody_from, bool_from, short_to_int, long_to_int.
  repeat first [apply nf_ok | apply nf_err; discriminate | apply nf_get | apply nf_bti | apply nf_hex | apply nf_utf8 | exact He | apply nf_if | apply nf_bind; [|intros] | match goal with |- nofuel (let '(_, _) := ?x in _) => destruct x end | match goal with |- nofuel (match ?x with Some _ => _ | None => _ end) => destruct x end].
Qed.
Lemma nf_sub_loop emb data e : wf data -> data <> [] -> (forall d, wf d -> (length d < length data)%nat -> nofuel (emb d)) ->
  forall fuel o acc, 1 <= o -> (0 < fuel)%nat -> zlen data - o < Z.of_nat fuel -> nofuel (sub_loop fuel emb data o e acc).
Proof.
  intros W Hn Hx. induction fuel as [|f IH]; intros o acc Ho H0 Hf; [lia|]. cbn [sub_loop]. apply nf_if; [|apply nf_ok]. unfold sub_from_data.
  destruct (new_packet_length data o) as [[[o' n] p]|x] eqn:E; cbn [bind]; [|apply new_packet_length_err in E; subst x; now apply nf_err]. destruct p; [now apply nf_err|]. apply new_packet_length_bound in E as [E1 E2]; [|lia|exact W].
  destruct (get data o') as [tag|x] eqn:G; cbn [bind]; [|apply get_err in G; subst x; now apply nf_err].
  pose proof (nf_subbody emb (Z.land tag 127) (slice data (o' + 1) (o' + 1 + (n - 1)))) as Q. destruct (subbody_from emb _ _) as [b|x]; cbn [bind]; [apply IH; lia|].
  intros K. injection K as ->. refine (Q _ eq_refl). apply Hx; [now apply slice_wf|apply slice_shorter; lia || assumption].
Qed.
Lemma nf_values data : wf data -> forall fuel o acc, 0 <= o -> (0 < fuel)%nat -> zlen data - o < Z.of_nat fuel -> nofuel (sig_values fuel data o acc).
Proof.
  intros W. induction fuel as [|f IH]; intros o acc Ho H0 Hf; [lia|]. cbn [sig_values]. apply nf_if; [|apply nf_ok]. destruct (mpi_to_int data o) as [[v o']|x] eqn:E; cbn [bind].
  - apply mpi_inv in E as [_ E]; [|exact W|exact Ho]. apply IH; lia.
  - pose proof (nf_mpi data o) as Q. rewrite E in Q. intros K. injection K as ->. now apply Q.
Qed.
Lemma sig_body_nf emb data : wf data -> (forall d, wf d -> (length d < length data)%nat -> nofuel (emb d)) -> nofuel (sig_body emb data).
Proof.
  intros W Hx. destruct data as [|v t]; [now apply nf_err|]. set (data := v :: t) in *. assert (Hn : data <> []) by discriminate. unfold sig_body, short_to_int, long_to_int.
  assert (Hfuel : forall o, 1 <= o -> zlen data - o < Z.of_nat (S (length data))) by (intros; unfold zlen; lia).
  apply nf_bind; [apply nf_get|]. intros v' _. apply nf_if; [|apply nf_if; [|now apply nf_err]].
  - repeat first [apply nf_values; [exact W|lia|lia|apply Hfuel; lia] | apply nf_ok | apply nf_err; discriminate | apply nf_get | apply nf_bti | apply nf_hex | apply nf_if | apply nf_values; [exact W|lia|lia|apply Hfuel; lia] | apply nf_bind; [|intros]].
  - do 4 (apply nf_bind; [first [apply nf_get|apply nf_bti]|intros]).
    apply nf_bind; [apply nf_sub_loop; try assumption; try lia; apply Hfuel; lia|]. intros [hs o] E. apply sub_loop_end in E; [|exact W|lia].
    apply nf_bind; [apply nf_bti|]. intros l2 _. apply nf_bind; [apply nf_sub_loop; try assumption; try lia; apply Hfuel; lia|]. intros [us o2] E2. apply sub_loop_end in E2; [|exact W|lia].
    apply nf_bind; [apply nf_values; try assumption; try lia; apply Hfuel; lia|]. intros. apply nf_ok.
Qed.
Lemma sig_from_nf n : forall data, wf data -> (length data < n)%nat -> nofuel (sig_from_content data).
Proof.
  induction n as [|n IH]; intros data W Hn; [lia|]. rewrite sig_from_unfold by exact W. apply sig_body_nf; [exact W|]. intros d Wd Hd. apply IH; [exact Wd|lia].
Qed.
Lemma area_round fl l pre suf : Forall (sub_ok fl) l -> exists a, subs_bytes fl l = Ok a /\ wf a /\
  forall fuel, (length (pre ++ a ++ suf) < fuel)%nat -> sub_loop fuel sig_from_content (pre ++ a ++ suf) (zlen pre) (zlen pre + zlen a) [] = Ok (l, zlen pre + zlen a).
Proof.
  intros H.
  assert (Hg : Forall (sub_good fl (sig_back fl)) l).
  { eapply Forall_impl; [|exact H]. intros x Hx. split; [exact Hx|]. destruct Hx as [ty c b Hp _|c e He _]; cbn [sub_body]; [destruct b; exact I || (cbn [plain_ok] in Hp; contradiction)|].
    destruct (sig_round fl e He) as (data & st & pk & ha & h2 & vs & hs & us & a & b & encs & _ & E & _ & _ & _ & R & P). exists data. split; [exact E|]. split; [|exact P]. now destruct R as (l1 & l2 & _ & _ & _ & _ & _ & _ & W). }
  destruct (area_back fl l Hg) as (ts & encs & A & B & W & M). exists (concat encs). split; [exact B|]. split; [exact W|]. intros fuel Hf. rewrite !app_length in Hf. pose proof (area_len _ _ A).
  rewrite (area_parse _ ts encs A pre suf [] fuel) by lia.
  enough (E : mapM (sub_of sig_from_content) ts = Ok l) by (rewrite E; reflexivity).
  rewrite <- (M (S (length (concat encs)))) by lia. clear - A W.
  assert (Q : forall n, (length (concat encs) <= n)%nat -> mapM (sub_of sig_from_content) ts = mapM (sub_of (sig_from (S n))) ts); [|apply Q; lia].
  induction A as [|[[ty c] d] enc ts encs R A IH]; intros n Hn; cbn [mapM concat] in *; [reflexivity|]. apply wf_app in W as [W1 W2]. rewrite app_length in Hn. rewrite (IH W2 n) by lia.
  enough (E : sub_of sig_from_content (ty, c, d) = sub_of (sig_from (S n)) (ty, c, d)) by now rewrite E. unfold sub_of. cbn [fst snd] in *. rewrite (subbody_ext sig_from_content (sig_from (S n)) ty d); [reflexivity|].
  pose proof (rfc_sub_len _ _ _ _ R) as L. assert (Wd : wf d). { destruct R as (_ & l0 & _ & ->). rewrite !wf_app in W1. tauto. }
  symmetry. apply (sig_from_fuel (S (length d))); [exact Wd|lia|]. unfold zlen in L. lia.
Qed.
