From Verif Require Import Base BaseProofs Spec Utils UtilsProofs Idea SpecIdea IdeaProofs.

Definition kf (k : list Z) (i : nat) : Z := nth i k 0.
Definition table_ok (k : list Z) : Prop := length k = 52%nat /\ forall i, (i < 52)%nat -> w16 (kf k i).
Lemma get_k k i : (i < length k)%nat -> get k (Z.of_nat i) = Ok (kf k i).
Proof. intros H. rewrite get_nonneg, Nat2Z.id by lia. rewrite (nth_error_nth' k 0) by lia. reflexivity. Qed.
Lemma get_k' k z i : z = Z.of_nat i -> (i < length k)%nat -> get k z = Ok (kf k i).
Proof. intros -> H. now apply get_k. Qed.

Definition st16 (s : words) : words := let '(a, b, c, d) := s in (a mod 65536, b mod 65536, c mod 65536, d mod 65536).
Lemma iadd_mod a b : (a + b) mod 65536 = iadd (a mod 65536) (b mod 65536).
Proof. unfold iadd. now rewrite Zplus_mod. Qed.
Lemma mod_small16 x : w16 x -> x mod 65536 = x.
Proof. unfold w16. apply Z.mod_small. Qed.
Lemma mod_mod16 x : (x mod 65536) mod 65536 = x mod 65536. Proof. apply Z.mod_mod. lia. Qed.
Lemma mul_masked x k : w16 k -> (mul (Z.land x 65535) k) mod 65536 = imul (x mod 65536) k.
Proof. intros Hk. rewrite mul_spec, land_16, mod_mod16, (mod_small16 k Hk). reflexivity. Qed.
Lemma round_step k st r : table_ok k -> (r < 8)%nat -> exists st',
  round k (st, Z.of_nat (6 * r)) = Ok (st', Z.of_nat (6 * S r)) /\ st16 st' = idea_round (kf k) r (st16 st).
Proof.
  intros [Hl Hk] Hr. destruct st as [[[x1 x2] x3] x4]. unfold round.
  rewrite (get_k' k (Z.of_nat (6 * r)) (6 * r)) by lia. rewrite (get_k' k _ (6 * r + 1)) by lia. rewrite (get_k' k _ (6 * r + 2)) by lia.
  rewrite (get_k' k _ (6 * r + 3)) by lia. rewrite (get_k' k _ (6 * r + 4)) by lia. rewrite (get_k' k _ (6 * r + 5)) by lia.
  cbn [bind].
  pose proof (Hk (6 * r)%nat ltac:(lia)) as H0. pose proof (Hk (6 * r + 1)%nat ltac:(lia)) as H1. pose proof (Hk (6 * r + 2)%nat ltac:(lia)) as H2.
  pose proof (Hk (6 * r + 3)%nat ltac:(lia)) as H3. pose proof (Hk (6 * r + 4)%nat ltac:(lia)) as H4. pose proof (Hk (6 * r + 5)%nat ltac:(lia)) as H5.
  eexists. split; [replace (Z.of_nat (6 * r) + 6) with (Z.of_nat (6 * S r)) by lia; reflexivity|].
  unfold idea_round, st16, key_layer, ma_layer, swap_mid.
  set (k0 := kf k (6 * r)) in *. set (k1 := kf k (6 * r + 1)) in *. set (k2 := kf k (6 * r + 2)) in *.
  set (k3 := kf k (6 * r + 3)) in *. set (k4 := kf k (6 * r + 4)) in *. set (k5 := kf k (6 * r + 5)) in *.
  cbv beta iota zeta. clearbody k0 k1 k2 k3 k4 k5.
  repeat (rewrite ?iadd_mod, ?mul_masked, ?lxor_mod16, ?(mod_small16 k1), ?(mod_small16 k2) by assumption).
  rewrite (Z.lxor_comm (iadd _ _) (iadd (x2 mod 65536) k1)). reflexivity.
Qed.
Lemma bytes_to_shorts_8 a b c d e f g h : wf [a; b; c; d; e; f; g; h] ->
  bytes_to_shorts [a; b; c; d; e; f; g; h] = Ok [word_be a b; word_be c d; word_be e f; word_be g h].
Proof. intros _. cbn [bytes_to_shorts bind]. rewrite !Z.shiftl_mul_pow2 by lia. unfold word_be. do 2 f_equal; [lia|]. do 1 f_equal; [lia|]. f_equal; [lia|]. f_equal. lia. Qed.
Lemma shorts_octets a b c d : w16 a -> w16 b -> w16 c -> w16 d -> shorts_to_bytes [a; b; c; d] = Ok (octets_of (a, b, c, d)).
Proof.
  intros Ha Hb Hc Hd.
  assert (H : forall x, w16 x -> mk_bytes [Z.shiftr x 8; Z.land x 255] = Ok (word_octets x)).
  { intros x Hx. rewrite shiftr_div, land_255 by lia. change (2 ^ 8) with 256. apply mk_bytes_wf. unfold w16 in Hx. repeat constructor; lia. }
  cbn [shorts_to_bytes]. rewrite !H by assumption. cbn [bind]. unfold octets_of. now rewrite app_nil_r.
Qed.
Lemma st16_ok s : wok (st16 s). Proof. destruct s as [[[a b] c] d]. cbn. repeat split; apply w16_mod || apply Z.mod_pos_bound; lia. Qed.
Lemma st16_id s : wok s -> st16 s = s.
Proof. destruct s as [[[a b] c] d]. cbn. intros (H1 & H2 & H3 & H4). now rewrite !mod_small16. Qed.
Lemma words_of_ok b s : wf b -> words_of b = Some s -> wok s /\ b = octets_of s /\ bytes_to_shorts b = Ok (let '(a, b, c, d) := s in [a; b; c; d]).
Proof.
  intros Hw. destruct b as [|a [|b [|c [|d [|e [|f [|g [|h [|? ?]]]]]]]]]; try discriminate. cbn [words_of]. intros [= <-].
  rewrite bytes_to_shorts_8 by easy. rewrite !wf_cons in Hw. unfold byte in Hw. unfold word_be, wok, octets_of, word_octets, w16.
  repeat split; try lia. cbn [app]. repeat (f_equal; try lia).
Qed.
Lemma words_of_octets s : wok s -> words_of (octets_of s) = Some s /\ wf (octets_of s).
Proof.
  destruct s as [[[a b] c] d]. unfold wok, w16. intros (H1 & H2 & H3 & H4).
  assert (Hx : forall x, word_be (x / 256) (x mod 256) = x) by (intros; unfold word_be; lia).
  unfold octets_of, word_octets. cbn [app words_of]. split; [now rewrite !Hx|]. repeat constructor; lia.
Qed.
Lemma idea_cipher_ok k b s : table_ok k -> wf b -> words_of b = Some s -> idea_cipher k b = Ok (octets_of (idea_words (kf k) s)).
Proof.
  intros Hk Hw Hs. destruct (words_of_ok b s Hw Hs) as (Hso & _ & Hsh). unfold idea_cipher. rewrite Hsh. cbn [bind].
  destruct s as [[[x1 x2] x3] x4]. change (zrange 8) with [0; 1; 2; 3; 4; 5; 6; 7]. cbn [foldM].
  set (s0 := (x1, x2, x3, x4)) in *.
  destruct (round_step k s0 0 Hk ltac:(lia)) as (s1 & E1 & R1). change (Z.of_nat (6 * 0)) with 0 in E1. rewrite E1. cbn [bind].
  destruct (round_step k s1 1 Hk ltac:(lia)) as (s2 & E2 & R2). rewrite E2. cbn [bind].
  destruct (round_step k s2 2 Hk ltac:(lia)) as (s3 & E3 & R3). rewrite E3. cbn [bind].
  destruct (round_step k s3 3 Hk ltac:(lia)) as (s4 & E4 & R4). rewrite E4. cbn [bind].
  destruct (round_step k s4 4 Hk ltac:(lia)) as (s5 & E5 & R5). rewrite E5. cbn [bind].
  destruct (round_step k s5 5 Hk ltac:(lia)) as (s6 & E6 & R6). rewrite E6. cbn [bind].
  destruct (round_step k s6 6 Hk ltac:(lia)) as (s7 & E7 & R7). rewrite E7. cbn [bind].
  destruct (round_step k s7 7 Hk ltac:(lia)) as (s8 & E8 & R8). rewrite E8. cbn [bind].
  destruct Hk as [Hl Hk].
  assert (Hfin : st16 s8 = fold_left (fun s r => idea_round (kf k) r s) (seq 0 8) s0).
  { cbn [seq fold_left]. rewrite R8, R7, R6, R5, R4, R3, R2, R1, (st16_id s0 Hso). reflexivity. }
  unfold idea_words. rewrite <- Hfin. destruct s8 as [[[y1 y2] y3] y4].
  rewrite (get_k' k _ 48) by lia. rewrite (get_k' k _ 49) by lia. rewrite (get_k' k _ 50) by lia. rewrite (get_k' k _ 51) by lia. cbn [bind].
  rewrite !land_16. rewrite shorts_octets by apply w16_mod.
  unfold st16, swap_mid, key_layer. rewrite <- (land_16 y1), <- (land_16 y4), !mul_masked by (apply Hk; lia).
  rewrite !iadd_mod, !(mod_small16 (kf k _)) by (apply Hk; lia). rewrite !land_16. reflexivity.
Qed.
Lemma idea_cipher_len k b : wf b -> words_of b = None -> idea_cipher k b = Err ValueError \/ idea_cipher k b = Err IndexError.
Proof.
  intros _ Hn.
  assert (Hgen : forall n b, (length b <= n)%nat -> (exists l, bytes_to_shorts b = Ok l /\ length b = (2 * length l)%nat) \/ bytes_to_shorts b = Err IndexError).
  { clear. induction n as [|n IH]; intros [|x [|y t]] Hl; cbn [length bytes_to_shorts] in *; try (now right); try lia.
    - left. now exists [].
    - left. now exists [].
    - destruct (IH t ltac:(lia)) as [(l & -> & Hx)| ->]; [left; eexists; split; [reflexivity|cbn [length]; lia]|now right]. }
  unfold idea_cipher. destruct (Hgen (length b) b (le_n _)) as [(l & -> & Hl)| ->]; [|now right]. left. cbn [bind].
  destruct l as [|x1 [|x2 [|x3 [|x4 [|x5 l]]]]]; try reflexivity. exfalso. cbn [length] in Hl.
  destruct b as [|? [|? [|? [|? [|? [|? [|? [|? [|? ?]]]]]]]]]; cbn in Hl; try lia. discriminate.
Qed.

(** ** key schedules *)
Definition gen_step (f : Z -> Z -> Z) (table : list Z) (i : Z) : res (list Z) :=
  let x := if 0 <? (i + 1) mod 8 then i - 7 else i - 15 in
  let y := if (i + 2) mod 8 <? 2 then i - 14 else i - 6 in
  do a <- get table x;; do b <- get table y;; Ok (table ++ [f a b]).
Definition next8 (f : Z -> Z -> Z) (k : list Z) : list Z :=
  match k with
  | [k0; k1; k2; k3; k4; k5; k6; k7] => [f k1 k2; f k2 k3; f k3 k4; f k4 k5; f k5 k6; f k6 k7; f k7 k0; f k0 k1]
  | _ => []
  end.
Fixpoint iter8 (f : Z -> Z -> Z) (n : nat) (k : list Z) : list Z := match n with O => k | S n' => next8 f (iter8 f n' k) end.
Lemma gen_table f k0 k1 k2 k3 k4 k5 k6 k7 : let k := [k0; k1; k2; k3; k4; k5; k6; k7] in
  foldM (gen_step f) k (map (fun k => k + 8) (zrange 44)) = Ok (firstn 52 (concat (map (fun n => iter8 f n k) (seq 0 7)))).
Proof. vm_compute. reflexivity. Qed.
Definition f16 (a b : Z) : Z := Z.land (Z.lor (Z.shiftl a 9) (Z.shiftr b 7)) 65535.
Lemma f16_val a b : w16 a -> w16 b -> f16 a b = 512 * (a mod 128) + b / 128.
Proof.
  intros Ha Hb. unfold w16 in *. unfold f16. rewrite land_16.
  assert (Hland : Z.land (Z.shiftl a 9) (Z.shiftr b 7) = 0).
  { apply Z.bits_inj'. intros n Hn. rewrite Z.land_spec, Z.bits_0. destruct (Z.lt_ge_cases n 9).
    - now rewrite Z.shiftl_spec_low.
    - rewrite Z.shiftr_spec by lia. rewrite (Z.bits_above_log2 b (n + 7)), andb_false_r; [reflexivity|lia|].
      destruct (Z.eq_dec b 0) as [->|]; [cbn; lia|]. apply Z.log2_lt_pow2; [lia|]. apply Z.lt_le_trans with (2 ^ 16); [cbn; lia|].
      apply Z.pow_le_mono_r; lia. }
  assert (Hor : Z.lor (Z.shiftl a 9) (Z.shiftr b 7) = a * 512 + b / 128).
  { rewrite <- Z.lxor_lor, <- Z.add_nocarry_lxor by exact Hland. now rewrite Z.shiftl_mul_pow2, Z.shiftr_div_pow2 by lia. }
  rewrite Hor. lia.
Qed.

Definition val8 (k : list Z) : Z := fold_left (fun acc w => acc * 65536 + w) k 0.
Definition is8 (k : list Z) : Prop := length k = 8%nat /\ Forall w16 k.
Lemma f16_w16 a b : w16 a -> w16 b -> w16 (f16 a b).
Proof. intros Ha Hb. rewrite f16_val by easy. unfold w16 in *. lia. Qed.
Lemma horner x n w : 0 <= x < n -> 0 <= w < 65536 -> 0 <= x * 65536 + w < n * 65536.
Proof. lia. Qed.
Lemma next8_ok k : is8 k -> is8 (next8 f16 k) /\ val8 (next8 f16 k) = rotl25 (val8 k).
Proof.
  intros [Hl Hw]. destruct k as [|k0 [|k1 [|k2 [|k3 [|k4 [|k5 [|k6 [|k7 [|? ?]]]]]]]]]; try discriminate.
  repeat match goal with H : Forall w16 (_ :: _) |- _ => inversion H; subst; clear H end.
  cbn [next8]. split; [split; [reflexivity|repeat constructor; now apply f16_w16]|].
  rewrite !f16_val by assumption. unfold w16 in *. unfold val8. cbn [fold_left].
  assert (Hs : forall x, 0 <= x < 65536 -> exists a b, x = 128 * a + b /\ 0 <= a < 512 /\ 0 <= b < 128 /\ x / 128 = a /\ x mod 128 = b).
  { intros x Hx. exists (x / 128), (x mod 128). lia. }
  destruct (Hs k0 ltac:(assumption)) as (a0 & b0 & E0 & Ha0 & Hb0 & -> & ->).
  destruct (Hs k1 ltac:(assumption)) as (a1 & b1 & E1 & Ha1 & Hb1 & -> & ->).
  destruct (Hs k2 ltac:(assumption)) as (a2 & b2 & E2 & Ha2 & Hb2 & -> & ->).
  destruct (Hs k3 ltac:(assumption)) as (a3 & b3 & E3 & Ha3 & Hb3 & -> & ->).
  destruct (Hs k4 ltac:(assumption)) as (a4 & b4 & E4 & Ha4 & Hb4 & -> & ->).
  destruct (Hs k5 ltac:(assumption)) as (a5 & b5 & E5 & Ha5 & Hb5 & -> & ->).
  destruct (Hs k6 ltac:(assumption)) as (a6 & b6 & E6 & Ha6 & Hb6 & -> & ->).
  destruct (Hs k7 ltac:(assumption)) as (a7 & b7 & E7 & Ha7 & Hb7 & -> & ->). clear Hs.
  set (v := (((((((0 * 65536 + k0) * 65536 + k1) * 65536 + k2) * 65536 + k3) * 65536 + k4) * 65536 + k5) * 65536 + k6) * 65536 + k7).
  set (q := 512 * k0 + a1). set (r := (((((b1 * 65536 + k2) * 65536 + k3) * 65536 + k4) * 65536 + k5) * 65536 + k6) * 65536 + k7).
  assert (Hv : v = 2 ^ 103 * q + r).
  { unfold v, q, r. rewrite E1. change (2 ^ 103) with (128 * 65536 * 65536 * 65536 * 65536 * 65536 * 65536). ring. }
  assert (Hr : 0 <= r < 2 ^ 103).
  { unfold r. change (2 ^ 103) with (128 * 65536 * 65536 * 65536 * 65536 * 65536 * 65536). repeat apply horner; assumption. }
  unfold rotl25. rewrite <- (Z.div_unique_pos v (2 ^ 103) q r Hr Hv).
  assert (Hm : (v * 2 ^ 25) mod 2 ^ 128 = r * 2 ^ 25).
  { symmetry. apply (Z.mod_unique_pos (v * 2 ^ 25) (2 ^ 128) q (r * 2 ^ 25)).
    - change (2 ^ 128) with (2 ^ 103 * 2 ^ 25). split; [lia|]. apply Z.mul_lt_mono_pos_r; [reflexivity|apply Hr].
    - rewrite Hv. change (2 ^ 128) with (2 ^ 103 * 2 ^ 25). ring. }
  rewrite Hm. unfold q, r. subst k0 k1 k2 k3 k4 k5 k6 k7. change (2 ^ 25) with (65536 * 512). ring.
Qed.
Lemma iter8_ok n k : is8 k -> is8 (iter8 f16 n k) /\ val8 (iter8 f16 n k) = rotl n (val8 k).
Proof.
  intros Hk. induction n as [|n [IH1 IH2]]; [easy|]. cbn [iter8 rotl]. rewrite <- IH2. now apply next8_ok.
Qed.
Lemma val8_word k j : is8 k -> (j < 8)%nat -> nth j k 0 = (val8 k / 2 ^ (112 - 16 * Z.of_nat j)) mod 65536.
Proof.
  intros [Hl Hw] Hj. destruct k as [|k0 [|k1 [|k2 [|k3 [|k4 [|k5 [|k6 [|k7 [|? ?]]]]]]]]]; try discriminate.
  repeat match goal with H : Forall w16 (_ :: _) |- _ => inversion H; subst; clear H end. unfold w16 in *.
  unfold val8. cbn [fold_left].
  assert (Hd : forall x w n, 0 <= w < 65536 -> 16 <= n -> (x * 65536 + w) / 2 ^ n = x / 2 ^ (n - 16)).
  { intros x w n Hx Hn. replace n with (16 + (n - 16)) at 1 by lia. rewrite Z.pow_add_r by lia. change (2 ^ 16) with 65536.
    rewrite <- Z.div_div by (try apply Z.pow_pos_nonneg; lia). f_equal. lia. }
  assert (H0 : forall x w, 0 <= w < 65536 -> w = ((x * 65536 + w) / 2 ^ 0) mod 65536) by (intros; change (2 ^ 0) with 1; rewrite Z.div_1_r; lia).
  destruct j as [|[|[|[|[|[|[|[|j]]]]]]]]; [..|lia]; cbn [nth];
    match goal with |- context [112 - ?y] => let m := eval compute in (112 - y) in change (112 - y) with m end;
    repeat match goal with |- context [(?x * 65536 + ?w) / 2 ^ (Z.pos ?n)] =>
      rewrite (Hd x w (Z.pos n)) by lia; let m := eval compute in (Z.pos n - 16) in change (Z.pos n - 16) with m end;
    apply H0; assumption.
Qed.
Lemma enc_step_f16 table i : enc_key_step table i = gen_step f16 table i.
Proof. reflexivity. Qed.
Lemma foldM_ext {A B} (f g : A -> B -> res A) l : (forall a b, f a b = g a b) -> forall a, foldM f a l = foldM g a l.
Proof. intros H. induction l as [|b l IH]; intros a; cbn [foldM]; [reflexivity|]. rewrite H. destruct (g a b); cbn [bind]; auto. Qed.
Lemma bytes_to_shorts_16 key : wf key -> zlen key = 16 -> exists k, bytes_to_shorts key = Ok k /\ is8 k /\ val8 k = be_val key.
Proof.
  intros Hw Hl. unfold zlen in Hl.
  do 16 (destruct key as [|? key]; [cbn in Hl; lia|]). destruct key; [|cbn in Hl; lia].
  cbn [bytes_to_shorts bind]. eexists. split; [reflexivity|].
  rewrite !wf_cons in Hw. unfold byte in Hw. rewrite !Z.shiftl_mul_pow2 by lia. change (2 ^ 8) with 256.
  split; [split; [reflexivity|repeat constructor; lia]|]. unfold val8. cbn [fold_left be_val].
  repeat match goal with |- context [256 ^ ?e] => let m := eval vm_compute in (256 ^ e) in change (256 ^ e) with m end. ring.
Qed.
(** the encryption subkeys are those of the published schedule *)
Lemma enc_keys_ok key : wf key -> zlen key = 16 ->
  exists ekt, generate_enc_keys key = Ok ekt /\ table_ok ekt /\ forall i, (i < 52)%nat -> kf ekt i = idea_subkey (be_val key) i.
Proof.
  intros Hw Hl. destruct (bytes_to_shorts_16 key Hw Hl) as (k & Hk & H8 & Hv). unfold generate_enc_keys. rewrite Hk. cbn [bind].
  rewrite (foldM_ext _ (gen_step f16) _ enc_step_f16).
  assert (Hg : forall n, (n < 7)%nat -> forall j, (j < 8)%nat -> nth j (iter8 f16 n k) 0 = idea_subkey (be_val key) (8 * n + j)).
  { intros n Hn j Hj. destruct (iter8_ok n k H8) as [G1 G2]. rewrite (val8_word _ j G1 Hj), G2, Hv. unfold idea_subkey.
    replace ((8 * n + j) / 8)%nat with n by (rewrite Nat.mul_comm, Nat.div_add_l, (Nat.div_small j 8) by lia; lia).
    replace ((8 * n + j) mod 8)%nat with j by (rewrite Nat.add_comm, Nat.mul_comm, Nat.mod_add, Nat.mod_small by lia; lia). reflexivity. }
  assert (Hlen : forall n, length (iter8 f16 n k) = 8%nat) by (intros n; destruct (iter8_ok n k H8) as [[G _] _]; exact G).
  assert (Hw16 : forall v i, w16 (idea_subkey v i)) by (intros; apply w16_mod).
  destruct H8 as [H8l H8w].
  pose proof (gen_table f16) as Ht.
  destruct k as [|k0 [|k1 [|k2 [|k3 [|k4 [|k5 [|k6 [|k7 [|? ?]]]]]]]]]; try discriminate. rewrite Ht. clear Ht.
  set (k := [k0; k1; k2; k3; k4; k5; k6; k7]) in *. eexists. split; [reflexivity|].
  assert (Hall : forall i, (i < 52)%nat -> kf (firstn 52 (concat (map (fun n => iter8 f16 n k) (seq 0 7)))) i = idea_subkey (be_val key) i).
  { intros i Hi. unfold kf. 
    assert (Hcc : forall m, (m <= 7)%nat -> forall i, (i < 8 * m)%nat -> nth i (concat (map (fun n => iter8 f16 n k) (seq 0 m))) 0 = idea_subkey (be_val key) i /\
              length (concat (map (fun n => iter8 f16 n k) (seq 0 m))) = (8 * m)%nat).
    { clear i Hi. induction m as [|m IH]; intros Hm i Hi; [lia|]. rewrite seq_S, map_app, concat_app. cbn [map concat Nat.add]. rewrite app_nil_r, app_length, Hlen.
      assert (HL : length (concat (map (fun n => iter8 f16 n k) (seq 0 m))) = (8 * m)%nat).
      { destruct m as [|m]; [reflexivity|]. apply (IH ltac:(lia) 0%nat). lia. }
      split; [|lia]. destruct (Nat.lt_ge_cases i (8 * m)).
      - rewrite app_nth1 by lia. now apply IH; lia.
      - rewrite app_nth2 by lia. rewrite HL. rewrite Hg by lia. f_equal. lia. }
    destruct (Hcc 7%nat ltac:(lia) i ltac:(lia)) as [C1 C2]. rewrite <- C1.
    rewrite <- (firstn_skipn 52 (concat (map (fun n => iter8 f16 n k) (seq 0 7)))) at 2.
    rewrite app_nth1; [reflexivity|]. rewrite firstn_length, C2. lia. }
  split; [|exact Hall]. split; [reflexivity|]. intros i Hi. rewrite Hall by easy. apply Hw16.
Qed.
(** the decryption table undoes it *)
Lemma dec_keys_ok ekt : table_ok ekt -> exists dkt, generate_dec_keys ekt = Ok dkt /\ table_ok dkt /\ forall i, (i < 52)%nat -> kf dkt i = dkey (kf ekt) i.
Proof.
  intros [Hl Hk].
  assert (Hinv : forall i, (i < 52)%nat -> mul_inv (kf ekt i) = Ok (inv_word (kf ekt i)) /\ w16 (inv_word (kf ekt i))).
  { intros i Hi. destruct (inv_word_ok _ (Hk i Hi)) as (A & B & _). auto. }
  assert (Hn16 : forall x, w16 (neg16 x)) by (intros; unfold neg16; rewrite land_16; apply w16_mod).
  assert (Hstep : forall table o i, (o + 5 < 52)%nat -> dec_key_step ekt (table, Z.of_nat o) i = Ok (inv_word (kf ekt (o + 2)) ::
     (if i =? 0 then [neg16 (kf ekt (o + 3)); neg16 (kf ekt (o + 4))] else [neg16 (kf ekt (o + 4)); neg16 (kf ekt (o + 3))]) ++
     [inv_word (kf ekt (o + 5)); kf ekt o; kf ekt (o + 1)] ++ table, Z.of_nat (o + 6))).
  { intros table o i Ho. unfold dec_key_step.
    rewrite (get_k' ekt _ (o + 1)) by lia. rewrite (get_k' ekt _ o) by lia. rewrite (get_k' ekt _ (o + 5)) by lia. cbn [bind].
    rewrite (proj1 (Hinv (o + 5)%nat ltac:(lia))). rewrite (get_k' ekt _ (o + 4)) by lia. rewrite (get_k' ekt _ (o + 3)) by lia.
    rewrite (get_k' ekt _ (o + 2)) by lia. cbn [bind]. rewrite (proj1 (Hinv (o + 2)%nat ltac:(lia))). cbn [bind].
    rewrite !land_16, !mod_small16 by (apply Hk; lia). replace (Z.of_nat o + 6) with (Z.of_nat (o + 6)) by lia. reflexivity. }
  unfold generate_dec_keys. rewrite (get_k' ekt _ 3) by lia. rewrite (get_k' ekt _ 2) by lia. rewrite (get_k' ekt _ 1) by lia. rewrite (get_k' ekt _ 0) by lia.
  cbn [bind]. rewrite (proj1 (Hinv 3%nat ltac:(lia))). cbn [bind]. rewrite (proj1 (Hinv 0%nat ltac:(lia))). cbn [bind foldM].
  change 4 with (Z.of_nat 4) at 1. rewrite Hstep by lia. cbn [bind]. rewrite Hstep by lia. cbn [bind]. rewrite Hstep by lia. cbn [bind].
  rewrite Hstep by lia. cbn [bind]. rewrite Hstep by lia. cbn [bind]. rewrite Hstep by lia. cbn [bind]. rewrite Hstep by lia. cbn [bind].
  rewrite Hstep by lia. cbn [bind Z.eqb app Nat.add]. eexists. split; [reflexivity|].
  match goal with |- table_ok ?t /\ _ => set (dkt := t) end.
  assert (Hall : forall i, (i < 52)%nat -> kf dkt i = dkey (kf ekt) i).
  { intros i Hi. do 52 (destruct i as [|i]; [reflexivity|]). lia. }
  split; [|exact Hall]. split; [reflexivity|]. intros i Hi. rewrite Hall by easy. unfold dkey.
  assert (Hd : (i / 6 <= 8)%nat) by (pose proof (Nat.div_mod i 6 ltac:(lia)); lia).
  assert (Hr : (i mod 6 < 6)%nat) by (apply Nat.mod_upper_bound; lia).
  pose proof (Nat.div_mod i 6 ltac:(lia)) as Hdm.
  destruct (i mod 6)%nat as [|[|[|[|[|?]]]]] eqn:Em.
  - apply Hinv. lia.
  - destruct (_ || _); apply Hn16.
  - destruct (_ || _); apply Hn16.
  - apply Hinv. lia.
  - apply Hk. lia.
  - apply Hk. lia.
Qed.
Lemma idea_words_ext f g s : (forall i, (i < 52)%nat -> f i = g i) -> idea_words f s = idea_words g s.
Proof.
  intros H. unfold idea_words. rewrite !H by lia. f_equal. f_equal. cbn [seq fold_left]. unfold idea_round. now rewrite !H by (cbn; lia).
Qed.
Lemma idea_words_wok k s : wok (idea_words k s). Proof. apply key_layer_ok. Qed.

Lemma c46_enc key b s : wf key -> zlen key = 16 -> wf b -> words_of b = Some s ->
  idea_encrypt key b = Ok (octets_of (idea_words (idea_subkey (be_val key)) s)).
Proof.
  intros Hw Hl Hb Hs. destruct (enc_keys_ok key Hw Hl) as (ekt & He & Ht & Hv). destruct (dec_keys_ok ekt Ht) as (dkt & Hd & _).
  unfold idea_encrypt. rewrite He. cbn [bind]. rewrite Hd. cbn [bind]. rewrite (idea_cipher_ok ekt b s Ht Hb Hs).
  do 2 f_equal. now apply idea_words_ext.
Qed.
Lemma words_of_some b : zlen b = 8 -> exists s, words_of b = Some s.
Proof. unfold zlen. intros H. do 8 (destruct b as [|? b]; [cbn in H; lia|]). destruct b; [|cbn in H; lia]. eexists. reflexivity. Qed.
Lemma c46_inverse key b : wf key -> zlen key = 16 -> wf b -> zlen b = 8 ->
  exists c, idea_encrypt key b = Ok c /\ wf c /\ zlen c = 8 /\ idea_decrypt key c = Ok b.
Proof.
  intros Hw Hl Hb Hbl. destruct (words_of_some b Hbl) as (s & Hs).
  destruct (words_of_ok b s Hb Hs) as (Hso & Hbo & _).
  destruct (enc_keys_ok key Hw Hl) as (ekt & He & Ht & Hv). destruct (dec_keys_ok ekt Ht) as (dkt & Hd & Hdt & Hdv).
  unfold idea_encrypt, idea_decrypt. rewrite He. cbn [bind]. rewrite Hd. cbn [bind]. rewrite (idea_cipher_ok ekt b s Ht Hb Hs).
  destruct (words_of_octets (idea_words (kf ekt) s) (idea_words_wok _ _)) as [W1 W2].
  eexists. split; [reflexivity|]. split; [exact W2|]. split; [now destruct (idea_words (kf ekt) s) as [[[? ?] ?] ?]|].
  rewrite (idea_cipher_ok dkt _ _ Hdt W2 W1). rewrite (idea_words_ext (kf dkt) (dkey (kf ekt)) _ Hdv). rewrite idea_inv; [now rewrite <- Hbo|apply Ht|exact Hso].
Qed.
Lemma c46_bad_block key b : wf key -> zlen key = 16 -> wf b -> zlen b <> 8 -> (exists e, idea_encrypt key b = Err e) /\ (exists e, idea_decrypt key b = Err e).
Proof.
  intros Hw Hl Hb Hbl. destruct (enc_keys_ok key Hw Hl) as (ekt & He & Ht & Hv). destruct (dec_keys_ok ekt Ht) as (dkt & Hd & Hdt & Hdv).
  assert (Hn : words_of b = None). { destruct (words_of b) eqn:E; [|reflexivity]. exfalso. apply Hbl. destruct b as [|? [|? [|? [|? [|? [|? [|? [|? [|? ?]]]]]]]]]; try discriminate. reflexivity. }
  unfold idea_encrypt, idea_decrypt. rewrite He. cbn [bind]. rewrite Hd. cbn [bind].
  destruct (idea_cipher_len ekt b Hb Hn) as [-> | ->], (idea_cipher_len dkt b Hb Hn) as [-> | ->]; eauto.
Qed.
