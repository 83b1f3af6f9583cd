From Verif Require Import Base BaseProofs Utils UtilsProofs CodecProofs S2k SpecS2k.

Lemma slice0 {A} (l : list A) j : 0 <= j -> slice l 0 j = firstn (Z.to_nat j) l.
Proof.
  intros H. unfold slice. rewrite (clip_in _ 0) by (pose proof (zlen_nonneg l); lia). change (Z.to_nat 0) with 0%nat. rewrite skipn_O.
  unfold clip. destruct (j <? 0) eqn:?; [lia|]. destruct (Z.le_gt_cases j (zlen l)) as [Hj|Hj].
  - rewrite Z.min_l by lia. f_equal. lia.
  - rewrite Z.min_r by lia. rewrite !firstn_all2; unfold zlen in *; (reflexivity || lia).
Qed.
Lemma writes_spec sp : 0 < zlen sp -> forall n i count m, 0 <= i ->
  n = Z.to_nat ((count - zlen sp * i + zlen sp - 1) / zlen sp) -> (n <= m)%nat ->
  s2k_writes n i count (zlen sp) sp = firstn (Z.to_nat (count - zlen sp * i)) (concat (repeat sp m)).
Proof.
  intros Hsp. set (L := zlen sp) in *. induction n as [|n IH]; intros i count m Hi Hn Hm; cbn [s2k_writes].
  - assert (count - L * i <= 0).
    { destruct (Z.le_gt_cases (count - L * i) 0); [easy|]. 
      assert (1 <= (count - L * i + L - 1) / L) by (apply Z.div_le_lower_bound; lia). lia. }
    replace (Z.to_nat (count - L * i)) with 0%nat by lia. reflexivity.
  - set (c := count - L * i) in *. 
    assert (Hc : 0 < c).
    { destruct (Z.le_gt_cases c 0) as [H0|H0]; [|easy]. 
      assert ((c + L - 1) / L < 1) by (apply Z.div_lt_upper_bound; lia). lia. }
    destruct m as [|m]; [lia|]. cbn [repeat concat].
    destruct (Z.le_gt_cases L c) as [HLc|HLc].
    + rewrite Z.min_l by lia. rewrite slice0 by lia. rewrite (firstn_all2 sp) by (unfold L, zlen in *; lia).
      rewrite (IH (i + 1) count m); [|lia| |lia].
      * rewrite firstn_app. rewrite (firstn_all2 sp) by (unfold L, zlen in *; lia). f_equal. f_equal. unfold L, zlen, c in *. lia.
      * replace (count - L * (i + 1) + L - 1) with (c + L - 1 + (-1) * L) by lia. rewrite Z.div_add by lia. lia.
    + rewrite Z.min_r by lia. rewrite slice0 by lia.
      assert (n = 0%nat).
      { assert ((c + L - 1) / L < 2) by (apply Z.div_lt_upper_bound; lia). lia. }
      subst n. cbn [s2k_writes]. rewrite app_nil_r, firstn_app. replace (Z.to_nat c - length sp)%nat with 0%nat by (unfold L, zlen in *; lia).
      now rewrite firstn_O, app_nil_r.
Qed.
Lemma concat_repeat_len {A} (l : list A) n : length (concat (repeat l n)) = (n * length l)%nat.
Proof. induction n as [|n IH]; cbn; [easy|]. rewrite app_length. lia. Qed.
Lemma firstn_concat_repeat {A} (l : list A) k n m : (k <= n * length l)%nat -> (n <= m)%nat ->
  firstn k (concat (repeat l n)) = firstn k (concat (repeat l m)).
Proof.
  intros Hk Hm. replace m with (n + (m - n))%nat by lia. rewrite repeat_app, concat_app, firstn_app.
  rewrite concat_repeat_len. replace (k - n * length l)%nat with 0%nat by lia. now rewrite firstn_O, app_nil_r.
Qed.
Lemma iterated_data sp count : 0 < zlen sp -> zlen sp <= count ->
  s2k_writes (Z.to_nat ((count + zlen sp - 1) / zlen sp)) 0 count (zlen sp) sp = rfc_iterated sp count.
Proof.
  intros Hsp Hc. unfold rfc_iterated. rewrite Z.max_l by lia. cbv zeta.
  set (n := Z.to_nat ((count + zlen sp - 1) / zlen sp)).
  assert (Hn : (n <= Z.to_nat count)%nat).
  { unfold n. apply Z2Nat.inj_le; [apply Z.div_pos; lia|lia|]. apply Z.div_le_upper_bound; [lia|]. nia. }
  rewrite (writes_spec sp Hsp n 0 count (Z.to_nat count)); [f_equal; lia|lia| |exact Hn].
  unfold n. f_equal. f_equal. lia.
Qed.
Lemma simple_data pass salt : zlen salt <= 8 ->
  s2k_writes (Z.to_nat ((zlen pass + 8 + (zlen pass + 8) - 1) / (zlen pass + 8))) 0 (zlen pass + 8) (zlen pass + 8) (salt ++ pass) = salt ++ pass.
Proof.
  intros Hs. pose proof (zlen_nonneg pass). pose proof (zlen_nonneg salt). set (L := zlen pass + 8) in *.
  assert (E : (L + L - 1) / L = 1) by (symmetry; apply Z.div_unique with (L - 1); lia).
  rewrite E. change (Z.to_nat 1) with 1%nat. cbn [s2k_writes]. rewrite app_nil_r, slice0 by lia.
  apply firstn_all2. rewrite app_length. unfold L, zlen in *. lia.
Qed.

Lemma pass_data_ok s pass k : rfc_ok s pass ->
  s2k_pass_data (s2k_salt s) pass (s2k_count s) k = repeat 0 (Z.to_nat k) ++ rfc_input s pass.
Proof.
  intros H. unfold s2k_pass_data. cbv zeta. f_equal. destruct s as [h a|h a salt|h a salt c|]; cbn [s2k_salt s2k_count rfc_input rfc_ok] in *.
  - exact (simple_data pass [] ltac:(change (zlen (@nil Z)) with 0; lia)).
  - apply simple_data. lia.
  - destruct H as [Hs Hc]. replace (zlen pass + 8) with (zlen (salt ++ pass)) by (rewrite zlen_app; lia).
    pose proof (zlen_nonneg pass). apply iterated_data; rewrite zlen_app; lia.
  - easy.
Qed.
Lemma loop_spec H data hl req : 0 < hl -> forall fuel k r, 0 <= k ->
  (Z.to_nat ((req + hl - 1) / hl - k) < fuel)%nat ->
  s2k_loop fuel H data hl req k r =
    Ok (r ++ concat (map (fun i => H (data (Z.of_nat i))) (seq (Z.to_nat k) (Z.to_nat ((req + hl - 1) / hl - k))))).
Proof.
  intros Hhl. induction fuel as [|f IH]; intros k r Hk Hf; [lia|]. cbn [s2k_loop].
  destruct (k * hl <? req) eqn:E.
  - assert (H1 : k + 1 <= (req + hl - 1) / hl) by (apply Z.div_le_lower_bound; nia).
    rewrite IH by lia. f_equal. rewrite <- app_assoc. f_equal.
    replace (Z.to_nat ((req + hl - 1) / hl - k)) with (S (Z.to_nat ((req + hl - 1) / hl - (k + 1)))) by lia.
    cbn [seq map concat]. rewrite Z2Nat.id by lia. f_equal. f_equal. f_equal. f_equal. lia.
  - assert (H1 : (req + hl - 1) / hl <= k) by (apply Z.lt_succ_r, Z.div_lt_upper_bound; nia).
    replace (Z.to_nat ((req + hl - 1) / hl - k)) with 0%nat by lia. cbn. now rewrite app_nil_r.
Qed.
Lemma concat_map_len {A} (f : A -> bytes) hl l : (forall a, zlen (f a) = hl) -> zlen (concat (map f l)) = hl * zlen l.
Proof. intros H. induction l as [|a l IH]; [cbn; lia|]. cbn [map concat]. rewrite zlen_app, zlen_cons, H, IH. lia. Qed.
Lemma hash_len_pos a hl : hash_lengths a = Some hl -> 16 <= hl <= 64.
Proof. unfold hash_lengths. repeat match goal with |- context [if ?b then _ else _] => destruct b end; intros E; inversion E; lia. Qed.
Lemma key_len_nonneg a hl : symmetric_cipher_key_lengths a = Some hl -> 0 <= hl <= 32.
Proof. unfold symmetric_cipher_key_lengths. repeat match goal with |- context [if ?b then _ else _] => destruct b end; intros E; inversion E; lia. Qed.
Lemma rfc_key_indep H input hl n m req : (forall d, zlen (H d) = hl) -> 0 <= req -> req <= hl * Z.of_nat n -> (n <= m)%nat ->
  rfc_key H input n req = rfc_key H input m req.
Proof.
  intros HL Hr Hn Hm. unfold rfc_key. replace m with (n + (m - n))%nat by lia.
  rewrite seq_app, map_app, concat_app, firstn_app.
  assert (HLn := concat_map_len (fun i => H (repeat 0 i ++ input)) hl (seq 0 n) (fun i => HL _)).
  unfold zlen in HLn at 2. rewrite seq_length in HLn.
  replace (Z.to_nat req - _)%nat with 0%nat by (unfold zlen in HLn; lia). now rewrite firstn_O, app_nil_r.
Qed.
Lemma to_key_rfc H s pass hl req n :
  hash_lengths (s2k_hash s) = Some hl -> symmetric_cipher_key_lengths (s2k_sym s) = Some req ->
  (forall d, zlen (H (s2k_hash s) d) = hl) -> rfc_ok s pass -> req <= hl * Z.of_nat n ->
  to_key H s pass = Ok (Some (rfc_key (H (s2k_hash s)) (rfc_input s pass) n req)).
Proof.
  intros Eh Er HL Hok Hn. pose proof (hash_len_pos _ _ Eh). pose proof (key_len_nonneg _ _ Er).
  assert (E : to_key H s pass =
     do result <- s2k_loop (S (Z.to_nat req)) (H (s2k_hash s)) (s2k_pass_data (s2k_salt s) pass (s2k_count s)) hl req 0 [];;
     Ok (Some (slice result 0 req))).
  { unfold to_key. rewrite Eh, Er. now destruct s. }
  rewrite E, loop_spec; [|lia|lia|].
  2:{ rewrite Z.sub_0_r. assert ((req + hl - 1) / hl <= req); [|lia].
      destruct (Z.eq_dec req 0) as [->|]; [rewrite Z.div_small; lia|]. apply Z.div_le_upper_bound; nia. }
  cbn [bind app]. rewrite slice0 by lia. f_equal. f_equal. rewrite Z.sub_0_r.
  set (n0 := Z.to_nat ((req + hl - 1) / hl)).
  assert (Hn0 : req <= hl * Z.of_nat n0).
  { unfold n0. rewrite Z2Nat.id by (apply Z.div_pos; lia).
    pose proof (Z.mul_succ_div_gt (req + hl - 1) hl). lia. }
  replace (map _ _) with (map (fun i => H (s2k_hash s) (repeat 0 i ++ rfc_input s pass)) (seq 0 n0)).
  2:{ apply map_ext. intros i. rewrite pass_data_ok by easy. now rewrite Nat2Z.id. }
  change (rfc_key (H (s2k_hash s)) (rfc_input s pass) n0 req = rfc_key (H (s2k_hash s)) (rfc_input s pass) n req).
  destruct (Nat.le_ge_cases n0 n); [|symmetry]; eapply rfc_key_indep; eauto; lia.
Qed.
Lemma to_key_len H s pass k req :
  (forall a hl, hash_lengths a = Some hl -> forall d, zlen (H a d) = hl) ->
  symmetric_cipher_key_lengths (s2k_sym s) = Some req ->
  to_key H s pass = Ok (Some k) -> zlen k = req.
Proof.
  intros HL Er E. pose proof (key_len_nonneg _ _ Er). unfold to_key in E. rewrite Er in E.
  destruct (hash_lengths (s2k_hash s)) as [hl|] eqn:Eh; [|now destruct s].
  pose proof (hash_len_pos _ _ Eh).
  assert (E2 : (do result <- s2k_loop (S (Z.to_nat req)) (H (s2k_hash s)) (s2k_pass_data (s2k_salt s) pass (s2k_count s)) hl req 0 [];;
     Ok (Some (slice result 0 req))) = Ok (Some k)) by (now destruct s). clear E.
  rewrite loop_spec in E2; [|lia|lia|].
  2:{ rewrite Z.sub_0_r. assert ((req + hl - 1) / hl <= req); [|lia].
      destruct (Z.eq_dec req 0) as [->|]; [rewrite Z.div_small; lia|]. apply Z.div_le_upper_bound; nia. }
  cbn [bind app] in E2. injection E2 as <-. rewrite slice_len by lia.
  rewrite (concat_map_len _ hl) by (intros; apply HL; easy).
  unfold zlen. rewrite seq_length, !Z.sub_0_r, Z2Nat.id by (apply Z.div_pos; lia).
  pose proof (Z.mul_succ_div_gt (req + hl - 1) hl). lia.
Qed.

(** ** C21 *)
Lemma c21_round (fl : Z -> Z) s pre suf : (forall i, 1024 <= i <= 65011712 -> fl i = Z.log2 i) -> s2k_ok s ->
  exists enc, s2k_bytes fl s = Ok enc /\ wf enc /\ parse_s2k_bytes (s2k_sym s) (pre ++ enc ++ suf) (zlen pre) = Ok (s, zlen (pre ++ enc)).
Proof.
  intros Hfl Hok. destruct s as [h a|h a salt|h a salt c|]; cbn [s2k_ok s2k_sym s2k_bytes] in *.
  - assert (Hw : wf [0; h]) by (repeat (apply wf_cons; split; [unfold byte in *; lia|]); easy).
    exists [0; h]. rewrite mk_bytes_wf by easy. split; [easy|]. split; [easy|]. unfold parse_s2k_bytes.
    cbn [app]. rewrite get_app_0. cbn [bind Z.eqb]. rewrite get_app_r, get_cons_S by lia. change (1 - 1) with 0. rewrite get_cons_0. cbn [bind].
    apply ok2; [easy|]. rewrite zlen_app. change (zlen [0; h]) with 2. lia.
  - destruct Hok as (Hh & Hs & Hl). assert (Hw : wf [1; h]) by (repeat (apply wf_cons; split; [unfold byte in *; lia|]); easy).
    exists ([1; h] ++ salt). rewrite mk_bytes_wf by easy. split; [easy|]. split; [now apply wf_app|]. unfold parse_s2k_bytes.
    cbn [app]. rewrite get_app_0. cbn [bind Z.eqb]. rewrite get_app_r, get_cons_S by lia. change (1 - 1) with 0. rewrite get_cons_0. cbn [bind Pos.eqb].
    apply ok2; [|rewrite zlen_app, !zlen_cons; lia]. f_equal.
    replace (pre ++ 1 :: h :: salt ++ suf) with ((pre ++ [1; h]) ++ salt ++ suf) by (rewrite <- app_assoc; reflexivity).
    apply slice_app'; rewrite zlen_app; change (zlen [1; h]) with 2; lia.
  - destruct Hok as (Hh & Hs & Hl & cb & Hcb & Ec). assert (Hw : wf [3; h]) by (repeat (apply wf_cons; split; [unfold byte in *; lia|]); easy).
    rewrite <- c04_value in Ec by easy. subst c. rewrite (c04_round_trip fl Hfl cb Hcb).
    exists (([3; h] ++ salt) ++ [cb]). rewrite mk_bytes_wf by easy. split; [easy|]. split; [rewrite !wf_app; repeat split; auto; apply wf_cons; auto|].
    replace (pre ++ (([3; h] ++ salt) ++ [cb]) ++ suf) with (pre ++ 3 :: h :: salt ++ [cb] ++ suf) by (cbn [app]; now rewrite <- !app_assoc).
    unfold parse_s2k_bytes.
    rewrite get_app_0. cbn [bind Z.eqb Pos.eqb]. rewrite get_app_r, get_cons_S by lia. change (1 - 1) with 0. rewrite get_cons_0. cbn [bind].
    replace (get (pre ++ 3 :: h :: salt ++ [cb] ++ suf) (zlen pre + 1 + 9)) with (@Ok Z cb).
    2:{ symmetry. replace (pre ++ 3 :: h :: salt ++ [cb] ++ suf) with ((pre ++ [3; h] ++ salt) ++ cb :: suf) by (cbn [app]; rewrite <- app_assoc; reflexivity).
        replace (zlen pre + 1 + 9) with (zlen (pre ++ [3; h] ++ salt)); [apply get_app_0|]. rewrite !zlen_app. change (zlen [3; h]) with 2. lia. }
    cbn [bind]. apply ok2; [|rewrite !zlen_app, Hl; change (zlen [3; h]) with 2; change (zlen [cb]) with 1; lia]. f_equal.
    replace (pre ++ 3 :: h :: salt ++ [cb] ++ suf) with ((pre ++ [3; h]) ++ salt ++ [cb] ++ suf) by (rewrite <- app_assoc; reflexivity).
    apply slice_app'; rewrite zlen_app; change (zlen [3; h]) with 2; lia.
  - easy.
Qed.
(** what was parsed (and was really there) is written back *)
Lemma c21_again (fl : Z -> Z) sym data off s off' : (forall i, 1024 <= i <= 65011712 -> fl i = Z.log2 i) -> wf data -> 0 <= off ->
  parse_s2k_bytes sym data off = Ok (s, off') -> off' <= zlen data ->
  s2k_sym s = sym /\ match s with GnuPGS2K _ _ _ _ _ => s2k_bytes fl s = Err TypeError | _ => s2k_ok s /\ s2k_bytes fl s = Ok (slice data off off') end.
Proof.
  intros Hfl Hw Ho H Hend. unfold parse_s2k_bytes in H. apply bind_ok in H as (t & Ht & H). cbv zeta in H.
  destruct (t =? 0) eqn:E0; [|destruct (t =? 1) eqn:E1; [|destruct (t =? 3) eqn:E3; [|destruct (t =? 101) eqn:E4; [|discriminate]]]].
  - apply Z.eqb_eq in E0. subst t. apply bind_ok in H as (h & Hh & H). injection H as <- <-. split; [reflexivity|].
    assert (Hbh : byte h) by (eapply get_byte; eauto). split; [exact Hbh|].
    cbn [s2k_bytes]. rewrite mk_bytes_wf by (apply wf_cons; split; [unfold byte; lia|]; apply wf_cons; easy). cbn [bind].
    rewrite (slice_cons_get data off _ 0) by (easy || lia). rewrite (slice_one data (off + 1) h) by (easy || lia). reflexivity.
  - apply Z.eqb_eq in E1. subst t. apply bind_ok in H as (h & Hh & H). injection H as <- <-. split; [reflexivity|].
    assert (Hbh : byte h) by (eapply get_byte; eauto). split; [split; [exact Hbh|]; split; [now apply slice_wf|]|].
    + rewrite slice_len by lia. lia.
    + cbn [s2k_bytes]. rewrite mk_bytes_wf by (apply wf_cons; split; [unfold byte; lia|]; apply wf_cons; easy). cbn [bind].
      rewrite (slice_cons_get data off _ 1) by (easy || lia). rewrite (slice_cons_get data (off + 1) _ h) by (easy || lia). reflexivity.
  - apply Z.eqb_eq in E3. subst t. apply bind_ok in H as (h & Hh & H). apply bind_ok in H as (c & Hc & H). injection H as <- <-. split; [reflexivity|].
    assert (Hbh : byte h) by (eapply get_byte; eauto). assert (Hbc : byte c) by (eapply get_byte; eauto). split.
    + split; [exact Hbh|]. split; [now apply slice_wf|]. split; [rewrite slice_len by lia; lia|]. exists c. split; [easy|]. now apply c04_value.
    + cbn [s2k_bytes]. rewrite mk_bytes_wf by (apply wf_cons; split; [unfold byte; lia|]; apply wf_cons; easy). cbn [bind].
      rewrite (c04_round_trip fl Hfl c Hbc). cbn [bind].
      rewrite (slice_cons_get data off _ 3) by (easy || lia). rewrite (slice_cons_get data (off + 1) _ h) by (easy || lia).
      rewrite (slice_cat data (off + 1 + 1) (off + 1 + 9) (off + 1 + 10)) by lia.
      replace (off + 1 + 10) with (off + 1 + 9 + 1) by lia. rewrite (slice_one data (off + 1 + 9) c) by (easy || lia). reflexivity.
  - unfold gnupg_from_bytes in H. apply bind_ok in H as (h & Hh & H).
    destruct (negb _) in H; [discriminate|]. apply bind_ok in H as (m & Hm & H).
    destruct (m + 1000 =? 1001) in H; [injection H as <- <-; split; reflexivity|].
    destruct (m + 1000 =? 1002) in H; [|discriminate]. inv_do H. injection H as <- <-. split; reflexivity.
Qed.
Lemma c21_unknown sym data off t : get data off = Ok t -> t <> 0 -> t <> 1 -> t <> 3 -> t <> 101 -> parse_s2k_bytes sym data off = Err ValueError.
Proof.
  intros Hg H0 H1 H3 H4. unfold parse_s2k_bytes. rewrite Hg. cbn [bind].
  destruct (t =? 0) eqn:?; [lia|]. destruct (t =? 1) eqn:?; [lia|]. destruct (t =? 3) eqn:?; [lia|]. destruct (t =? 101) eqn:?; [lia|reflexivity].
Qed.
Lemma c23_table a : a <> 10 -> symmetric_cipher_key_lengths a = rfc_key_length a.
Proof.
  intros Ha. destruct (Z.le_gt_cases 0 a) as [H0|H0]; [|destruct a; [lia|lia|reflexivity]].
  destruct (Z.le_gt_cases 14 a) as [H14|H14].
  - unfold symmetric_cipher_key_lengths, rfc_key_length. repeat (match goal with |- context [?x =? ?y] => destruct (x =? y) eqn:?; [lia|] end).
    destruct a as [|p|p]; try lia. repeat (destruct p as [p|p|]; try lia; try reflexivity).
  - assert (In a (map Z.of_nat (seq 0 14))) as Hin.
    { rewrite <- (Z2Nat.id a) by lia. apply in_map. apply in_seq. lia. }
    cbn in Hin. repeat (destruct Hin as [<-|Hin]; [try reflexivity; lia|]). destruct Hin.
Qed.
Lemma hash_table a : hash_lengths a = rfc_hash_length a.
Proof.
  destruct (Z.le_gt_cases 0 a) as [H0|H0]; [|destruct a; [lia|lia|reflexivity]].
  destruct (Z.le_gt_cases 14 a) as [H14|H14].
  - unfold hash_lengths, rfc_hash_length. repeat (match goal with |- context [?x =? ?y] => destruct (x =? y) eqn:?; [lia|] end).
    destruct a as [|p|p]; try lia. repeat (destruct p as [p|p|]; try lia; try reflexivity).
  - assert (In a (map Z.of_nat (seq 0 14))) as Hin.
    { rewrite <- (Z2Nat.id a) by lia. apply in_map. apply in_seq. lia. }
    cbn in Hin. repeat (destruct Hin as [<-|Hin]; [reflexivity|]). destruct Hin.
Qed.
Lemma block_table a : symmetric_cipher_block_lengths a = rfc_block_length a.
Proof.
  destruct (Z.le_gt_cases 0 a) as [H0|H0]; [|destruct a; [lia|lia|reflexivity]].
  destruct (Z.le_gt_cases 14 a) as [H14|H14].
  - unfold symmetric_cipher_block_lengths, rfc_block_length. destruct (a =? 0) eqn:?; [lia|].
    destruct ((1 <=? a) && (a <=? 4)) eqn:?; [lia|]. destruct ((7 <=? a) && (a <=? 13)) eqn:?; [lia|].
    destruct a as [|p|p]; try lia. repeat (destruct p as [p|p|]; try lia; try reflexivity).
  - assert (In a (map Z.of_nat (seq 0 14))) as Hin.
    { rewrite <- (Z2Nat.id a) by lia. apply in_map. apply in_seq. lia. }
    cbn in Hin. repeat (destruct Hin as [<-|Hin]; [reflexivity|]). destruct Hin.
Qed.
