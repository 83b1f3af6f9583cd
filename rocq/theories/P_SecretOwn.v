(** C27: the octets of the code's own encryption of secret numbers. *)
From Verif Require Import Base BaseProofs Spec Utils UtilsProofs HexProofs CodecProofs S2k SpecS2k S2kProofs Cipher SymCipher SpecCfb CfbProofs SessionKeys SessionKeysProofs KeyPackets SpecKey KeyProofs P_Keys SpecSecretOwn.

Lemma values_written fl ms : Forall (fun i => 0 <= i /\ bit_length i <= 65535 /\ (0 < i -> fl i = Z.log2 i)) ms -> exists encs, Forall2 rfc_mpi ms encs /\ key_values_data fl ms = Ok (concat encs).
Proof.
  induction 1 as [|i ms (A & B & C) F (encs & IH1 & IH2)]; [exists []; split; [constructor|reflexivity]|]. destruct (opt_mpi_ok fl i A B C) as (e & E1 & E2). exists (e :: encs). split; [constructor; assumption|].
  cbn [key_values_data]. rewrite E1. cbn [bind]. rewrite IH2. reflexivity.
Qed.
Lemma last_slice (l : bytes) n : (0 < n)%nat -> (n <= length l)%nat -> slice_from l (- Z.of_nat n) = last_octets n l.
Proof.
  intros N L. unfold slice_from, clip, last_octets. replace (- Z.of_nat n <? 0) with true by lia. f_equal. unfold zlen. lia.
Qed.
Lemma pgp_new E sym k bs iv : symmetric_cipher_block_lengths sym = Some bs -> sym <> 0 -> In (zlen k) (cipher_key_sizes sym) -> zlen iv = bs -> wf iv -> good_block (E sym k) bs ->
  let head := rfc_cfb_enc (E sym k) (Z.to_nat bs) (repeat 0 (Z.to_nat bs)) (iv ++ last_octets 2 iv) in
  exists o, openpgp_new E sym (Some k) iv = Ok (PgpObj head o false false) /\ get_cfb_cipher sym (Some k) (last_octets (Z.to_nat bs) head) = Ok o /\ wf (last_octets (Z.to_nat bs) head).
Proof.
  intros Hb H0 Hk Hiv Wiv HE head. pose proof (bs_8_16 sym bs Hb H0) as H816.
  destruct (sym_new_ok sym k (repeat 0 (Z.to_nat bs)) bs Hb H0 Hk) as (o & Ho); [rewrite zlen_repeat; lia|].
  assert (S2 : slice_from iv (-2) = last_octets 2 iv) by (apply (last_slice iv 2); [lia|unfold zlen in Hiv; lia]).
  assert (L2 : zlen (last_octets 2 iv) = 2). { unfold last_octets, zlen in *. rewrite skipn_length. lia. }
  assert (W2 : wf (last_octets 2 iv)). { unfold last_octets. rewrite <- (firstn_skipn (length iv - 2) iv) in Wiv. now apply wf_app in Wiv as [_ ?]. }
  assert (Wd : wf (iv ++ last_octets 2 iv)) by (apply wf_app; auto).
  assert (Ld : zlen (iv ++ last_octets 2 iv) = bs + 2) by (rewrite zlen_app; lia).
  assert (Lz : zlen (repeat 0 (Z.to_nat bs)) = bs) by (rewrite zlen_repeat; lia).
  destruct (rfc_cfb_len (E sym k) bs (repeat 0 (Z.to_nat bs)) (iv ++ last_octets 2 iv) ltac:(lia) HE (wf_zeros _) Lz Wd) as [Lh Wh]. fold head in Lh, Wh. rewrite Ld in Lh.
  destruct (padded_encrypt E sym k o (repeat 0 (Z.to_nat bs)) bs (iv ++ last_octets 2 iv) (bs - 2) Ho Hb HE (wf_zeros _) Wd ltac:(lia)) as (r & o' & R1 & R2).
  { rewrite Ld. replace (bs + 2 + (bs - 2)) with (2 * bs) by lia. apply Z.mod_mul; lia. }
  fold head in R2. rewrite <- app_assoc in R1.
  assert (Lr : zlen r = 2 * bs).
  { destruct (get_cfb_inv _ _ _ _ Ho) as (k' & bs' & [= <-] & Hb' & _ & Hbs & Hm & Hcb & Hseg & HIV & Hl & _). rewrite Hb in Hb'. injection Hb' as <-.
    destruct (cfb_calls_x (E sym k) (fun b => b) no_ctr o bs true [iv ++ last_octets 2 iv ++ repeat 0 (Z.to_nat (bs - 2))] (iv ++ last_octets 2 iv ++ repeat 0 (Z.to_nat (bs - 2))) []) as (outs & o2 & Q1 & Q2 & _); try easy; try congruence.
    { rewrite HIV. apply wf_zeros. }
    { constructor; [|constructor]. split; [rewrite !wf_app; repeat split; auto using wf_zeros|]. rewrite !zlen_app, zlen_repeat, L2, Hiv. replace (bs + (2 + Z.of_nat (Z.to_nat (bs - 2)))) with (2 * bs) by lia. apply Z.mod_mul; lia. }
    destruct (enc_one _ _ _ _ _ _ Q1) as (out & Q3 & ->). unfold sym_encrypt in R1. rewrite R1 in Q3. injection Q3 as <- _. cbn [map] in Q2. injection Q2 as Q2. rewrite Q2, !zlen_app, zlen_repeat, L2, Hiv. lia. }
  assert (Sr : slice r 0 (bs + 2) = head). { rewrite <- R2. unfold slice, clip. replace (- (bs - 2) <? 0) with true by lia. replace (bs + 2 <? 0) with false by lia. cbn [Z.ltb Z.compare]. f_equal. lia. }
  assert (Sh : slice_from head (- bs) = last_octets (Z.to_nat bs) head). { rewrite <- (Z2Nat.id bs) at 1 by lia. apply last_slice; [lia|unfold zlen in Lh; lia]. }
  assert (Li : zlen (last_octets (Z.to_nat bs) head) = bs). { unfold last_octets, zlen in *. rewrite skipn_length. lia. }
  assert (Wl : wf (last_octets (Z.to_nat bs) head)). { unfold last_octets. rewrite <- (firstn_skipn (length head - Z.to_nat bs) head) in Wh. now apply wf_app in Wh as [_ ?]. }
  destruct (sym_new_ok sym k (last_octets (Z.to_nat bs) head) bs Hb H0 Hk Li) as (o2 & Ho2).
  exists o2. split; [|auto]. unfold openpgp_new. rewrite Hb, Ho. cbn [bind]. cbv zeta. rewrite Hiv, Z.eqb_refl. cbn [negb]. rewrite S2, R1. cbn [bind]. rewrite Sr, Sh, Ho2. reflexivity.
Qed.
Lemma len_prefix (x y : bytes) : firstn (length x) (x ++ y) = x.
Proof. rewrite firstn_app, firstn_all, Nat.sub_diag. cbn [firstn]. apply app_nil_r. Qed.
(** one call whose text may need padding, from the state after [openpgp_new] *)
Lemma pgp_call E sym k bs iv o (eiv d : bytes) : symmetric_cipher_block_lengths sym = Some bs -> get_cfb_cipher sym (Some k) iv = Ok o -> good_block (E sym k) bs -> wf iv -> wf d ->
  exists o', openpgp_encrypt E sym k (PgpObj eiv o false false) d = Ok (eiv ++ rfc_cfb_enc (E sym k) (Z.to_nat bs) iv d, PgpObj eiv o' true (negb (zlen d mod bs =? 0))).
Proof.
  intros Hb Ho HE Wiv Wd. destruct (get_cfb_inv _ _ _ _ Ho) as (k' & bs' & [= <-] & Hb' & _ & Hbs & Hm & Hcb & Hseg & HIV & Hl & _). rewrite Hb in Hb'. injection Hb' as <-.
  unfold openpgp_encrypt. rewrite Hb. cbn [po_last po_first po_eiv po_c]. cbv zeta. rewrite andb_false_r. cbn [orb].
  pose proof (Z.mod_pos_bound (zlen d) bs Hbs) as Hmod. destruct (rfc_cfb_len (E sym k) bs iv d Hbs HE Wiv Hl Wd) as [Lr Wr].
  destruct (zlen d mod bs =? 0) eqn:Em.
  - replace (zlen d mod bs) with 0 by lia. rewrite Z.sub_0_r, Z_mod_same_full. cbn [Z.to_nat repeat negb]. rewrite app_nil_r.
    destruct (cfb_whole E sym k o iv bs d Ho Hb HE Wiv Wd ltac:(lia)) as (r & o' & R1 & R2). rewrite R1. cbn [bind]. exists o'. replace (0 <? 0) with false by reflexivity. rewrite R2.
    rewrite <- Lr. rewrite slice_full. reflexivity.
  - rewrite (Z.mod_small (bs - zlen d mod bs)) by lia. destruct (pad_mod (zlen d) bs Hbs) as [Q1 Q2].
    destruct (padded_encrypt E sym k o iv bs d (bs - zlen d mod bs) Ho Hb HE Wiv Wd Q1 Q2) as (r & o' & R1 & R2). rewrite R1. cbn [bind]. exists o'. replace (0 <? bs - zlen d mod bs) with true by lia. cbn [negb].
    replace (slice r 0 (zlen d)) with (rfc_cfb_enc (E sym k) (Z.to_nat bs) iv d); [reflexivity|]. rewrite <- R2 in Lr |- *. revert Lr. unfold slice, clip. replace (- (bs - zlen d mod bs) <? 0) with true by lia. pose proof (zlen_nonneg d). pose proof (zlen_nonneg r). replace (zlen d <? 0) with false by lia. cbn [Z.ltb Z.compare].
    unfold zlen at 1. rewrite firstn_length, skipn_length. intros Lr. unfold zlen in *. f_equal. lia.
Qed.
(** a text of whole blocks, then a text that needs padding *)
Lemma pgp_two E sym k bs iv o (eiv d t : bytes) : symmetric_cipher_block_lengths sym = Some bs -> get_cfb_cipher sym (Some k) iv = Ok o -> good_block (E sym k) bs -> wf iv -> wf d -> wf t ->
  zlen d mod bs = 0 -> zlen t mod bs <> 0 ->
  exists o1 o2 e1 e2, openpgp_encrypt E sym k (PgpObj eiv o false false) d = Ok (eiv ++ e1, PgpObj eiv o1 true false) /\
    openpgp_encrypt E sym k (PgpObj eiv o1 true false) t = Ok (e2, PgpObj eiv o2 true true) /\ e1 ++ e2 = rfc_cfb_enc (E sym k) (Z.to_nat bs) iv (d ++ t).
Proof.
  intros Hb Ho HE Wiv Wd Wt Ed Et. destruct (get_cfb_inv _ _ _ _ Ho) as (k' & bs' & [= <-] & Hb' & _ & Hbs & Hm & Hcb & Hseg & HIV & Hl & _). rewrite Hb in Hb'. injection Hb' as <-.
  pose proof (Z.mod_pos_bound (zlen t) bs Hbs) as Hmod. set (pad := bs - zlen t mod bs). destruct (pad_mod (zlen t) bs Hbs) as [_ Q2]. fold pad in Q2. assert (Hp : 0 < pad) by (unfold pad; lia).
  set (c2 := t ++ repeat 0 (Z.to_nat pad)). assert (Lc2 : zlen c2 = zlen t + pad) by (unfold c2; rewrite zlen_app, zlen_repeat; lia).
  destruct (cfb_calls_x (E sym k) (fun b => b) no_ctr o bs true [d; c2] (d ++ t) (repeat 0 (Z.to_nat pad))) as (outs & o2 & H1 & H2 & H3); try easy; try congruence.
  { constructor; [auto|]. constructor; [|constructor]. split; [apply wf_app; split; [exact Wt|apply wf_zeros]|rewrite Lc2; exact Q2]. }
  { cbn [concat]. unfold c2. rewrite app_nil_r, <- app_assoc. reflexivity. }
  destruct (enc_two _ _ _ _ _ _ _ H1) as (r1 & o1 & r2 & A1 & A2 & ->). cbn [map] in H2. injection H2 as L1 L2. cbn [concat] in H3. rewrite app_nil_r, HIV in H3. cbn [cfb_x] in H3.
  exists o1, o2, r1, (slice r2 0 (zlen t)). split; [|split].
  - unfold openpgp_encrypt. rewrite Hb. cbn [po_last po_first po_eiv po_c]. cbv zeta. rewrite Ed, Z.sub_0_r, Z_mod_same_full. cbn [Z.to_nat repeat andb orb]. rewrite app_nil_r, andb_false_r. unfold sym_encrypt. rewrite A1. cbn [bind]. rewrite <- L1, slice_full. reflexivity.
  - unfold openpgp_encrypt. rewrite Hb. cbn [po_last po_first po_eiv po_c]. cbv zeta. rewrite andb_false_r. rewrite (Z.mod_small (bs - zlen t mod bs)) by lia. fold pad. fold c2. unfold sym_encrypt. rewrite A2. cbn [bind orb]. replace (0 <? pad) with true by lia. reflexivity.
  - unfold rfc_cfb_enc. rewrite <- H3. assert (N1 : length r1 = length d) by (unfold zlen in L1; lia). rewrite firstn_app, app_length, firstn_all2 by lia. f_equal. pose proof (zlen_nonneg t). pose proof (zlen_nonneg c2).
    unfold slice, clip. replace (zlen t <? 0) with false by lia. cbn [Z.ltb Z.compare]. pose proof (zlen_nonneg r2). replace (Z.to_nat (Z.min 0 (zlen r2))) with 0%nat by lia. cbn [skipn]. f_equal. unfold zlen in *. rewrite N1. lia.
Qed.
Lemma sum_fold d : forall a, fold_left Z.add d a = a + fold_right Z.add 0 d.
Proof. induction d as [|x d IH]; intros a; cbn [fold_left fold_right]; [lia|]. rewrite IH. lia. Qed.
Lemma sum16_octets d : int_to_2byte (Z.land (fold_left Z.add d 0) 65535) = sum16 d /\ wf (sum16 d).
Proof.
  rewrite sum_fold, Z.add_0_l. change 65535 with (Z.ones 16). rewrite Z.land_ones by lia. change (2 ^ 16) with 65536. unfold sum16. cbv zeta. set (s := fold_right Z.add 0 d mod 65536).
  assert (B : 0 <= s < 65536) by (apply Z.mod_pos_bound; lia). clearbody s. split.
  - rewrite int_to_2byte_be. cbn [be_bytes]. change (8 * Z.of_nat 1) with 8. change (8 * Z.of_nat 0) with 0. rewrite Z.shiftr_div_pow2, Z.shiftr_0_r by lia. change 255 with (Z.ones 8). rewrite !Z.land_ones by lia. change (2 ^ 8) with 256.
    f_equal. apply Z.mod_small. split; [apply Z.div_pos; lia|apply Z.div_lt_upper_bound; lia].
  - apply Forall_cons; [unfold byte; split; [apply Z.div_pos; lia|apply Z.div_lt_upper_bound; lia]|]. apply Forall_cons; [unfold byte; apply Z.mod_pos_bound; lia|constructor].
Qed.

(** What the code's own encryption writes, for all numbers: the MPIs of the numbers with the checksum or the hash, in the OpenPGP CFB mode of
    messages, prefix included. It fails whenever both are asked for, and whenever the numbers do not fill whole blocks and one is asked for.
    Missing from the full claim: this is not the material of RFC 4880 5.5.3 that decryption expects (c27_own_encryption_refuted). *)
Theorem c27_own_octets_partial : forall fl E sha1 sym k bs iv ms checksum hash, symmetric_cipher_block_lengths sym = Some bs -> sym <> 0 -> In (zlen k) (cipher_key_sizes sym) -> zlen iv = bs -> wf iv ->
  good_block (E sym k) bs -> (forall d, zlen (sha1 d) = 20 /\ wf (sha1 d)) -> Forall (fun i => 0 <= i /\ bit_length i <= 65535 /\ (0 < i -> fl i = Z.log2 i)) ms ->
  exists encs, Forall2 rfc_mpi ms encs /\ let m := concat encs in
    encrypt_key_values_v4 fl E sha1 ms k sym iv checksum hash =
      if checksum && hash || (checksum || hash) && negb (zlen m mod bs =? 0) then Err ValueError
      else Ok (sealed (E sym k) (Z.to_nat bs) iv (checked sha1 checksum hash m)).
Proof.
  intros fl E sha1 sym k bs iv ms checksum hash Hb H0 Hk Hiv Wiv HE Hs Hv. destruct (values_written fl ms Hv) as (encs & F & D). exists encs. split; [exact F|]. cbv zeta. set (m := concat encs) in *.
  assert (Wm : wf m). { unfold m. clear -F. induction F as [|i e ms encs (l & b & -> & _ & _ & _ & _ & W) F IH]; [constructor|]. cbn [concat]. apply wf_app. auto. }
  pose proof (bs_8_16 sym bs Hb H0) as H816. destruct (pgp_new E sym k bs iv Hb H0 Hk Hiv Wiv HE) as (o & N & G & Wl). unfold sealed, checked. set (head := rfc_cfb_enc (E sym k) (Z.to_nat bs) (repeat 0 (Z.to_nat bs)) (iv ++ last_octets 2 iv)) in *.
  set (iv2 := last_octets (Z.to_nat bs) head) in *. clearbody iv2 head m. destruct (sum16_octets m) as [S1 S2]. destruct (Hs m) as [A1 A2].
  unfold encrypt_key_values_v4. rewrite N, D. cbn [bind]. rewrite S1.
  assert (T1 : zlen (sum16 m) mod bs <> 0) by (change (zlen (sum16 m)) with 2; destruct H816 as [-> | ->]; cbn; lia).
  assert (T2 : zlen (sha1 m) mod bs <> 0) by (rewrite A1; destruct H816 as [-> | ->]; cbn; lia).
  assert (Bad : forall eiv o1 f t, zlen t mod bs <> 0 -> openpgp_encrypt E sym k (PgpObj eiv o1 f true) t = Err ValueError).
  { intros eiv o1 f t T. unfold openpgp_encrypt. rewrite Hb. cbn [po_last]. cbv zeta. pose proof (Z.mod_pos_bound (zlen t) bs ltac:(lia)). rewrite (Z.mod_small (bs - zlen t mod bs)) by lia. replace (0 <? bs - zlen t mod bs) with true by lia. reflexivity. }
  destruct (checksum || hash) eqn:Any.
  - destruct (zlen m mod bs =? 0) eqn:Em; cbn [negb andb].
    + rewrite orb_false_r. destruct checksum.
      * destruct (pgp_two E sym k bs iv2 o head m (sum16 m) Hb G HE Wl Wm S2 ltac:(lia) T1) as (o1 & o2 & e1 & e2 & P1 & P2 & P3). rewrite P1. cbn [bind]. rewrite P2. cbn [bind]. destruct hash; cbn [andb].
        -- rewrite (Bad _ _ _ _ T2). reflexivity.
        -- cbn [bind]. rewrite !app_nil_r, <- app_assoc, P3. reflexivity.
      * cbn [orb] in Any. subst hash. cbn [andb]. destruct (pgp_two E sym k bs iv2 o head m (sha1 m) Hb G HE Wl Wm A2 ltac:(lia) T2) as (o1 & o2 & e1 & e2 & P1 & P2 & P3). rewrite P1. cbn [bind]. rewrite P2. cbn [bind app]. rewrite <- app_assoc, P3. reflexivity.
    + rewrite orb_true_r. destruct (pgp_call E sym k bs iv2 o head m Hb G HE Wl Wm) as (o1 & P1). rewrite P1, Em. cbn [bind negb]. destruct checksum.
      * rewrite (Bad _ _ _ _ T1). reflexivity.
      * cbn [bind]. cbn [orb] in Any. subst hash. rewrite (Bad _ _ _ _ T2). reflexivity.
  - apply orb_false_iff in Any as [-> ->]. cbn [andb orb bind]. destruct (pgp_call E sym k bs iv2 o head m Hb G HE Wl Wm) as (o1 & P1). rewrite P1. cbn [bind]. rewrite !app_nil_r. reflexivity.
Qed.
Print Assumptions c27_own_octets_partial.
Example c27_own_ex : let iv := repeat 9 16 in let k := repeat 3 16 in
  encrypt_key_values_v4 Z.log2 toyK toyS [3; 2 ^ 86] k 7 iv true false = Ok (sealed (toyK 7 k) 16 iv ([0; 2; 3; 0; 87; 64; 0; 0; 0; 0; 0; 0; 0; 0; 0; 0] ++ [0; 156])) /\
  encrypt_key_values_v4 Z.log2 toyK toyS [259; 3] k 7 iv false false = Ok (sealed (toyK 7 k) 16 iv [0; 9; 1; 3; 0; 2; 3]) /\ encrypt_key_values_v4 Z.log2 toyK toyS [3; 2 ^ 86] k 7 iv true true = Err ValueError.
Proof. vm_compute. auto. Qed.
