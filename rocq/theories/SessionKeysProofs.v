From Verif Require Import Base BaseProofs Spec Utils UtilsProofs HexProofs CodecProofs S2k SpecS2k S2kProofs Cipher SymCipher SpecCfb CfbProofs SessionKeys.

(** ** sums and the session-key block *)
Lemma zsum_acc l a : fold_left Z.add l a = a + zsum l.
Proof. unfold zsum. revert a. induction l as [|x l IH]; intros a; cbn [fold_left]; [lia|]. rewrite IH, (IH (0 + x)). lia. Qed.
Lemma zsum_cons x l : zsum (x :: l) = x + zsum l.
Proof. unfold zsum. cbn [fold_left]. now rewrite zsum_acc. Qed.
Lemma get_last1 {A} (l : list A) x : get (l ++ [x]) (-1) = Ok x.
Proof.
  unfold get. replace (-1 <? 0) with true by reflexivity. rewrite zlen_app. change (zlen [x]) with 1. pose proof (zlen_nonneg l).
  replace (-1 + (zlen l + 1)) with (zlen l) by lia. destruct (_ || _) eqn:E; [lia|]. rewrite to_nat_zlen, nth_error_app2, Nat.sub_diag by lia. reflexivity.
Qed.
Lemma get_last2 {A} (l : list A) x y : get (l ++ [x; y]) (-2) = Ok x.
Proof.
  unfold get. replace (-2 <? 0) with true by reflexivity. rewrite zlen_app. change (zlen [x; y]) with 2. pose proof (zlen_nonneg l).
  replace (-2 + (zlen l + 2)) with (zlen l) by lia. destruct (_ || _) eqn:E; [lia|]. rewrite to_nat_zlen, nth_error_app2, Nat.sub_diag by lia. reflexivity.
Qed.
Lemma slice_mid2 {A} (a : A) l x y : slice (a :: l ++ [x; y]) 1 (-2) = l.
Proof.
  unfold slice, clip. replace (1 <? 0) with false by reflexivity. replace (-2 <? 0) with true by reflexivity.
  rewrite zlen_cons, zlen_app. change (zlen [x; y]) with 2. pose proof (zlen_nonneg l).
  replace (Z.min 1 (1 + (zlen l + 2))) with 1 by lia. replace (Z.to_nat 1) with 1%nat by reflexivity. cbn [skipn].
  replace (Z.to_nat _) with (length l) by (unfold zlen in *; lia). rewrite firstn_app, Nat.sub_diag, firstn_all. cbn [firstn]. apply app_nil_r.
Qed.
Lemma block_octets c : 0 <= c < 65536 -> [Z.shiftr c 8; Z.land c 255] = be_bytes 2 c.
Proof.
  intros H. change (be_bytes 2 c) with [Z.land (Z.shiftr c 8) 255; Z.land (Z.shiftr c 0) 255]. rewrite Z.shiftr_0_r.
  rewrite (land_255 (Z.shiftr c 8)), shiftr_div by lia. change (2 ^ 8) with 256. rewrite (Z.mod_small (c / 256)) by lia. reflexivity.
Qed.
Lemma be2 x y : be_val [x; y] = x * 256 + y.
Proof. cbn [be_val]. change (zlen [y]) with 1. change (zlen (@nil Z)) with 0. lia. Qed.
Lemma session_block_ok alg key : byte alg -> session_block alg key = Ok (alg :: key ++ be_bytes 2 (zsum key mod 65536)).
Proof.
  intros Ha. unfold session_block. rewrite mk_bytes_wf by (repeat constructor; apply Ha). cbn [bind].
  rewrite block_octets by (apply Z.mod_pos_bound; lia). reflexivity.
Qed.
Lemma read_block_eq alg key x y : byte x -> byte y -> read_session_block (alg :: key ++ [x; y]) =
  if x * 256 + y =? zsum key mod 65536 then Ok (alg, key) else Err ValueError.
Proof.
  intros Hx Hy. unfold read_session_block. rewrite get_cons_0. cbn [bind].
  change (alg :: key ++ [x; y]) with ((alg :: key) ++ [x; y]). rewrite get_last2. cbn [bind].
  replace ((alg :: key) ++ [x; y]) with (((alg :: key) ++ [x]) ++ [y]) at 1 by (rewrite <- app_assoc; reflexivity).
  rewrite get_last1. cbn [bind]. cbn [app]. rewrite slice_mid2, Z.shiftl_mul_pow2 by lia. change (2 ^ 8) with 256.
  destruct (x * 256 + y =? zsum key mod 65536); reflexivity.
Qed.
Lemma c24_block alg key : byte alg -> wf key -> exists b, session_block alg key = Ok b /\ wf b /\ read_session_block b = Ok (alg, key).
Proof.
  intros Ha Hk. rewrite session_block_ok by easy. eexists. split; [reflexivity|].
  split; [apply wf_cons; split; [easy|apply wf_app; split; [easy|apply be_bytes_wf]]|].
  pose proof (Z.mod_pos_bound (zsum key) 65536 ltac:(lia)) as Hb. set (c := zsum key mod 65536) in *.
  pose proof (be_bytes_val 2 c) as V. pose proof (be_bytes_wf 2 c) as W. cbn [be_bytes] in *. rewrite !wf_cons in W. destruct W as (W1 & W2 & _).
  rewrite read_block_eq by easy. rewrite be2 in V. rewrite V. change (256 ^ Z.of_nat 2) with 65536. unfold c. rewrite Z.mod_mod by lia. now rewrite Z.eqb_refl.
Qed.
Lemma split_last2 (m : bytes) : 3 <= zlen m -> exists a k x y, m = a :: k ++ [x; y].
Proof.
  intros H. destruct m as [|a m]; [cbn in H; lia|]. rewrite zlen_cons in H. exists a.
  destruct (exists_last (l := m)) as (m1 & y & ->); [intros ->; cbn in H; lia|]. rewrite zlen_app in H. change (zlen [y]) with 1 in H.
  destruct (exists_last (l := m1)) as (m2 & x & ->); [intros ->; cbn in H; lia|]. exists m2, x, y. now rewrite <- app_assoc.
Qed.
Lemma c24_accept m a k : wf m -> 3 <= zlen m -> read_session_block m = Ok (a, k) -> m = a :: k ++ be_bytes 2 (zsum k mod 65536).
Proof.
  intros Hw Hl H. destruct (split_last2 m Hl) as (a' & k' & x & y & ->). apply wf_cons in Hw as [_ Hw]. apply wf_app in Hw as [_ Hw].
  rewrite !wf_cons in Hw. destruct Hw as (Wx & Wy & _). rewrite read_block_eq in H by easy.
  destruct (_ =? _) eqn:E in H; [|discriminate]. injection H as -> ->. f_equal. f_equal.
  apply be_val_inj; [apply wf_cons; split; [easy|apply wf_cons; split; [easy|apply wf_nil]]|apply be_bytes_wf|reflexivity|].
  rewrite be_bytes_val, be2. change (256 ^ Z.of_nat 2) with 65536. rewrite Z.mod_mod by lia. lia.
Qed.
Lemma c24_reject m a key x y : wf m -> m = a :: key ++ [x; y] -> x * 256 + y <> zsum key mod 65536 -> read_session_block m = Err ValueError.
Proof.
  intros Hw -> Hne. apply wf_cons in Hw as [_ Hw]. apply wf_app in Hw as [_ Hw]. rewrite !wf_cons in Hw. destruct Hw as (Wx & Wy & _).
  rewrite read_block_eq by easy. now rewrite (proj2 (Z.eqb_neq _ _) Hne).
Qed.
Lemma c24_short m : zlen m < 2 -> read_session_block m = Err IndexError.
Proof.
  intros H. destruct m as [|a [|b m]]; [reflexivity|reflexivity|]. rewrite !zlen_cons in H. pose proof (zlen_nonneg m). lia.
Qed.

(** ** integers *)
Lemma os2ip_acc b : forall a, fold_left (fun a x => 256 * a + x) b a = a * 256 ^ zlen b + be_val b.
Proof.
  induction b as [|x b IH]; intros a; cbn [fold_left be_val]; [change (zlen (@nil Z)) with 0; lia|]. rewrite IH, zlen_cons.
  rewrite Z.pow_add_r by (pose proof (zlen_nonneg b); lia). change (256 ^ 1) with 256. ring.
Qed.
Lemma os2ip_be b : os2ip b = be_val b.
Proof. unfold os2ip. rewrite os2ip_acc. lia. Qed.
Lemma log2_div8_256 i : 0 < i -> 256 ^ (Z.log2 i / 8) <= i < 256 ^ (Z.log2 i / 8 + 1).
Proof.
  intros Hi. pose proof (Z.log2_spec i Hi) as H. pose proof (Z.log2_nonneg i). set (n := Z.log2 i) in *.
  change 256 with (2 ^ 8). rewrite <- !Z.pow_mul_r by lia. split.
  - transitivity (2 ^ n); [apply Z.pow_le_mono_r; lia|lia].
  - apply Z.lt_le_trans with (2 ^ Z.succ n); [lia|]. apply Z.pow_le_mono_r; lia.
Qed.
Lemma l2b_ok i : 0 <= i -> wf (long_to_bytes i) /\ be_val (long_to_bytes i) = i /\ zlen (long_to_bytes i) = if i =? 0 then 1 else Z.log2 i / 8 + 1.
Proof.
  intros Hi. unfold long_to_bytes. split; [apply be_bytes_wf|]. rewrite be_bytes_val, be_bytes_len.
  destruct (i =? 0) eqn:E; [assert (i = 0) as -> by lia; split; reflexivity|].
  pose proof (Z.log2_nonneg i). rewrite Z2Nat.id by lia. split; [|reflexivity]. apply Z.mod_small. split; [easy|]. apply log2_div8_256. lia.
Qed.
Lemma l2b_len_le i k : 0 < k -> 0 <= i < 256 ^ k -> zlen (long_to_bytes i) <= k.
Proof.
  intros Hk Hi. destruct (l2b_ok i ltac:(lia)) as (_ & _ & ->). destruct (i =? 0) eqn:E; [lia|].
  destruct (Z.le_gt_cases (Z.log2 i / 8 + 1) k) as [|H]; [easy|]. exfalso.
  pose proof (proj1 (log2_div8_256 i ltac:(lia))). assert (256 ^ k <= 256 ^ (Z.log2 i / 8)) by (apply Z.pow_le_mono_r; lia). lia.
Qed.
Lemma left_pad_ok em k : wf em -> zlen em = k -> 0 < k -> left_pad k (long_to_bytes (be_val em)) = em.
Proof.
  intros Hw Hl Hk. pose proof (be_val_nonneg em Hw) as Hv. rewrite Hl in Hv.
  destruct (l2b_ok (be_val em) ltac:(lia)) as (W & V & _). pose proof (l2b_len_le (be_val em) k Hk Hv) as L.
  unfold left_pad. apply be_val_inj; [apply wf_app; split; [apply wf_zeros|easy]|easy| |now rewrite be_val_zeros].
  rewrite zlen_app, zlen_repeat. lia.
Qed.
Lemma left_pad_len k m : 0 <= k -> zlen m <= k -> zlen (left_pad k m) = k.
Proof. intros. unfold left_pad. rewrite zlen_app, zlen_repeat. lia. Qed.

(** ** PKCS#1 padding *)
Lemma find_zero_app ps m : forall i, Forall (fun x => x <> 0) ps -> find_zero (ps ++ 0 :: m) i = i + zlen ps.
Proof.
  induction ps as [|x ps IH]; intros i H; cbn [app find_zero]; [change (zlen (@nil Z)) with 0; replace (0 =? 0) with true by reflexivity; lia|].
  inversion_clear H. destruct (x =? 0) eqn:E; [lia|]. rewrite IH by easy. rewrite zlen_cons. lia.
Qed.
Lemma pkcs1_unpad_ok ps m : Forall (fun x => x <> 0) ps -> 8 <= zlen ps -> pkcs1_unpad ([0; 2] ++ ps ++ [0] ++ m) = Some m.
Proof.
  intros Hps Hl. unfold pkcs1_unpad. cbn [app]. rewrite find_zero_app by easy.
  replace (slice (0 :: 2 :: ps ++ 0 :: m) 0 2) with [0; 2].
  - cbn [zlist_eqb Z.eqb Pos.eqb andb negb orb]. destruct (2 + zlen ps <? 10) eqn:E; [lia|]. f_equal.
    replace (0 :: 2 :: ps ++ 0 :: m) with (([0; 2] ++ ps ++ [0]) ++ m) by (now rewrite <- !app_assoc).
    replace (2 + zlen ps + 1) with (zlen ([0; 2] ++ ps ++ [0])) by (rewrite !zlen_app; change (zlen [0; 2]) with 2; change (zlen [0]) with 1; lia).
    apply slice_from_app.
  - symmetry. change (0 :: 2 :: ps ++ 0 :: m) with ([] ++ [0; 2] ++ (ps ++ 0 :: m)). apply slice_app'; reflexivity.
Qed.
Lemma slice_0_len {A} (l : list A) n : 0 <= n <= zlen l -> zlen (slice l 0 n) = n.
Proof. intros H. rewrite slice_firstn_skipn by lia. cbn [Z.to_nat skipn]. unfold zlen in *. rewrite firstn_length. lia. Qed.
Lemma Forall_slice {A} (P : A -> Prop) l i j : Forall P l -> Forall P (slice l i j).
Proof.
  intros H. unfold slice. assert (H2 : forall n (l : list A), Forall P l -> Forall P (firstn n l)).
  { clear. induction n; intros [|x l] H; cbn; try constructor; inversion_clear H; auto. }
  apply H2. clear H2. generalize (Z.to_nat (clip (zlen l) i)) as n. intros n. revert l H. induction n; intros [|x l] H; cbn; auto. inversion_clear H; auto.
Qed.
Lemma pkcs1_pad_ok k ps m : zlen m <= k - 11 -> k <= zlen ps -> wf ps -> Forall (fun x => x <> 0) ps -> wf m ->
  exists em, pkcs1_pad k ps m = Ok em /\ wf em /\ zlen em = k /\ pkcs1_unpad em = Some m /\ 0 < be_val em < 256 ^ (k - 1).
Proof.
  intros Hm Hps Wps Hnz Wm. unfold pkcs1_pad. destruct (k - 11 <? zlen m) eqn:E; [lia|]. pose proof (zlen_nonneg m).
  assert (Hl : zlen (slice ps 0 (k - zlen m - 3)) = k - zlen m - 3) by (apply slice_0_len; lia).
  set (p := slice ps 0 (k - zlen m - 3)) in *.
  assert (Wp : wf p) by (apply slice_wf; easy).
  assert (W : wf ([2] ++ p ++ [0] ++ m)).
  { apply wf_app; split; [repeat constructor; unfold byte; lia|]. apply wf_app; split; [easy|]. apply wf_app; split; [repeat constructor; unfold byte; lia|easy]. }
  assert (Hlen : zlen ([2] ++ p ++ [0] ++ m) = k - 1) by (rewrite !zlen_app; change (zlen [2]) with 1; change (zlen [0]) with 1; lia).
  eexists. split; [reflexivity|]. split; [apply wf_cons; split; [unfold byte; lia|exact W]|]. split; [change ([0; 2] ++ p ++ [0] ++ m) with (0 :: ([2] ++ p ++ [0] ++ m)); rewrite zlen_cons; lia|].
  split; [apply pkcs1_unpad_ok; [now apply Forall_slice|lia]|].
  change ([0; 2] ++ p ++ [0] ++ m) with (0 :: ([2] ++ p ++ [0] ++ m)). cbn [be_val]. rewrite Z.mul_0_l, Z.add_0_l.
  split; [|rewrite <- Hlen; now apply be_val_nonneg]. change ([2] ++ p ++ [0] ++ m) with (2 :: (p ++ [0] ++ m)). cbn [be_val].
  assert (0 < 256 ^ zlen (p ++ [0] ++ m)) by (apply Z.pow_pos_nonneg; [lia|apply zlen_nonneg]).
  assert (0 <= be_val (p ++ [0] ++ m)) by (apply be_val_nonneg; cbn [app] in W; apply wf_cons in W; tauto). lia.
Qed.

(** ** reading the MPI bodies back *)
Lemma mpi_length_at pre l rest n : zlen l = 2 -> be_val l = n -> mpi_length (pre ++ l ++ rest) (zlen pre) = Ok (ceil8 n).
Proof. intros Hl Hn. unfold mpi_length, short_to_int. rewrite (bytes_to_int_spec pre l rest 2) by lia. cbn [bind]. now rewrite Hn. Qed.
Inductive mpi_shape : bytes -> bytes -> Prop :=
| Mpi_shape l body : zlen l = 2 -> zlen body = ceil8 (be_val l) -> body <> [] -> mpi_shape (l ++ body) body.
Lemma read_ems_ok encs bodies : Forall2 mpi_shape encs bodies -> forall fuel pre acc, (length bodies <= fuel)%nat ->
  read_ems fuel (pre ++ concat encs) (zlen pre) acc = Ok (acc ++ bodies).
Proof.
  induction 1 as [|enc body encs bodies Hsh H IH]; intros fuel pre acc Hf; cbn [concat].
  - rewrite app_nil_r. destruct fuel; cbn [read_ems]; destruct (zlen pre <? zlen pre - 2) eqn:E; try lia; now rewrite app_nil_r.
  - destruct Hsh as [l body Hl Hb Hne]. destruct fuel as [|fuel]; [cbn in Hf; lia|]. cbn [read_ems].
    assert (0 < zlen body) by (destruct body; [easy|rewrite zlen_cons; pose proof (zlen_nonneg body); lia]).
    pose proof (zlen_nonneg (concat encs)).
    rewrite !zlen_app. destruct (zlen pre <? _) eqn:E; [|lia].
    rewrite <- app_assoc, (mpi_length_at pre l (body ++ concat encs) (be_val l) Hl eq_refl). cbn [bind]. rewrite <- Hb.
    replace (pre ++ l ++ body ++ concat encs) with ((pre ++ l) ++ body ++ concat encs) by now rewrite <- app_assoc.
    rewrite (slice_app' (pre ++ l) body (concat encs)) by (rewrite ?zlen_app; lia).
    replace (zlen pre + 2 + zlen body) with (zlen ((pre ++ l) ++ body)) by (rewrite !zlen_app; lia).
    replace ((pre ++ l) ++ body ++ concat encs) with (((pre ++ l) ++ body) ++ concat encs) by now rewrite <- !app_assoc.
    rewrite IH by (cbn in Hf; lia). now rewrite <- app_assoc.
Qed.
Lemma read_ems_fuel_len encs bodies : Forall2 mpi_shape encs bodies -> (length bodies <= length (concat encs))%nat.
Proof.
  induction 1 as [|enc body encs bodies Hsh H IH]; cbn [concat length]; [lia|]. destruct Hsh as [l body Hl _ _].
  rewrite !app_length. unfold zlen in Hl. lia.
Qed.
Lemma mpi_enc_shape fl i : 0 < i -> 0 <= fl i < 65535 -> exists enc, int_to_mpi fl i = Ok enc /\ mpi_shape enc (be_bytes (Z.to_nat (ceil8 (fl i + 1))) i).
Proof.
  intros Hi Hf. rewrite int_to_mpi_shape by easy. eexists. split; [reflexivity|]. constructor.
  - reflexivity.
  - rewrite be_bytes_len, int_to_2byte_be, be_bytes_val. change (256 ^ Z.of_nat 2) with 65536. rewrite Z.mod_small by lia. unfold ceil8. lia.
  - intros Hn. apply (f_equal (@zlen Z)) in Hn. rewrite be_bytes_len in Hn. change (zlen (@nil Z)) with 0 in Hn. unfold ceil8 in Hn. lia.
Qed.
Lemma mpis_ok fl vs : Forall (fun v => wf v /\ 0 < be_val v /\ 0 <= fl (be_val v) < 65535) vs ->
  exists encs, mpis_of fl vs = Ok (concat encs) /\ Forall2 mpi_shape encs (map (fun v => be_bytes (Z.to_nat (ceil8 (fl (be_val v) + 1))) (be_val v)) vs).
Proof.
  induction 1 as [|v vs (Hw & Hv & Hf) H IH]; [exists []; split; [reflexivity|constructor]|].
  destruct IH as (encs & H1 & H2). destruct (mpi_enc_shape fl (be_val v) Hv Hf) as (enc & E1 & E2).
  exists (enc :: encs). cbn [mpis_of map concat].
  pose proof (bytes_to_int_spec [] v [] (zlen v)) as B. cbn [app] in B. rewrite app_nil_r in B. change (zlen (@nil Z)) with 0 in B. rewrite B by reflexivity.
  cbn [bind]. rewrite E1. cbn [bind]. rewrite H1. cbn [bind]. split; [reflexivity|now constructor].
Qed.
Lemma esk_round fl vs : Forall (fun v => wf v /\ 0 < be_val v /\ 0 <= fl (be_val v) < 65535) vs ->
  exists esk, mpis_of fl vs = Ok esk /\
  forall dec pka, get_key_and_cipher_algo dec pka esk =
    (do r <- dec (map (fun v => be_bytes (Z.to_nat (ceil8 (fl (be_val v) + 1))) (be_val v)) vs);;
     match r with None => Err ValueError | Some m => if (pka =? 17) || (pka =? 19) then Err NotImplementedError else read_session_block m end).
Proof.
  intros H. destruct (mpis_ok fl vs H) as (encs & H1 & H2). exists (concat encs). split; [exact H1|]. intros dec pka.
  unfold get_key_and_cipher_algo. pose proof (read_ems_ok _ _ H2 (length (concat encs)) [] [] (read_ems_fuel_len _ _ H2)) as R.
  cbn [app] in R. change (zlen (@nil Z)) with 0 in R. rewrite R. reflexivity.
Qed.
Lemma ceil8_log i : 0 < i -> ceil8 (Z.log2 i + 1) = Z.log2 i / 8 + 1.
Proof. intros. pose proof (Z.log2_nonneg i). unfold ceil8. lia. Qed.
Lemma exact_body i : 0 < i -> be_bytes (Z.to_nat (ceil8 (Z.log2 i + 1))) i = long_to_bytes i.
Proof. intros Hi. unfold long_to_bytes. destruct (i =? 0) eqn:E; [lia|]. now rewrite ceil8_log. Qed.

(** ** RSA *)
Lemma rsa_round fl k f g ps alg key pka : byte alg -> wf key -> zlen key + 14 <= k -> k <= 8191 ->
  (forall m, 0 < m < 256 ^ (k - 1) -> 0 < f m < 256 ^ k /\ g (f m) = m) ->
  (forall i, 0 < i < 256 ^ k -> fl i = Z.log2 i) ->
  k <= zlen ps -> wf ps -> Forall (fun x => x <> 0) ps -> pka <> 17 -> pka <> 19 ->
  exists c esk, get_encrypted_key fl (rsa_encrypt k f ps) alg key = Ok esk /\ 0 < c < 256 ^ k /\
    (exists em, pkcs1_pad k ps (alg :: key ++ be_bytes 2 (zsum key mod 65536)) = Ok em /\ c = f (be_val em)) /\
    get_key_and_cipher_algo (rsa_decrypt k g) pka esk = if 256 ^ (k - 1) <=? c then Ok (alg, key) else Err ValueError.
Proof.
  intros Ha Hk Hlen Hkm Hfg Hfl Hps Wps Hnz H17 H19.
  destruct (c24_block alg key Ha Hk) as (b & Hb & Wb & Rb).
  assert (Eb : b = alg :: key ++ be_bytes 2 (zsum key mod 65536)) by (rewrite session_block_ok in Hb by easy; congruence).
  assert (Lb : zlen b = zlen key + 3) by (rewrite Eb, zlen_cons, zlen_app, be_bytes_len; lia). pose proof (zlen_nonneg key).
  destruct (pkcs1_pad_ok k ps b ltac:(lia) Hps Wps Hnz Wb) as (em & P1 & P2 & P3 & P4 & P5).
  destruct (Hfg _ P5) as [F1 F2]. set (c := f (be_val em)) in *.
  assert (Hk0 : 0 < k) by lia.
  destruct (l2b_ok c ltac:(lia)) as (W & V & L). pose proof (l2b_len_le c k Hk0 ltac:(lia)) as Lk.
  set (v := left_pad k (long_to_bytes c)).
  assert (Hv : wf v /\ be_val v = c).
  { unfold v, left_pad. split; [apply wf_app; split; [apply wf_zeros|easy]|now rewrite be_val_zeros]. }
  assert (Hlog : 0 <= Z.log2 c < 65535).
  { split; [apply Z.log2_nonneg|]. assert (Z.log2 c < 8 * k); [|lia]. apply Z.log2_lt_pow2; [lia|]. rewrite Z.pow_mul_r by lia. change (2 ^ 8) with 256. lia. }
  destruct (esk_round fl [v]) as (esk & E1 & E2).
  { constructor; [|constructor]. destruct Hv as [Hv1 Hv2]. rewrite Hv2, (Hfl c) by lia. split; [easy|]. split; lia. }
  exists c, esk. split; [|split; [lia|split]].
  - unfold get_encrypted_key. rewrite Hb. cbn [bind]. unfold rsa_encrypt. rewrite P1. cbn [bind]. rewrite os2ip_be. exact E1.
  - exists em. split; [now rewrite <- Eb|reflexivity].
  - rewrite E2. cbn [map]. destruct Hv as [_ Hv2]. rewrite Hv2, (Hfl c) by lia. rewrite exact_body by lia. cbn [rsa_decrypt].
    rewrite L. destruct (c =? 0) eqn:E0; [lia|].
    destruct (256 ^ (k - 1) <=? c) eqn:Ec.
    + assert (Z.log2 c / 8 + 1 = k).
      { pose proof (log2_div8_256 c ltac:(lia)) as [_ Hhi]. destruct (Z.le_gt_cases k (Z.log2 c / 8 + 1)); [lia|].
        assert (256 ^ (Z.log2 c / 8 + 1) <= 256 ^ (k - 1)) by (apply Z.pow_le_mono_r; lia). lia. }
      rewrite (proj2 (Z.eqb_eq _ _)) by lia. cbn [negb bind]. rewrite os2ip_be, V, F2, left_pad_ok by easy. rewrite P4. cbn [bind].
      rewrite (proj2 (Z.eqb_neq _ _) H17), (proj2 (Z.eqb_neq _ _) H19). exact Rb.
    + assert (Z.log2 c / 8 + 1 <> k).
      { intros Hn. pose proof (log2_div8_256 c ltac:(lia)) as [Hlo _]. replace (Z.log2 c / 8) with (k - 1) in Hlo by lia. lia. }
      rewrite (proj2 (Z.eqb_neq _ _)) by lia. reflexivity.
Qed.

(** ** ElGamal *)
Lemma elg_round fl key ps alg sk (D : Z * Z -> Z) : byte alg -> wf sk -> 1 < elg_p key -> zlen sk + 14 <= elg_k key -> elg_k key <= 8191 ->
  (forall m, 0 <= m < elg_p key -> D (elg_raw_encrypt key m 0) = m) ->
  (forall i, 0 < i < 256 ^ elg_k key -> fl i = Z.log2 i) ->
  elg_k key <= zlen ps -> wf ps -> Forall (fun x => x <> 0) ps ->
  exists esk, get_encrypted_key fl (elg_encrypt key ps) alg sk = Ok esk /\ get_key_and_cipher_algo (elg_decrypt key D) 16 esk = Ok (alg, sk).
Proof.
  intros Ha Hk Hp Hlen Hkm HD Hfl Hps Wps Hnz.
  destruct (c24_block alg sk Ha Hk) as (b & Hb & Wb & Rb).
  assert (Eb : b = alg :: sk ++ be_bytes 2 (zsum sk mod 65536)) by (rewrite session_block_ok in Hb by easy; congruence).
  assert (Lb : zlen b = zlen sk + 3) by (rewrite Eb, zlen_cons, zlen_app, be_bytes_len; lia). pose proof (zlen_nonneg sk).
  destruct (pkcs1_pad_ok (elg_k key) ps b ltac:(lia) Hps Wps Hnz Wb) as (em & P1 & P2 & P3 & P4 & P5).
  assert (Hpk : 256 ^ (elg_k key - 1) <= elg_p key).
  { unfold elg_k. pose proof (Z.log2_nonneg (elg_p key)). replace ((Z.log2 (elg_p key) + 1 + 7) / 8 - 1) with (Z.log2 (elg_p key) / 8) by lia.
    apply log2_div8_256. lia. }
  set (k := elg_k key) in *. set (M := be_val em) in *.
  assert (Ra : elg_raw_encrypt key M 0 = (1, M)).
  { unfold elg_raw_encrypt. rewrite !Z.pow_0_r, Z.mul_1_l. rewrite !Z.mod_small by lia. reflexivity. }
  assert (HkM : 256 ^ (k - 1) <= 256 ^ k) by (apply Z.pow_le_mono_r; lia).
  assert (Hlog : 0 <= Z.log2 M < 65535).
  { split; [apply Z.log2_nonneg|]. assert (Z.log2 M < 8 * k); [|lia]. apply Z.log2_lt_pow2; [lia|]. rewrite Z.pow_mul_r by lia. change (2 ^ 8) with 256. lia. }
  assert (H1k : 1 < 256 ^ k) by (apply Z.pow_gt_1; lia).
  destruct (l2b_ok M ltac:(lia)) as (W & V & _). destruct (l2b_ok 1 ltac:(lia)) as (W1 & V1 & _).
  destruct (esk_round fl [long_to_bytes 1; long_to_bytes M]) as (esk & E1 & E2).
  { constructor; [|constructor; [|constructor]].
    - rewrite V1, (Hfl 1) by lia. split; [easy|]. split; [lia|]. split; [easy|reflexivity].
    - rewrite V, (Hfl M) by lia. split; [easy|]. split; lia. }
  exists esk. split.
  - unfold get_encrypted_key. rewrite Hb. cbn [bind]. unfold elg_encrypt. fold k. rewrite P1. cbn [bind]. rewrite os2ip_be. fold M. rewrite Ra. cbn [bind]. exact E1.
  - rewrite E2. cbn [map]. rewrite V1, V, (Hfl 1), (Hfl M) by lia. rewrite !exact_body by lia. cbn [elg_decrypt bind].
    rewrite !os2ip_be, V1, V. rewrite <- Ra, HD by lia. fold k. unfold M. rewrite left_pad_ok by (easy || lia). rewrite P4. cbn [Z.eqb Pos.eqb orb]. exact Rb.
Qed.

(** ** passphrase-encrypted session keys *)
Lemma key_sizes_ok alg n : alg <> 0 -> symmetric_cipher_key_lengths alg = Some n -> In n (cipher_key_sizes alg).
Proof.
  unfold symmetric_cipher_key_lengths, cipher_key_sizes. intros H0.
  destruct (alg =? 0) eqn:?; [lia|].
  destruct (alg =? 1) eqn:?; [intros [= <-]; cbn; lia|]. destruct (alg =? 2) eqn:?; [intros [= <-]; cbn; lia|].
  destruct (alg =? 3) eqn:?; [intros [= <-]; vm_compute; tauto|]. destruct (alg =? 4) eqn:?; [intros [= <-]; vm_compute; tauto|].
  repeat match goal with |- context [if ?c then Some _ else _] => destruct c; [intros [= <-]; cbn; lia|] end. discriminate.
Qed.
Lemma tables_agree alg bs : symmetric_cipher_block_lengths alg = Some bs -> exists n, symmetric_cipher_key_lengths alg = Some n.
Proof.
  unfold symmetric_cipher_block_lengths, symmetric_cipher_key_lengths. destruct (alg =? 0) eqn:?; [eauto|]. intros H.
  repeat (destruct (alg =? _) eqn:? in |- *; [eauto|]). destruct (_ && _) eqn:E1 in H; [lia|]. destruct (_ && _) eqn:E2 in H; [lia|discriminate].
Qed.
Lemma wf_zeros' n : wf (repeat 0 n). Proof. apply wf_zeros. Qed.
Lemma pad_mod n bs : 0 < bs -> 0 < bs - n mod bs /\ (n + (bs - n mod bs)) mod bs = 0.
Proof.
  intros H. pose proof (Z.mod_pos_bound n bs H). split; [lia|].
  replace (n + (bs - n mod bs)) with ((n / bs + 1) * bs) by (pose proof (Z.div_mod n bs ltac:(lia)); lia). apply Z.mod_mul. lia.
Qed.
Lemma skesk_round H E s sym pass sk bs k : (forall a hl, hash_lengths a = Some hl -> forall d, zlen (H a d) = hl) ->
  symmetric_cipher_block_lengths (s2k_sym s) = Some bs -> s2k_sym s <> 0 -> to_key H s pass = Ok (Some k) ->
  good_block (E (s2k_sym s) k) bs -> byte sym -> wf sk ->
  skesk_encrypt_key H E s sym pass sk = Ok (rfc_cfb_enc (E (s2k_sym s) k) (Z.to_nat bs) (repeat 0 (Z.to_nat bs)) (sym :: sk)) /\
  skesk_get_key H E s (s2k_sym s) pass (Some (rfc_cfb_enc (E (s2k_sym s) k) (Z.to_nat bs) (repeat 0 (Z.to_nat bs)) (sym :: sk))) = Ok (sym, Some sk).
Proof.
  intros HH Hb H0 Hk HE Hs Hsk. destruct (tables_agree _ _ Hb) as (n & Hn). pose proof (to_key_len H s pass k n HH Hn Hk) as Lk.
  destruct (sym_new_ok (s2k_sym s) k (repeat 0 (Z.to_nat bs)) bs Hb H0) as (o & Ho).
  { rewrite Lk. now apply key_sizes_ok. }
  { rewrite zlen_repeat. unfold symmetric_cipher_block_lengths in Hb. destruct (s2k_sym s =? 0) eqn:?; [lia|].
    destruct (_ && _); [injection Hb as <-; lia|]. destruct (_ && _); [injection Hb as <-; lia|discriminate]. }
  destruct (get_cfb_inv _ _ _ _ Ho) as (k' & bs' & [= <-] & Hb' & _ & Hbs & _ & _ & _ & _ & Liv & _). rewrite Hb in Hb'. injection Hb' as <-.
  assert (Wd : wf (sym :: sk)) by (apply wf_cons; now split).
  set (C := rfc_cfb_enc _ _ _ _). destruct (rfc_cfb_len (E (s2k_sym s) k) bs (repeat 0 (Z.to_nat bs)) (sym :: sk) Hbs HE (wf_zeros _) Liv Wd) as [LC WC]. fold C in LC, WC.
  split.
  - unfold skesk_encrypt_key. rewrite Hk. cbn [bind]. rewrite Hb, Ho. cbn [bind]. rewrite mk_bytes_wf by (repeat constructor; apply Hs). cbn [bind app].
    cbv zeta. destruct (pad_mod (zlen (sym :: sk)) bs Hbs) as [P1 P2].
    destruct (padded_encrypt E _ k o _ bs (sym :: sk) (bs - zlen (sym :: sk) mod bs) Ho Hb HE (wf_zeros _) Wd P1 P2) as (r & o' & R1 & R2).
    cbn [app] in R1. rewrite R1. cbn [bind]. now rewrite R2.
  - unfold skesk_get_key. rewrite Hk. cbn [bind].
    assert (Hne : C <> []) by (intros Hn'; rewrite Hn' in LC; rewrite zlen_cons in LC; change (zlen (@nil Z)) with 0 in LC; pose proof (zlen_nonneg sk); lia).
    destruct C as [|c0 C'] eqn:EC; [easy|]. rewrite <- EC in *. clear Hne. rewrite Hb, Ho. cbn [bind].
    cbv zeta. destruct (pad_mod (zlen C) bs Hbs) as [P1 P2].
    destruct (padded_decrypt E _ k o _ bs C (bs - zlen C mod bs) Ho Hb HE (wf_zeros _) WC P1 P2) as (r & o' & R1 & R2).
    rewrite R1. cbn [bind]. rewrite R2. unfold C. rewrite rfc_cfb_inv by (easy || apply wf_zeros). rewrite get_cons_0. cbn [bind]. do 3 f_equal.
    change (sym :: sk) with ([sym] ++ sk). change 1 with (zlen [sym]). apply slice_from_app.
Qed.
Lemma skesk_no_esk H E s sym pass k e : to_key H s pass = Ok k -> e = None \/ e = Some [] -> skesk_get_key H E s sym pass e = Ok (sym, k).
Proof. intros Hk [-> | ->]; unfold skesk_get_key; rewrite Hk; reflexivity. Qed.

(** ** packet bodies *)
Lemma slice_from_slice {A} (l : list A) i : 0 <= i <= zlen l -> slice_from l i = slice l i (zlen l).
Proof.
  intros H. unfold slice_from. rewrite clip_in by lia. rewrite slice_firstn_skipn by lia. rewrite firstn_all2; [reflexivity|]. rewrite skipn_length. unfold zlen in *. lia.
Qed.
Lemma body_split (data : bytes) i : 0 <= i <= zlen data -> data = slice data 0 i ++ slice_from data i.
Proof.
  intros H. rewrite slice_from_slice by easy. rewrite <- slice_cat by lia. now rewrite slice_full.
Qed.
Lemma split_mid data i n : 0 <= i -> 0 <= n -> i + n <= zlen data -> data = slice data 0 i ++ slice data i (i + n) ++ slice_from data (i + n) :> bytes.
Proof. intros. rewrite app_assoc, <- slice_cat by lia. apply body_split. lia. Qed.
Lemma hex_slice_rt data i n : wf data -> 0 <= i -> 0 < n -> i + n <= zlen data ->
  bytearray_to_hex data i (Some (2 * n)) = Ok (hex_text (slice data i (i + n))).
Proof.
  intros Hw Hi Hn Hl. pose proof (slice_len data 0 i ltac:(lia) ltac:(lia)) as L0.
  pose proof (bytearray_to_hex_at (slice data 0 i) (slice data i (i + n)) (slice_from data (i + n)) (2 * n)) as B.
  rewrite <- (split_mid data i n) in B by lia. replace (zlen (slice data 0 i)) with i in B by lia.
  apply B; [now apply slice_wf|]. rewrite slice_len by lia. lia.
Qed.
Lemma get_range (data : bytes) i : 0 <= i < zlen data -> exists x, get data i = Ok x /\ slice data i (i + 1) = [x].
Proof. intros H. destruct (get_lt_ok data i H) as (x & Hx). exists x. split; [exact Hx|]. now apply slice_one. Qed.
(** public-key encrypted session keys *)
Lemma hex8 b : wf b -> zlen b = 8 -> hex_to_bytes (hex_text b) (Some 8) = Ok b.
Proof.
  intros Hw Hl. rewrite hex_to_bytes_text_expected by (easy || lia). rewrite Hl. change (8 - 8) with 0. change (Z.max 0 0) with 0.
  cbn [Z.to_nat repeat app]. f_equal. unfold slice_from. rewrite clip_in by lia. reflexivity.
Qed.
Lemma hex_at1 pre b suf o n : wf b -> o = zlen pre -> n = 2 * zlen b -> bytearray_to_hex (pre ++ b ++ suf) o (Some n) = Ok (hex_text b).
Proof. intros Hw -> ->. now apply bytearray_to_hex_at. Qed.
Lemma get_at {A} (pre l : list A) x o : o = zlen pre -> get (pre ++ x :: l) o = Ok x.
Proof. intros ->. apply get_app_0. Qed.
Lemma pkesk_from v k a e : wf k -> zlen k = 8 -> pkesk_from_content (v :: k ++ a :: e) = Ok (Pkesk v (Some (hex_text k)) a e).
Proof.
  intros Hw Hl. unfold pkesk_from_content. rewrite get_cons_0. cbn [bind].
  pose proof (hex_at1 [v] k (a :: e) 1 16 Hw eq_refl ltac:(lia)) as Hh. cbn [app] in Hh. rewrite Hh. cbn [bind].
  change (v :: k ++ a :: e) with ((v :: k) ++ a :: e). rewrite (get_at (v :: k)) by (rewrite zlen_cons; lia). cbn [bind].
  replace ((v :: k) ++ a :: e) with ((v :: k ++ [a]) ++ e) by (cbn [app]; now rewrite <- app_assoc).
  replace 10 with (zlen (v :: k ++ [a])) by (rewrite zlen_cons, zlen_app; change (zlen [a]) with 1; lia). now rewrite slice_from_app.
Qed.
Lemma take_n (n : Z) (l : bytes) : 0 <= n <= zlen l -> exists a b, l = a ++ b /\ zlen a = n.
Proof.
  intros H. exists (firstn (Z.to_nat n) l), (skipn (Z.to_nat n) l). split; [now rewrite firstn_skipn|]. unfold zlen in H |- *. rewrite firstn_length. lia.
Qed.
Lemma pkesk_shape (data : bytes) : 10 <= zlen data -> exists v k a e, data = v :: k ++ a :: e /\ zlen k = 8.
Proof.
  intros H. destruct data as [|v t]; [change (zlen (@nil Z)) with 0 in H; lia|]. rewrite zlen_cons in H.
  destruct (take_n 8 t ltac:(lia)) as (k & r & -> & Lk). rewrite zlen_app in H. destruct r as [|a e]; [change (zlen (@nil Z)) with 0 in H; lia|].
  exists v, k, a, e. now split.
Qed.
Lemma pkesk_content_of v k a e : byte v -> byte a -> wf k -> zlen k = 8 -> pkesk_content (Pkesk v (Some (hex_text k)) a e) = Ok (v :: k ++ a :: e).
Proof.
  intros Hv Ha Hk Hl. unfold pkesk_content. cbn [pk_key_id pk_version pk_alg pk_esk]. rewrite !mk_bytes_wf by (repeat constructor; first [apply Hv|apply Ha]). cbn [bind].
  rewrite hex8 by easy. cbn [bind]. reflexivity.
Qed.
Lemma to_hex_loop_short n : forall arr i, 0 <= i -> (0 < n)%nat -> zlen arr < i + Z.of_nat n -> to_hex_loop n arr i = Err IndexError.
Proof.
  induction n as [|n IH]; intros arr i Hi Hn Hl; [lia|]. cbn [to_hex_loop].
  destruct (get arr i) as [b|e] eqn:E; cbn [bind]; [|now rewrite (get_err _ _ _ E)].
  pose proof (get_ok_lt arr i b Hi E). rewrite IH by lia. reflexivity.
Qed.
Lemma hex_short arr i n : 0 <= i -> 0 < n -> n mod 2 = 0 -> zlen arr < i + n / 2 -> bytearray_to_hex arr i (Some n) = Err IndexError.
Proof. intros Hi Hn Hm Hl. unfold bytearray_to_hex. rewrite Hm. cbn [Z.eqb negb]. rewrite to_hex_loop_short by lia. reflexivity. Qed.
Lemma pkesk_short data : wf data -> zlen data < 10 -> pkesk_from_content data = Err IndexError.
Proof.
  intros Hw H. unfold pkesk_from_content. destruct (get data 0) as [v|e] eqn:E; cbn [bind]; [|now rewrite (get_err _ _ _ E)].
  destruct (Z.le_gt_cases 9 (zlen data)) as [Hl|Hl].
  - destruct data as [|x t]; [change (zlen (@nil Z)) with 0 in *; lia|]. rewrite zlen_cons in *. apply wf_cons in Hw as [_ Hw].
    pose proof (hex_at1 [x] t [] 1 16 Hw eq_refl ltac:(lia)) as Hh. rewrite app_nil_r in Hh. cbn [app] in Hh. rewrite Hh. cbn [bind].
    rewrite get_ge_err by (rewrite zlen_cons; lia). reflexivity.
  - rewrite hex_short by (reflexivity || lia). reflexivity.
Qed.
Lemma pkesk_again data p : wf data -> pkesk_from_content data = Ok p -> pkesk_content p = Ok data.
Proof.
  intros Hw H. destruct (Z.le_gt_cases 10 (zlen data)) as [Hl|Hl]; [|rewrite pkesk_short in H by easy; discriminate].
  destruct (pkesk_shape data Hl) as (v & k & a & e & -> & Lk). apply wf_cons in Hw as [Wv Hw]. apply wf_app in Hw as [Wk Hw]. apply wf_cons in Hw as [Wa We].
  rewrite pkesk_from in H by easy. injection H as <-. now apply pkesk_content_of.
Qed.

(** symmetric-key encrypted session keys *)
Definition s2k_size (s : s2k) : Z := match s with SimpleS2K _ _ => 2 | SaltedS2K _ _ _ => 10 | IteratedS2K _ _ _ _ => 11 | GnuPGS2K _ _ _ _ _ => 0 end.
Lemma s2k_offset sym data off s off' : parse_s2k_bytes sym data off = Ok (s, off') ->
  match s with GnuPGS2K _ _ _ _ _ => True | _ => off' = off + s2k_size s end.
Proof.
  unfold parse_s2k_bytes. intros H. apply bind_ok in H as (t & Ht & H). cbv zeta in H.
  destruct (t =? 0); [apply bind_ok in H as (h & _ & H); injection H as <- <-; cbn; lia|].
  destruct (t =? 1); [apply bind_ok in H as (h & _ & H); injection H as <- <-; cbn [s2k_size]; lia|].
  destruct (t =? 3); [apply bind_ok in H as (h & _ & H); apply bind_ok in H as (c & _ & H); injection H as <- <-; cbn [s2k_size]; lia|].
  destruct (t =? 101); [|discriminate]. unfold gnupg_from_bytes in H. apply bind_ok in H as (h & _ & H). cbv zeta in H.
  destruct (negb _); [discriminate|]. apply bind_ok in H as (m & _ & H). destruct (_ =? 1001); [injection H as <- <-; exact I|].
  destruct (_ =? 1002); [|discriminate]. apply bind_ok in H as (l & _ & H). apply bind_ok in H as (x & _ & H). injection H as <- <-. exact I.
Qed.
Definition exact_log (fl : Z -> Z) := forall i, 1024 <= i <= 65011712 -> fl i = Z.log2 i.
Lemma skesk_again fl data p n : exact_log fl -> wf data -> skesk_from_content data = Ok p ->
  (forall h m a sn sl, sk_s2k p <> GnuPGS2K h m a sn sl) -> symmetric_cipher_key_lengths (sk_sym p) = Some n ->
  2 + s2k_size (sk_s2k p) <= zlen data <= 2 + s2k_size (sk_s2k p) + n + 1 ->
  skesk_content fl p = Ok data.
Proof.
  intros Hfl Hw H Hg Hn Hl. unfold skesk_from_content in H. apply bind_ok in H as (v & Hv & H). apply bind_ok in H as (sym & Hs & H).
  apply bind_ok in H as ([s off] & Hp & H). pose proof (s2k_offset _ _ _ _ _ Hp) as Ho.
  destruct (symmetric_cipher_key_lengths sym) as [n'|] eqn:En; [|discriminate]. injection H as <-. cbn [sk_s2k sk_sym sk_version sk_esk] in *.
  rewrite En in Hn. injection Hn as ->.
  assert (Hoff : off = 2 + s2k_size s) by (destruct s; try exact Ho; exfalso; eapply Hg; reflexivity).
  destruct (c21_again fl sym data 2 s off Hfl Hw ltac:(lia) Hp ltac:(lia)) as [Hsym Hb].
  assert (Hbytes : s2k_bytes fl s = Ok (slice data 2 off)) by (destruct s; try apply Hb; exfalso; eapply Hg; reflexivity).
  unfold skesk_content. cbn [sk_s2k sk_sym sk_version sk_esk].
  assert (H2 : mk_bytes [v; sym] = Ok [v; sym]) by (apply mk_bytes_wf; repeat constructor; [eapply get_byte; [exact Hw|exact Hv]..|eapply get_byte; [exact Hw|exact Hs]|eapply get_byte; [exact Hw|exact Hs]]).
  rewrite H2. cbn [bind]. rewrite Hbytes. cbn [bind]. f_equal.
  assert (Hsz : 0 < s2k_size s) by (destruct s; cbn [s2k_size]; try lia; exfalso; eapply Hg; reflexivity).
  pose proof (zlen_nonneg data).
  assert (Hend : slice data off (off + n + 1) = slice data off (zlen data)).
  { destruct (Z.eq_dec (zlen data) (off + n + 1)) as [<-|]; [reflexivity|]. rewrite !slice_firstn_skipn by lia.
    rewrite !firstn_all2; [reflexivity|..]; rewrite skipn_length; unfold zlen in *; lia. }
  rewrite Hend. rewrite <- (slice_cat data 2 off (zlen data)) by lia.
  assert (Hpre : [v; sym] = slice data 0 2).
  { rewrite (slice_cons_get data 0 2 v) by (easy || lia). rewrite (slice_cons_get data (0 + 1) 2 sym) by (easy || lia).
    change (0 + 1 + 1) with 2. now rewrite slice_nil by lia. }
  rewrite Hpre, <- slice_cat by lia. apply slice_full.
Qed.
Lemma skesk_parse_back fl v s esk n : exact_log fl -> byte v -> byte (s2k_sym s) -> s2k_ok s ->
  symmetric_cipher_key_lengths (s2k_sym s) = Some n -> zlen esk <= n + 1 -> wf esk ->
  exists data, skesk_content fl (Skesk v (s2k_sym s) s (Some esk)) = Ok data /\ wf data /\
    skesk_from_content data = Ok (Skesk v (s2k_sym s) s (Some esk)).
Proof.
  intros Hfl Hv Hs Hok Hn Hl He. destruct (c21_round fl s [v; s2k_sym s] esk Hfl Hok) as (enc & E1 & E2 & E3).
  unfold skesk_content. cbn [sk_s2k sk_sym sk_version sk_esk]. rewrite mk_bytes_wf by (repeat constructor; first [apply Hv|apply Hs]). cbn [bind]. rewrite E1. cbn [bind].
  eexists. split; [reflexivity|]. split; [apply wf_app; split; [repeat constructor; first [apply Hv|apply Hs]|apply wf_app; now split]|].
  unfold skesk_from_content. cbn [app] in *. rewrite get_cons_0. cbn [bind]. rewrite get_cons_S by lia. change (1 - 1) with 0. rewrite get_cons_0. cbn [bind].
  change (zlen [v; s2k_sym s]) with 2 in E3. rewrite E3. cbn [bind]. rewrite Hn. do 3 f_equal.
  change (v :: s2k_sym s :: enc) with ([v; s2k_sym s] ++ enc). change (v :: s2k_sym s :: enc ++ esk) with ([v; s2k_sym s] ++ enc ++ esk). rewrite app_assoc.
  apply slice_app_end; [reflexivity|lia].
Qed.

(** one-pass signatures *)
Lemma onepass_exact v t h a k1 k2 n rest : wf k1 -> zlen k1 = 4 -> zlen k2 = 4 ->
  onepass_from_content ([v; t; h; a] ++ k1 ++ k2 ++ n :: rest) = Ok (OnePass v t h a (hex_text k1) n).
Proof.
  intros W1 L1 L2. unfold onepass_from_content. cbn [app]. rewrite get_cons_0. cbn [bind].
  rewrite (get_cons_S v), get_cons_0 by lia. cbn [bind].
  rewrite (get_cons_S v), (get_cons_S t), get_cons_0 by lia. cbn [bind].
  rewrite (get_cons_S v), (get_cons_S t), (get_cons_S h), get_cons_0 by lia. cbn [bind].
  change (v :: t :: h :: a :: k1 ++ k2 ++ n :: rest) with ([v; t; h; a] ++ k1 ++ (k2 ++ n :: rest)).
  rewrite (hex_at1 [v; t; h; a] k1 _ 4 8) by (easy || lia). cbn [bind].
  replace ([v; t; h; a] ++ k1 ++ k2 ++ n :: rest) with (([v; t; h; a] ++ k1 ++ k2) ++ n :: rest) by (now rewrite <- !app_assoc).
  rewrite get_at by (rewrite !zlen_app; change (zlen [v; t; h; a]) with 4; lia). reflexivity.
Qed.
Lemma onepass_content_exact v t h a k n : wf [v; t; h; a; n] -> wf k -> zlen k <= 8 ->
  onepass_content (OnePass v t h a (hex_text k) n) = Ok ([v; t; h; a] ++ repeat 0 (Z.to_nat (8 - zlen k)) ++ k ++ [n]).
Proof.
  intros Hw Hk Hl. unfold onepass_content. cbn [op_version op_sigtype op_hash op_pk op_key_id op_nested].
  rewrite !wf_cons in Hw. destruct Hw as (H1 & H2 & H3 & H4 & H5 & _).
  rewrite !mk_bytes_wf by (repeat constructor; first [apply H1|apply H2|apply H3|apply H4|apply H5]). cbn [bind].
  rewrite hex_to_bytes_text_expected by (easy || lia). cbn [bind]. pose proof (zlen_nonneg k). replace (Z.max 0 (zlen k - 8)) with 0 by lia.
  unfold slice_from. rewrite clip_in by lia. cbn [Z.to_nat skipn]. now rewrite <- app_assoc.
Qed.
