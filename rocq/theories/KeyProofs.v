From Verif Require Import Base BaseProofs Spec Utils UtilsProofs HexProofs CodecProofs S2k SpecS2k S2kProofs Cipher SymCipher SpecCfb CfbProofs SessionKeys SessionKeysProofs KeyPackets SpecKey.

(** ** lists of MPIs *)
Fixpoint read_mpis (n : nat) (data : bytes) (o : Z) : res (list Z * Z) :=
  match n with
  | O => Ok ([], o)
  | S n => do (i, o) <- mpi_to_int data o;; do (ms, o) <- read_mpis n data o;; Ok (i :: ms, o)
  end.
Lemma mpi_at i enc pre suf o : readable_mpi i enc -> o = zlen pre -> mpi_to_int (pre ++ enc ++ suf) o = Ok (i, zlen (pre ++ enc)).
Proof.
  intros (l & body & -> & Hl & Hb & Hv & _) ->. rewrite (mpi_to_int_spec pre l body suf (be_val l)) by easy. rewrite Hv. apply ok2; [easy|].
  rewrite !zlen_app. unfold ceil8. lia.
Qed.
Lemma read_mpis_ok ms encs : Forall2 readable_mpi ms encs -> forall pre suf,
  read_mpis (length ms) (pre ++ concat encs ++ suf) (zlen pre) = Ok (ms, zlen (pre ++ concat encs)).
Proof.
  induction 1 as [|i enc ms encs Hi H IH]; intros pre suf; cbn [length read_mpis concat]; [now rewrite app_nil_r|].
  rewrite <- app_assoc, (mpi_at i enc pre (concat encs ++ suf) (zlen pre) Hi eq_refl). cbn [bind].
  rewrite (app_assoc pre enc (concat encs ++ suf)), IH. cbn [bind]. now rewrite <- app_assoc.
Qed.
Lemma mpi_inv data o i o' : wf data -> 0 <= o -> mpi_to_int data o = Ok (i, o') ->
  readable_mpi i (slice data o o') /\ o + 2 <= o' <= zlen data.
Proof.
  intros Hw Ho H. unfold mpi_to_int, mpi_length in H. apply bind_ok in H as (n & Hn & H). apply bind_ok in Hn as (c & Hc & Hn). injection Hn as <-.
  apply bind_ok in H as (r & Hr & H). injection H as <- <-.
  apply bytes_to_int_slice in Hc as [Ec Bc]; [|lia..]. specialize (Bc ltac:(lia)).
  pose proof (be_val_nonneg (slice data o (o + 2)) (slice_wf _ _ _ Hw)) as Hp. pose proof (ceil8_pos c ltac:(lia)) as Hcc.
  apply bytes_to_int_slice in Hr as [Er Br]; [|lia..].
  assert (o + 2 + ceil8 c <= zlen data) by lia.
  split; [|lia]. exists (slice data o (o + 2)), (slice data (o + 2) (o + 2 + ceil8 c)). split; [apply slice_cat; lia|].
  split; [rewrite slice_len by lia; lia|]. split; [rewrite slice_len by lia; rewrite <- Ec; fold (ceil8 c); lia|]. split; [easy|].
  now apply slice_wf.
Qed.
Lemma read_mpis_inv n : forall data o ms o', wf data -> 0 <= o <= zlen data -> read_mpis n data o = Ok (ms, o') ->
  exists encs, Forall2 readable_mpi ms encs /\ length ms = n /\ slice data o o' = concat encs /\ o <= o' <= zlen data.
Proof.
  induction n as [|n IH]; intros data o ms o' Hw Ho H; cbn [read_mpis] in H.
  - injection H as <- <-. exists []. split; [constructor|]. split; [easy|]. split; [now rewrite slice_nil by lia|lia].
  - apply bind_ok in H as ([i o1] & H1 & H). apply bind_ok in H as ([ms1 o2] & H2 & H). injection H as <- <-.
    destruct (mpi_inv data o i o1 Hw ltac:(lia) H1) as [Hr Hb]. apply IH in H2 as (encs & F & L & E & B); [|easy|lia].
    exists (slice data o o1 :: encs). split; [now constructor|]. split; [cbn; lia|]. split; [|lia]. cbn [concat].
    rewrite <- E. apply slice_cat; lia.
Qed.
Lemma rfc_readable i enc : rfc_mpi i enc -> readable_mpi i enc.
Proof. intros (l & b & -> & Hl & Hv & Hb & Hi & Hw). exists l, b. now rewrite Hv. Qed.
Lemma rfcs_readable ms encs : Forall2 rfc_mpi ms encs -> Forall2 readable_mpi ms encs.
Proof. induction 1; constructor; auto using rfc_readable. Qed.
Lemma app_inj_len {A} (a a' b b' : list A) : a ++ b = a' ++ b' -> zlen a = zlen a' -> a = a' /\ b = b'.
Proof.
  revert a'. induction a as [|x a IH]; intros [|y a'] E H; cbn [app] in E; rewrite ?zlen_cons, ?zlen_nil in H.
  - easy.
  - pose proof (zlen_nonneg a'). lia.
  - pose proof (zlen_nonneg a). lia.
  - injection E as -> E. destruct (IH a' E ltac:(lia)) as [-> ->]. easy.
Qed.
Lemma concat_mpi_inj ms : forall encs encs', Forall2 readable_mpi ms encs -> Forall2 readable_mpi ms encs' -> concat encs = concat encs' -> encs = encs'.
Proof.
  induction ms as [|i ms IH]; intros encs encs' H H' E; inversion H as [|? enc ? es Hr Hrs]; inversion H' as [|? enc' ? es' Hr' Hrs']; subst; [easy|].
  cbn [concat] in E. destruct Hr as (l & b & -> & Hl & Hb & _), Hr' as (l' & b' & -> & Hl' & Hb' & _).
  rewrite <- !app_assoc in E. apply app_inj_len in E as [-> E]; [|congruence]. apply app_inj_len in E as [-> E]; [|congruence].
  f_equal. now apply IH.
Qed.

(** ** public keys *)
Definition arity (alg : Z) : option nat :=
  if is_rsa_alg alg then Some 2%nat else if is_elg_alg alg then Some 3%nat else if alg =? 17 then Some 4%nat else None.
Lemma bind_assoc {A B C} (m : res A) (f : A -> res B) (g : B -> res C) : bind (bind m f) g = bind m (fun a => bind (f a) g).
Proof. now destruct m. Qed.
Definition pub_head (data : bytes) : res (Z * Z * option Z * Z * Z) :=
  do version <- get data 0;;
  do creation_time <- long_to_int data 1;;
  do (expiration_days, offset) <-
    (if is_v23 version then do e <- short_to_int data 5;; Ok (Some e, 7)
     else if 4 <=? version then Ok (None, 5) else Err ValueError);;
  do alg <- get data offset;; Ok (version, creation_time, expiration_days, alg, offset + 1).
Lemma pub_values_eq data : pub_values data =
  (do (v, ct, exp, alg, o) <- pub_head data;;
   match arity alg with
   | None => Err NotImplementedError
   | Some n => do (ms, o) <- read_mpis n data o;; match rfc_key v ct alg exp ms with Some k => Ok (o, k) | None => Err OutOfFuel end
   end).
Proof.
  unfold pub_values, pub_head. rewrite !bind_assoc. destruct (get data 0) as [v|e]; [|reflexivity]. cbn [bind].
  rewrite !bind_assoc. destruct (long_to_int data 1) as [ct|e]; [|reflexivity]. cbn [bind]. rewrite !bind_assoc.
  match goal with |- bind ?x _ = _ => destruct x as [[exp o]|e]; [|reflexivity] end. cbn [bind].
  rewrite !bind_assoc. destruct (get data o) as [alg|e]; [|reflexivity]. cbn [bind]. unfold arity, rfc_key.
  fold (is_rsa_alg alg). fold (is_elg_alg alg). destruct (is_rsa_alg alg) eqn:Er.
  - cbn [read_mpis]. rewrite !bind_assoc. destruct (mpi_to_int data (o + 1)) as [[n o1]|e]; [|reflexivity]. cbn [bind].
    rewrite !bind_assoc. destruct (mpi_to_int data o1) as [[x o2]|e]; reflexivity.
  - destruct (is_elg_alg alg) eqn:Ee.
    + cbn [read_mpis]. rewrite !bind_assoc. destruct (mpi_to_int data (o + 1)) as [[n o1]|e]; [|reflexivity]. cbn [bind].
      rewrite !bind_assoc. destruct (mpi_to_int data o1) as [[x o2]|e]; [|reflexivity]. cbn [bind].
      rewrite !bind_assoc. destruct (mpi_to_int data o2) as [[y o3]|e]; reflexivity.
    + destruct (alg =? 17) eqn:Ed; [|reflexivity].
      cbn [read_mpis]. rewrite !bind_assoc. destruct (mpi_to_int data (o + 1)) as [[n o1]|e]; [|reflexivity]. cbn [bind].
      rewrite !bind_assoc. destruct (mpi_to_int data o1) as [[x o2]|e]; [|reflexivity]. cbn [bind].
      rewrite !bind_assoc. destruct (mpi_to_int data o2) as [[y o3]|e]; [|reflexivity]. cbn [bind].
      rewrite !bind_assoc. destruct (mpi_to_int data o3) as [[z o4]|e]; reflexivity.
Qed.
Lemma rfc_key_arity v ct alg exp ms k : rfc_key v ct alg exp ms = Some k -> arity alg = Some (length ms).
Proof.
  unfold rfc_key, arity. fold (is_rsa_alg alg). fold (is_elg_alg alg). intros H.
  destruct ms as [|a [|b [|c [|d [|? ?]]]]]; try discriminate.
  - now destruct (is_rsa_alg alg).
  - destruct (is_elg_alg alg) eqn:E; [|discriminate]. unfold is_elg_alg, is_rsa_alg in *. replace ((alg =? 1) || (alg =? 2) || (alg =? 3)) with false by lia. reflexivity.
  - destruct (alg =? 17) eqn:E; [|discriminate]. unfold is_elg_alg, is_rsa_alg in *.
    replace ((alg =? 1) || (alg =? 2) || (alg =? 3)) with false by lia. replace ((alg =? 16) || (alg =? 20)) with false by lia. reflexivity.
Qed.
Lemma rfc_key_ok v ct alg exp ms : arity alg = Some (length ms) -> exists k, rfc_key v ct alg exp ms = Some k.
Proof.
  unfold rfc_key, arity. fold (is_rsa_alg alg). fold (is_elg_alg alg). intros H.
  destruct ms as [|a [|b [|c [|d [|? ?]]]]]; cbn [length] in H; destruct (is_rsa_alg alg), (is_elg_alg alg), (alg =? 17); try discriminate; eauto.
Qed.
Lemma rfc_key_alg v ct alg exp ms k : rfc_key v ct alg exp ms = Some k -> byte alg.
Proof.
  intros H. apply rfc_key_arity in H. unfold arity, is_rsa_alg, is_elg_alg in H. unfold byte. 
  destruct ((alg =? 1) || (alg =? 2) || (alg =? 3)) eqn:E1; [lia|]. destruct ((alg =? 16) || (alg =? 20)) eqn:E2; [lia|].
  destruct (alg =? 17) eqn:E3; [lia|discriminate].
Qed.
Definition hdr (v ct alg : Z) (exp : option Z) : bytes := [v] ++ be_bytes 4 ct ++ match exp with Some d => be_bytes 2 d | None => [] end ++ [alg].
Lemma body_hdr v ct alg exp encs : rfc_pub_body v ct alg exp encs = hdr v ct alg exp ++ concat encs.
Proof. unfold rfc_pub_body, hdr. now rewrite <- !app_assoc. Qed.
Lemma exp_version v exp : rfc_exp_ok v exp -> is_v23 v = match exp with Some _ => true | None => false end.
Proof. unfold is_v23. intros [[Hv (d & -> & _)]|[Hv ->]]; lia. Qed.
Lemma pub_head_ok v ct alg exp rest : 0 <= ct < 2 ^ 32 -> rfc_exp_ok v exp ->
  pub_head (hdr v ct alg exp ++ rest) = Ok (v, ct, exp, alg, zlen (hdr v ct alg exp)).
Proof.
  intros Hct He. unfold pub_head, hdr. rewrite <- !app_assoc. cbn [app] in *.
  change ((v :: be_bytes 4 ct ++ match exp with Some d => be_bytes 2 d | None => [] end ++ alg :: rest))
    with ([v] ++ be_bytes 4 ct ++ match exp with Some d => be_bytes 2 d | None => [] end ++ alg :: rest).
  set (tail := match exp with Some d => be_bytes 2 d | None => [] end ++ alg :: rest).
  replace (get ([v] ++ be_bytes 4 ct ++ tail) 0) with (@Ok Z v) by (symmetry; apply get_cons_0). cbn [bind].
  unfold long_to_int. change 1 with (zlen [v]) at 1. rewrite bytes_to_int_spec by reflexivity. cbn [bind]. rewrite be_bytes_val.
  change (256 ^ Z.of_nat 4) with (2 ^ 32). rewrite Z.mod_small by lia. rewrite (exp_version _ _ He). subst tail.
  destruct He as [[Hv (d & -> & Hd)]|[Hv ->]].
  - unfold short_to_int.
    assert (Hs : bytes_to_int ([v] ++ be_bytes 4 ct ++ be_bytes 2 d ++ alg :: rest) 5 2 = Ok d).
    { replace ([v] ++ be_bytes 4 ct ++ be_bytes 2 d ++ alg :: rest) with (([v] ++ be_bytes 4 ct) ++ be_bytes 2 d ++ alg :: rest) by now rewrite <- !app_assoc.
      change 5 with (zlen ([v] ++ be_bytes 4 ct)). rewrite bytes_to_int_spec by reflexivity. rewrite be_bytes_val.
      change (256 ^ Z.of_nat 2) with 65536. now rewrite Z.mod_small by lia. }
    rewrite Hs. cbn [bind].
    replace (get ([v] ++ be_bytes 4 ct ++ be_bytes 2 d ++ alg :: rest) 7) with (@Ok Z alg).
    2:{ symmetry. replace ([v] ++ be_bytes 4 ct ++ be_bytes 2 d ++ alg :: rest) with (([v] ++ be_bytes 4 ct ++ be_bytes 2 d) ++ alg :: rest) by now rewrite <- !app_assoc.
        apply get_at. reflexivity. }
    reflexivity.
  - replace (4 <=? v) with true by lia. cbn [bind]. 
    replace (get ([v] ++ be_bytes 4 ct ++ [] ++ alg :: rest) 5) with (@Ok Z alg).
    2:{ symmetry. replace ([v] ++ be_bytes 4 ct ++ [] ++ alg :: rest) with (([v] ++ be_bytes 4 ct) ++ alg :: rest) by now rewrite <- !app_assoc.
        apply get_at. reflexivity. }
    reflexivity.
Qed.
Lemma pub_parse v ct alg exp ms encs k rest : 0 <= ct < 2 ^ 32 -> rfc_exp_ok v exp -> rfc_key v ct alg exp ms = Some k -> Forall2 readable_mpi ms encs ->
  pub_values (rfc_pub_body v ct alg exp encs ++ rest) = Ok (zlen (rfc_pub_body v ct alg exp encs), k).
Proof.
  intros Hct He Hk Hm. rewrite pub_values_eq, !body_hdr, <- app_assoc, pub_head_ok by easy. cbn [bind]. rewrite (rfc_key_arity _ _ _ _ _ _ Hk).
  rewrite read_mpis_ok by easy. cbn [bind]. now rewrite Hk.
Qed.
Lemma slice_be data i n : wf data -> 0 <= i -> i + Z.of_nat n <= zlen data -> slice data i (i + Z.of_nat n) = be_bytes n (be_val (slice data i (i + Z.of_nat n))).
Proof.
  intros Hw Hi Hl. symmetry. pose proof (be_bytes_be_val (slice data i (i + Z.of_nat n)) (slice_wf _ _ _ Hw)) as H.
  replace (length (slice data i (i + Z.of_nat n))) with n in H; [exact H|]. pose proof (slice_len data i (i + Z.of_nat n)) as L. unfold zlen in *. lia.
Qed.
Lemma pub_head_inv data v ct exp alg o : wf data -> pub_head data = Ok (v, ct, exp, alg, o) ->
  slice data 0 o = hdr v ct alg exp /\ o = zlen (hdr v ct alg exp) /\ o <= zlen data /\ rfc_exp_ok v exp /\ 0 <= ct < 2 ^ 32 /\ byte alg.
Proof.
  intros Hw H. unfold pub_head in H. apply bind_ok in H as (v' & Hv & H). apply bind_ok in H as (ct' & Hct & H).
  apply bind_ok in H as ([exp' o'] & He & H). apply bind_ok in H as (alg' & Ha & H). injection H as -> -> -> -> <-.
  apply bytes_to_int_slice in Hct as [Ec Bc]; [|lia..]. specialize (Bc ltac:(lia)).
  assert (Hb : byte v) by (eapply get_byte; eauto). assert (Hba : byte alg) by (eapply get_byte; eauto).
  pose proof (slice_be data 1 4 Hw ltac:(lia) ltac:(lia)) as S4. change (1 + Z.of_nat 4) with 5 in S4. change (1 + 4) with 5 in Ec. rewrite <- Ec in S4.
  assert (Hct : 0 <= ct < 2 ^ 32).
  { rewrite Ec. pose proof (be_val_nonneg (slice data 1 5) (slice_wf _ _ _ Hw)) as P. rewrite (slice_len data 1 5) in P by lia. replace (Z.max 0 (Z.min 5 (zlen data) - 1)) with 4 in P by lia. exact P. }
  assert (S0 : slice data 0 5 = [v] ++ be_bytes 4 ct).
  { rewrite (slice_cons_get data 0 5 v) by (exact Hv || lia). change (0 + 1) with 1. rewrite S4. reflexivity. }
  destruct (is_v23 v) eqn:E23.
  - apply bind_ok in He as (d & Hd & He). injection He as <- <-.
    apply bytes_to_int_slice in Hd as [Ed Bd]; [|lia..]. specialize (Bd ltac:(lia)).
    pose proof (slice_be data 5 2 Hw ltac:(lia) ltac:(lia)) as S2. change (5 + Z.of_nat 2) with 7 in S2. change (5 + 2) with 7 in Ed. rewrite <- Ed in S2.
    assert (Hd2 : 0 <= d < 65536).
    { rewrite Ed. pose proof (be_val_nonneg (slice data 5 7) (slice_wf _ _ _ Hw)) as P. rewrite (slice_len data 5 7) in P by lia. replace (Z.max 0 (Z.min 7 (zlen data) - 5)) with 2 in P by lia. exact P. }
    pose proof (get_ok_lt data 7 alg ltac:(lia) Ha). change (7 + 1) with 8.
    split; [|split; [unfold hdr; rewrite !zlen_app, !be_bytes_len; reflexivity|split; [lia|split; [left; unfold is_v23 in E23; split; [lia|exists d; split; [reflexivity|exact Hd2]]|split; assumption]]]].
    unfold hdr. rewrite (slice_cat data 0 5 8), (slice_cat data 5 7 8) by lia. change 8 with (7 + 1). rewrite (slice_one data 7 alg) by (exact Ha || lia).
    rewrite S0, S2. now rewrite <- !app_assoc.
  - destruct (4 <=? v) eqn:E4; [|discriminate]. injection He as <- <-. pose proof (get_ok_lt data 5 alg ltac:(lia) Ha). change (5 + 1) with 6.
    split; [|split; [unfold hdr; rewrite !zlen_app, !be_bytes_len; reflexivity|split; [lia|split; [right; unfold byte in Hb; split; [lia|reflexivity]|split; assumption]]]].
    unfold hdr. rewrite (slice_cat data 0 5 6) by lia. change 6 with (5 + 1). rewrite (slice_one data 5 alg) by (exact Ha || lia).
    rewrite S0. now rewrite <- !app_assoc.
Qed.
Lemma pub_inv data o k : wf data -> pub_values data = Ok (o, k) -> exists v ct alg exp ms encs rest,
  data = rfc_pub_body v ct alg exp encs ++ rest /\ o = zlen (rfc_pub_body v ct alg exp encs) /\ rfc_key v ct alg exp ms = Some k /\ Forall2 readable_mpi ms encs /\ rfc_exp_ok v exp /\ 0 <= ct < 2 ^ 32.
Proof.
  intros Hw H. rewrite pub_values_eq in H. apply bind_ok in H as ([[[[v ct] exp] alg] o1] & H1 & H).
  destruct (pub_head_inv _ _ _ _ _ _ Hw H1) as (S1 & L1 & B1 & E1 & C1 & A1).
  destruct (arity alg) as [n|] eqn:Ea; [|discriminate]. apply bind_ok in H as ([ms o2] & H2 & H). pose proof (zlen_nonneg (hdr v ct alg exp)).
  apply read_mpis_inv in H2 as (encs & F & L & S2 & B2); [|easy|lia].
  destruct (rfc_key v ct alg exp ms) as [k'|] eqn:Ek; [|discriminate]. injection H as <- <-.
  exists v, ct, alg, exp, ms, encs, (slice data o2 (zlen data)). rewrite body_hdr, <- S1, <- S2.
  split; [|split; [|easy]].
  - rewrite <- (slice_cat data 0 o1 o2), <- (slice_cat data 0 o2 (zlen data)), slice_full by lia. reflexivity.
  - rewrite <- (slice_cat data 0 o1 o2), slice_len by lia. lia.
Qed.
Lemma opt_mpi_ok fl i : 0 <= i -> bit_length i <= 65535 -> (0 < i -> fl i = Z.log2 i) -> exists enc, int_to_mpi fl i = Ok enc /\ rfc_mpi i enc.
Proof.
  intros Hi Hb Hf. destruct (int_to_mpi fl i) as [enc|e] eqn:E.
  - exists enc. split; [easy|]. now apply (c03_canonical fl).
  - unfold int_to_mpi in E. destruct (i <? 0) eqn:?; [lia|]. destruct (i =? 0); discriminate.
Qed.
Lemma pub_write fl v ct alg exp ms k : 0 <= ct < 2 ^ 32 -> rfc_exp_ok v exp -> rfc_key v ct alg exp ms = Some k ->
  Forall (fun i => 0 <= i /\ bit_length i <= 65535 /\ (0 < i -> fl i = Z.log2 i)) ms ->
  exists encs, Forall2 rfc_mpi ms encs /\ pub_content fl k = Ok (rfc_pub_body v ct alg exp encs).
Proof.
  intros Hct He Hk Hm. pose proof (rfc_key_arity _ _ _ _ _ _ Hk) as Ha. pose proof (rfc_key_alg _ _ _ _ _ _ Hk) as Hb.
  assert (Hvb : byte v) by (unfold byte; destruct He as [[? _]|[? _]]; lia).
  unfold rfc_key in Hk. unfold pub_content, rfc_pub_body. unfold arity in Ha. 
  pose proof (exp_version _ _ He) as Hx.
  assert (Hexp : exists x, (if is_v23 v then match exp with Some e => Ok (int_to_2byte e) | None => Err TypeError end else Ok []) = Ok x /\ x = match exp with Some d => be_bytes 2 d | None => [] end).
  { rewrite Hx. destruct exp as [d|]; eexists; (split; [reflexivity|]); [apply int_to_2byte_be|reflexivity]. }
  destruct Hexp as (x & Ex & ->).
  assert (Hmk : forall i, byte i -> mk_bytes [i] = Ok [i]) by (intros i Hi; apply mk_bytes_wf, wf_cons; split; [easy|constructor]).
  fold (is_rsa_alg alg) in Hk. fold (is_elg_alg alg) in Hk.
  destruct ms as [|a [|b [|c [|d [|? ?]]]]]; try discriminate; cbn [length] in Ha.
  - destruct (is_rsa_alg alg) eqn:E1; [|discriminate]. injection Hk as <-. cbn [k_version k_alg k_exp k_ctime k_n k_e opt_mpi].
    rewrite Ex, !Hmk, E1 by easy. cbn [bind].
    inversion Hm as [|? ? (A1 & A2 & A3) Hm1]; subst. inversion Hm1 as [|? ? (B1 & B2 & B3) _]; subst.
    destruct (opt_mpi_ok fl a A1 A2 A3) as (ea & Ea & Ra), (opt_mpi_ok fl b B1 B2 B3) as (eb & Eb & Rb).
    exists [ea; eb]. split; [repeat constructor; easy|]. rewrite Ea, Eb. cbn [bind concat]. rewrite int_to_4byte_be, <- !app_assoc, app_nil_r. reflexivity.
  - destruct (is_elg_alg alg) eqn:E2; [|discriminate]. injection Hk as <-. cbn [k_version k_alg k_exp k_ctime k_p k_g k_y opt_mpi].
    rewrite Ex, !Hmk by easy. cbn [bind]. destruct (is_rsa_alg alg); [discriminate|]. rewrite E2.
    inversion Hm as [|? ? (A1 & A2 & A3) Hm1]; subst. inversion Hm1 as [|? ? (B1 & B2 & B3) Hm2]; subst. inversion Hm2 as [|? ? (C1 & C2 & C3) _]; subst.
    destruct (opt_mpi_ok fl a A1 A2 A3) as (ea & Ea & Ra), (opt_mpi_ok fl b B1 B2 B3) as (eb & Eb & Rb), (opt_mpi_ok fl c C1 C2 C3) as (ec & Ec & Rc).
    exists [ea; eb; ec]. split; [repeat constructor; easy|]. rewrite Ea, Eb, Ec. cbn [bind concat]. rewrite int_to_4byte_be, <- !app_assoc, app_nil_r. reflexivity.
  - destruct (alg =? 17) eqn:E3; [|discriminate]. injection Hk as <-. cbn [k_version k_alg k_exp k_ctime k_p k_q k_g k_y opt_mpi].
    rewrite Ex, !Hmk by easy. cbn [bind]. destruct (is_rsa_alg alg); [discriminate|]. destruct (is_elg_alg alg); [discriminate|]. rewrite E3.
    inversion Hm as [|? ? (A1 & A2 & A3) Hm1]; subst. inversion Hm1 as [|? ? (B1 & B2 & B3) Hm2]; subst. inversion Hm2 as [|? ? (C1 & C2 & C3) Hm3]; subst. inversion Hm3 as [|? ? (D1 & D2 & D3) _]; subst.
    destruct (opt_mpi_ok fl a A1 A2 A3) as (ea & Ea & Ra), (opt_mpi_ok fl b B1 B2 B3) as (eb & Eb & Rb), (opt_mpi_ok fl c C1 C2 C3) as (ec & Ec & Rc), (opt_mpi_ok fl d D1 D2 D3) as (ed & Ed & Rd).
    exists [ea; eb; ec; ed]. split; [repeat constructor; easy|]. rewrite Ea, Eb, Ec, Ed. cbn [bind concat]. rewrite int_to_4byte_be, <- !app_assoc, app_nil_r. reflexivity.
Qed.
Lemma ok_inj {A} (a b : A) : Ok a = Ok b -> a = b. Proof. now intros [= ->]. Qed.
Lemma pub_again fl v ct alg exp ms encs k rest data : 0 <= ct < 2 ^ 32 -> rfc_exp_ok v exp -> rfc_key v ct alg exp ms = Some k ->
  Forall2 readable_mpi ms encs -> Forall (fun i => bit_length i <= 65535 /\ (0 < i -> fl i = Z.log2 i)) ms ->
  data = rfc_pub_body v ct alg exp encs ++ rest ->
  pub_from_content data = Ok k /\ (pub_content fl k = Ok data <-> Forall2 rfc_mpi ms encs /\ rest = []).
Proof.
  intros Hct He Hk Hr Hm ->. split.
  - unfold pub_from_content. now rewrite (pub_parse v ct alg exp ms encs k rest) by easy.
  - assert (Hm' : Forall (fun i => 0 <= i /\ bit_length i <= 65535 /\ (0 < i -> fl i = Z.log2 i)) ms).
    { clear Hk. induction Hr as [|i enc ms encs (l & b & -> & _ & _ & <- & Hw) Hr IH]; [constructor|]. inversion Hm as [|? ? [? ?] ?]; subst.
      apply wf_app in Hw as [_ Hw]. pose proof (be_val_nonneg b Hw). constructor; [|auto]. split; [lia|easy]. }
    destruct (pub_write fl v ct alg exp ms k Hct He Hk Hm') as (encs' & F & W). split.
    + intros E. rewrite W in E. apply ok_inj in E.
      pose proof (pub_parse v ct alg exp ms encs k rest Hct He Hk Hr) as P. rewrite <- E in P.
      pose proof (pub_parse v ct alg exp ms encs' k [] Hct He Hk (rfcs_readable _ _ F)) as P'. rewrite app_nil_r in P'. rewrite P' in P. apply ok_inj in P. apply (f_equal fst) in P. cbn [fst] in P.
      rewrite !body_hdr in *. rewrite <- app_assoc in E. apply app_inv_head in E.
      assert (Hrest : rest = []). { apply zlen_0. apply (f_equal zlen) in E. rewrite zlen_app in E. rewrite !zlen_app in P. pose proof (zlen_nonneg rest). lia. }
      split; [|easy]. rewrite Hrest, app_nil_r in E. rewrite (concat_mpi_inj ms encs encs'); auto using rfcs_readable.
    + intros [F' ->]. rewrite W, app_nil_r. do 2 f_equal. clear - F F'. revert encs F'. induction F as [|i e ms es Hi F IH]; intros encs F'; inversion F' as [|? e' ? es' Hi' F1]; subst; [easy|].
      f_equal; [now apply (rfc_mpi_unique i)|now apply IH].
Qed.
Lemma pub_unknown_alg v ct alg exp rest : 0 <= ct < 2 ^ 32 -> rfc_exp_ok v exp -> ~ In alg [1; 2; 3; 16; 17; 20] ->
  pub_values (hdr v ct alg exp ++ rest) = Err NotImplementedError.
Proof.
  intros Hct He Hn. rewrite pub_values_eq, pub_head_ok by easy. cbn [bind]. unfold arity, is_rsa_alg, is_elg_alg. cbn [In] in Hn.
  replace ((alg =? 1) || (alg =? 2) || (alg =? 3)) with false by lia. replace ((alg =? 16) || (alg =? 20)) with false by lia.
  now replace (alg =? 17) with false by lia.
Qed.
Lemma pub_old_version v t : v < 2 -> 4 <= zlen t -> pub_values (v :: t) = Err ValueError.
Proof.
  intros Hv Ht. unfold pub_values. rewrite get_cons_0. cbn [bind]. unfold long_to_int. rewrite bytes_to_int_exact by lia. rewrite zlen_cons.
  replace (1 + 4 <=? 1 + zlen t) with true by lia. cbn [bind]. unfold is_v23. replace ((v =? 2) || (v =? 3)) with false by lia. now replace (4 <=? v) with false by lia.
Qed.

(** ** secret key packets *)
Lemma bl_nonneg sym bl : symmetric_cipher_block_lengths sym = Some bl -> 0 <= bl /\ (sym = 0 -> bl = 0).
Proof.
  unfold symmetric_cipher_block_lengths. destruct (sym =? 0) eqn:?; [intros [= <-]; lia|]. destruct (_ && _); [intros [= <-]; lia|].
  destruct (_ && _); [intros [= <-]; lia|discriminate].
Qed.
Lemma sec_unencrypted data o k u : pub_values data = Ok (o, k) -> get data o = Ok u -> u = 0 \/ u = 101 -> sec_from_content data = Err UnboundLocalError.
Proof. intros H Hu [-> | ->]; unfold sec_from_content; rewrite H; cbn [bind]; rewrite Hu; reflexivity. Qed.
Lemma sec_plain_sym data o k u : pub_values data = Ok (o, k) -> get data o = Ok u -> ~ In u [0; 101; 254; 255] -> sec_from_content data = Err ValueError.
Proof.
  intros H Hu Hn. unfold sec_from_content. rewrite H. cbn [bind]. rewrite Hu. cbn [bind In] in *.
  replace (u =? 0) with false by lia. replace (u =? 101) with false by lia. replace ((u =? 254) || (u =? 255)) with false by lia. cbn [bind orb].
  destruct (symmetric_cipher_block_lengths u); reflexivity.
Qed.
(** the parts of an encrypted secret key body: public part, usage, cipher, specifier, IV and the rest *)
Lemma sec_parse fl v ct alg exp ms encs k u s iv bl enc : exact_log fl -> 0 <= ct < 2 ^ 32 -> rfc_exp_ok v exp -> rfc_key v ct alg exp ms = Some k -> Forall2 readable_mpi ms encs ->
  u = 254 \/ u = 255 -> s2k_ok s -> symmetric_cipher_block_lengths (s2k_sym s) = Some bl -> zlen iv = bl ->
  exists sb, s2k_bytes fl s = Ok sb /\ wf sb /\
  sec_from_content (rfc_pub_body v ct alg exp encs ++ [u; s2k_sym s] ++ sb ++ iv ++ enc) = Ok (SecKey k (Some s) (s2k_sym s) iv enc (u =? 255) (u =? 254)).
Proof.
  intros Hfl Hct He Hk Hr Hu Hs Hb Hiv. set (B := rfc_pub_body v ct alg exp encs).
  destruct (c21_round fl s (B ++ [u; s2k_sym s]) (iv ++ enc) Hfl Hs) as (sb & E1 & W & E2). exists sb. split; [easy|]. split; [easy|].
  unfold sec_from_content. pose proof (pub_parse v ct alg exp ms encs k ([u; s2k_sym s] ++ sb ++ iv ++ enc) Hct He Hk Hr) as P. fold B in P. rewrite P. cbn [bind app].
  rewrite get_app_0. cbn [bind]. replace (u =? 0) with false by lia. replace ((u =? 254) || (u =? 255)) with true by lia. replace (u =? 101) with false by lia.
  replace (get (B ++ u :: s2k_sym s :: sb ++ iv ++ enc) (zlen B + 1)) with (@Ok Z (s2k_sym s)).
  2:{ symmetry. replace (B ++ u :: s2k_sym s :: sb ++ iv ++ enc) with ((B ++ [u]) ++ s2k_sym s :: sb ++ iv ++ enc) by now rewrite <- app_assoc. apply get_at. rewrite zlen_app. reflexivity. }
  cbn [bind]. replace (B ++ u :: s2k_sym s :: sb ++ iv ++ enc) with ((B ++ [u; s2k_sym s]) ++ sb ++ iv ++ enc) by now rewrite <- app_assoc.
  replace (zlen B + 1 + 1) with (zlen (B ++ [u; s2k_sym s])) by (rewrite zlen_app; change (zlen [u; s2k_sym s]) with 2; lia). rewrite E2. cbn [bind orb]. rewrite Hb. cbv zeta.
  replace ((B ++ [u; s2k_sym s]) ++ sb ++ iv ++ enc) with (((B ++ [u; s2k_sym s]) ++ sb) ++ iv ++ enc) by now rewrite <- !app_assoc.
  rewrite (slice_app' _ iv enc) by lia. rewrite app_assoc. replace (zlen ((B ++ [u; s2k_sym s]) ++ sb) + bl) with (zlen (((B ++ [u; s2k_sym s]) ++ sb) ++ iv)) by (rewrite (zlen_app _ iv); lia).
  rewrite slice_from_app. reflexivity.
Qed.
Lemma sec_write fl v ct alg exp ms k u s iv bl enc sb rec : 0 <= ct < 2 ^ 32 -> rfc_exp_ok v exp -> rfc_key v ct alg exp ms = Some k ->
  Forall (fun i => 0 <= i /\ bit_length i <= 65535 /\ (0 < i -> fl i = Z.log2 i)) ms ->
  u = 254 \/ u = 255 -> byte (s2k_sym s) -> s2k_bytes fl s = Ok sb -> symmetric_cipher_block_lengths (s2k_sym s) = Some bl -> zlen iv = bl -> enc <> [] ->
  exists encs, Forall2 rfc_mpi ms encs /\
  sec_content fl rec (SecKey k (Some s) (s2k_sym s) iv enc (u =? 255) (u =? 254)) = Ok (rfc_pub_body v ct alg exp encs ++ [u; s2k_sym s] ++ sb ++ iv ++ enc).
Proof.
  intros Hct He Hk Hm Hu Hs Hsb Hb Hiv Hne. destruct (pub_write fl v ct alg exp ms k Hct He Hk Hm) as (encs & F & W). exists encs. split; [easy|].
  unfold sec_content. cbn [s_pub s_s2k s_sym s_iv s_enc s_checksum]. rewrite W, Hsb. cbn [bind]. rewrite mk_bytes_wf by (repeat constructor; apply Hs). cbn [bind].
  destruct enc as [|e0 enc]; [easy|]. cbn [bind]. f_equal. f_equal. cbn [app].
  replace (if u =? 255 then 255 else 254) with u by (destruct Hu as [-> | ->]; reflexivity). do 2 f_equal. f_equal.
  destruct (s2k_sym s =? 0) eqn:E0; [|reflexivity]. destruct (bl_nonneg _ _ Hb) as [_ Hz]. rewrite Hz in Hiv by lia. apply zlen_0 in Hiv. now rewrite Hiv.
Qed.

(** ** secret values *)
Lemma read_values_ok ms encs : Forall2 readable_mpi ms encs -> forall pre suf acc fuel, (length ms < fuel)%nat ->
  read_values fuel (pre ++ concat encs ++ suf) (zlen pre) (zlen (pre ++ concat encs)) acc = Ok (acc ++ ms).
Proof.
  induction 1 as [|i enc ms encs Hi H IH]; intros pre suf acc fuel Hf; cbn [length concat] in *.
  - rewrite app_nil_r. destruct fuel; [lia|]. cbn [read_values]. rewrite Z.ltb_irrefl, app_nil_r. reflexivity.
  - destruct fuel as [|fuel]; [lia|]. cbn [read_values].
    assert (0 < zlen enc) by (destruct Hi as (l & b & -> & Hl & _); rewrite zlen_app; pose proof (zlen_nonneg b); lia).
    replace (zlen pre <? zlen (pre ++ enc ++ concat encs)) with true by (rewrite !zlen_app; pose proof (zlen_nonneg (concat encs)); lia).
    rewrite <- app_assoc, (mpi_at i enc pre (concat encs ++ suf) (zlen pre) Hi eq_refl). cbn [bind].
    rewrite (app_assoc pre enc (concat encs ++ suf)), (app_assoc pre enc (concat encs)), IH by lia. now rewrite <- app_assoc.
Qed.
Lemma dec_setup E sym k bs iv ct : symmetric_cipher_block_lengths sym = Some bs -> sym <> 0 -> In (zlen k) (cipher_key_sizes sym) -> zlen iv = bs -> wf iv ->
  good_block (E sym k) bs -> wf ct -> 0 < bs /\ exists o r o', get_cfb_cipher sym (Some k) iv = Ok o /\
    sym_decrypt E sym k o (ct ++ repeat 0 (Z.to_nat (bs - zlen ct mod bs))) = Ok (r, o') /\ slice r 0 (- (bs - zlen ct mod bs)) = rfc_cfb_dec (E sym k) (Z.to_nat bs) iv ct.
Proof.
  intros Hb H0 Hk Hiv Wiv HE Wct. destruct (sym_new_ok sym k iv bs Hb H0 Hk Hiv) as (o & Ho).
  destruct (get_cfb_inv _ _ _ _ Ho) as (k' & bs' & [= <-] & Hb' & _ & Hbs & _). rewrite Hb in Hb'. injection Hb' as <-. split; [easy|].
  destruct (pad_mod (zlen ct) bs Hbs) as [P1 P2].
  destruct (padded_decrypt E sym k o iv bs ct (bs - zlen ct mod bs) Ho Hb HE Wiv Wct P1 P2) as (r & o' & R1 & R2). eauto 6.
Qed.
Lemma dec_checksum E sha1 sym k bs iv ct h : symmetric_cipher_block_lengths sym = Some bs -> sym <> 0 -> In (zlen k) (cipher_key_sizes sym) -> zlen iv = bs -> wf iv ->
  good_block (E sym k) bs -> wf ct -> decrypt_portion_v4 E sha1 (Some k) sym iv ct true h = Err TypeError.
Proof.
  intros Hb H0 Hk Hiv Wiv HE Wct. destruct (dec_setup E sym k bs iv ct Hb H0 Hk Hiv Wiv HE Wct) as (Hbs & o & r & o' & H1 & H2 & H3).
  unfold decrypt_portion_v4. rewrite Hb, H1. cbn [bind]. cbv zeta. rewrite H2. reflexivity.
Qed.
Lemma slice_last20 (m h : bytes) : zlen h = 20 -> slice_from (m ++ h) (-20) = h /\ slice (m ++ h) 0 (-20) = m.
Proof.
  intros Hh. split; [apply (slice_from_last m h 20); lia|]. change (slice (m ++ h) 0 (-20)) with (slice (m ++ h) 0 (Z.opp 20)). rewrite (slice_drop_last (m ++ h) 20) by (rewrite zlen_app; pose proof (zlen_nonneg m); lia).
  rewrite zlen_app, Hh. replace (zlen m + 20 - 20) with (zlen m) by lia. rewrite to_nat_zlen, firstn_app, Nat.sub_diag, firstn_all. cbn [firstn]. now rewrite app_nil_r.
Qed.
Lemma dec_hash E sha1 sym k bs iv ct : symmetric_cipher_block_lengths sym = Some bs -> sym <> 0 -> In (zlen k) (cipher_key_sizes sym) -> zlen iv = bs -> wf iv ->
  good_block (E sym k) bs -> wf ct ->
  decrypt_portion_v4 E sha1 (Some k) sym iv ct false true =
    let d := rfc_cfb_dec (E sym k) (Z.to_nat bs) iv ct in
    if negb (zlist_eqb (slice_from d (-20)) (sha1 (slice d 0 (-20)))) then Err ValueError else read_values (S (length d)) d 0 (zlen d - 20) [].
Proof.
  intros Hb H0 Hk Hiv Wiv HE Wct. destruct (dec_setup E sym k bs iv ct Hb H0 Hk Hiv Wiv HE Wct) as (Hbs & o & r & o' & H1 & H2 & H3).
  unfold decrypt_portion_v4. rewrite Hb, H1. cbn [bind]. cbv zeta. rewrite H2. cbn [bind]. rewrite H3. reflexivity.
Qed.
Lemma short20 (d : bytes) : zlen d < 20 -> slice_from d (-20) = d /\ slice d 0 (-20) = [].
Proof.
  intros H. pose proof (zlen_nonneg d). unfold slice_from, slice, clip. change (-20 <? 0) with true. cbv iota. replace (Z.max 0 (-20 + zlen d)) with 0 by lia.
  replace (Z.max 0 (-20 + zlen d)) with 0 by lia. split; [reflexivity|]. replace (0 - (if 0 <? 0 then Z.max 0 (0 + zlen d) else Z.min 0 (zlen d))) with 0 by (replace (0 <? 0) with false by reflexivity; lia). reflexivity.
Qed.
Lemma c27_accept E sha1 sym k bs iv ct vs : symmetric_cipher_block_lengths sym = Some bs -> sym <> 0 -> In (zlen k) (cipher_key_sizes sym) -> zlen iv = bs -> wf iv ->
  good_block (E sym k) bs -> wf ct -> (forall d, zlen (sha1 d) = 20) ->
  decrypt_portion_v4 E sha1 (Some k) sym iv ct false true = Ok vs -> exists m, rfc_cfb_dec (E sym k) (Z.to_nat bs) iv ct = m ++ sha1 m.
Proof.
  intros Hb H0 Hk Hiv Wiv HE Wct Hs H. rewrite (dec_hash E sha1 sym k bs iv ct) in H by easy. cbv zeta in H. set (d := rfc_cfb_dec _ _ _ _) in *.
  destruct (zlist_eqb _ _) eqn:Eq in H; [|discriminate]. apply zlist_eqb_spec in Eq.
  destruct (Z.le_gt_cases 20 (zlen d)) as [Hl|Hl].
  - destruct (split_at d (zlen d - 20) 20) as (p & m & s & Ed & Lp & Lm); [lia..|]. rewrite Ed in Eq, Lp.
    assert (s = []) by (apply zlen_0; apply (f_equal zlen) in Ed; rewrite !zlen_app in Ed; rewrite !zlen_app in Lp; lia). subst s. rewrite app_nil_r in *.
    destruct (slice_last20 p m Lm) as [A B]. rewrite A, B in Eq. exists p. rewrite Ed. congruence.
  - destruct (short20 d Hl) as [A B]. rewrite A, B in Eq. rewrite Eq, Hs in Hl. lia.
Qed.
Lemma c27_reject E sha1 sym k bs iv m h : symmetric_cipher_block_lengths sym = Some bs -> sym <> 0 -> In (zlen k) (cipher_key_sizes sym) -> zlen iv = bs -> wf iv ->
  good_block (E sym k) bs -> wf (m ++ h) -> zlen h = 20 -> h <> sha1 m ->
  decrypt_portion_v4 E sha1 (Some k) sym iv (rfc_cfb_enc (E sym k) (Z.to_nat bs) iv (m ++ h)) false true = Err ValueError.
Proof.
  intros Hb H0 Hk Hiv Wiv HE W Hh Hne.
  assert (Hbs : 0 < bs). { destruct (dec_setup E sym k bs iv [] Hb H0 Hk Hiv Wiv HE ltac:(constructor)) as [? _]. easy. }
  destruct (rfc_cfb_len (E sym k) bs iv (m ++ h) Hbs HE Wiv Hiv W) as [_ WC].
  rewrite (dec_hash E sha1 sym k bs iv) by easy. cbv zeta. rewrite rfc_cfb_inv by easy. destruct (slice_last20 m h Hh) as [-> ->].
  now rewrite zlist_eqb_neq.
Qed.
Lemma wf_concat_mpis ms encs : Forall2 readable_mpi ms encs -> wf (concat encs).
Proof. induction 1 as [|i e ms es (l & b & _ & _ & _ & _ & W) _ IH]; cbn [concat]; [constructor|]. apply wf_app. now split. Qed.
Lemma len_mpis ms encs : Forall2 readable_mpi ms encs -> (length ms <= length (concat encs))%nat.
Proof.
  induction 1 as [|i e ms es (l & b & -> & Hl & _) _ IH]; cbn [concat length]; [lia|]. rewrite !app_length. unfold zlen in Hl. lia.
Qed.
Lemma c27_values E sha1 sym k bs iv ms encs : symmetric_cipher_block_lengths sym = Some bs -> sym <> 0 -> In (zlen k) (cipher_key_sizes sym) -> zlen iv = bs -> wf iv ->
  good_block (E sym k) bs -> (forall d, zlen (sha1 d) = 20 /\ wf (sha1 d)) -> Forall2 readable_mpi ms encs ->
  decrypt_portion_v4 E sha1 (Some k) sym iv (rfc_cfb_enc (E sym k) (Z.to_nat bs) iv (concat encs ++ sha1 (concat encs))) false true = Ok ms.
Proof.
  intros Hb H0 Hk Hiv Wiv HE Hs Hm.
  assert (Hbs : 0 < bs). { destruct (dec_setup E sym k bs iv [] Hb H0 Hk Hiv Wiv HE ltac:(constructor)) as [? _]. easy. }
  assert (W : wf (concat encs ++ sha1 (concat encs))) by (apply wf_app; split; [now apply (wf_concat_mpis ms)|apply Hs]).
  destruct (rfc_cfb_len (E sym k) bs iv _ Hbs HE Wiv Hiv W) as [_ WC].
  rewrite (dec_hash E sha1 sym k bs iv) by easy. cbv zeta. rewrite rfc_cfb_inv by easy. destruct (slice_last20 (concat encs) (sha1 (concat encs)) (proj1 (Hs _))) as [-> ->].
  rewrite zlist_eqb_refl. cbn [negb]. rewrite zlen_app, (proj1 (Hs _)). replace (zlen (concat encs) + 20 - 20) with (zlen (concat encs)) by lia.
  pose proof (read_values_ok ms encs Hm [] (sha1 (concat encs)) []) as R. cbn [app] in R. change (zlen (@nil Z)) with 0 in R. apply R.
  rewrite app_length. pose proof (len_mpis ms encs Hm). lia.
Qed.
Lemma enc_two E ctr o c1 c2 outs o' : encrypt_calls E ctr o [c1; c2] = Ok (outs, o') ->
  exists r1 o1 r2, cipher_encrypt E ctr o c1 = Ok (r1, o1) /\ cipher_encrypt E ctr o1 c2 = Ok (r2, o') /\ outs = [r1; r2].
Proof.
  cbn [encrypt_calls]. intros H. apply bind_ok in H as ([r1 o1] & H1 & H). apply bind_ok in H as ([rs o2] & H2 & H). injection H as <- <-.
  apply bind_ok in H2 as ([r2 o3] & H2 & H). injection H as <- <-. eauto 6.
Qed.
Lemma cfb_whole E alg key o iv bs c : get_cfb_cipher alg (Some key) iv = Ok o -> symmetric_cipher_block_lengths alg = Some bs ->
  good_block (E alg key) bs -> wf iv -> wf c -> zlen c mod bs = 0 ->
  exists r o', sym_encrypt E alg key o c = Ok (r, o') /\ r = rfc_cfb_enc (E alg key) (Z.to_nat bs) iv c.
Proof.
  intros Hn Hb HE Hiv Hd Hmod. destruct (get_cfb_inv _ _ _ _ Hn) as (k & bs' & [= <-] & Hb' & H0 & Hbs & Hm & Hcb & Hseg & HIV & Hl & _).
  rewrite Hb in Hb'. injection Hb' as <-.
  destruct (cfb_calls_x (E alg key) (fun b => b) no_ctr o bs true [c] c []) as (outs & o' & H1 & H2 & H3); try easy; try congruence.
  - constructor; [|constructor]. now split.
  - destruct (enc_one _ _ _ _ _ _ H1) as (out & Ho & ->). exists out, o'. split; [exact Ho|].
    cbn [map] in H2. injection H2 as H2. cbn [concat] in H3. rewrite app_nil_r in H3. rewrite HIV in H3. rewrite firstn_all2 in H3 by (unfold zlen in H2; lia). exact H3.
Qed.
Lemma bs_8_16 sym bs : symmetric_cipher_block_lengths sym = Some bs -> sym <> 0 -> bs = 8 \/ bs = 16.
Proof.
  unfold symmetric_cipher_block_lengths. intros H H0. destruct (sym =? 0) eqn:?; [lia|]. destruct (_ && _) in H; [injection H as <-; lia|]. destruct (_ && _) in H; [injection H as <-; lia|discriminate].
Qed.
Lemma openpgp_new_ok E sym k bs iv : symmetric_cipher_block_lengths sym = Some bs -> sym <> 0 -> In (zlen k) (cipher_key_sizes sym) -> zlen iv = bs -> wf iv ->
  good_block (E sym k) bs -> exists p iv2, openpgp_new E sym (Some k) iv = Ok p /\ zlen (po_eiv p) = bs + 2 /\ po_first p = false /\ po_last p = false /\
    wf iv2 /\ get_cfb_cipher sym (Some k) iv2 = Ok (po_c p).
Proof.
  intros Hb H0 Hk Hiv Wiv HE. pose proof (bs_8_16 sym bs Hb H0) as H816.
  destruct (sym_new_ok sym k (repeat 0 (Z.to_nat bs)) bs Hb H0 Hk) as (o & Ho); [rewrite zlen_repeat; lia|].
  assert (L2 : zlen (slice_from iv (-2)) = 2). { unfold slice_from, clip. change (-2 <? 0) with true. cbv iota. unfold zlen in *. rewrite skipn_length. lia. }
  assert (W2 : wf (slice_from iv (-2))). { rewrite <- (firstn_skipn (Z.to_nat (clip (zlen iv) (-2))) iv) in Wiv. now apply wf_app in Wiv as [_ ?]. }
  set (c := iv ++ slice_from iv (-2) ++ repeat 0 (Z.to_nat (bs - 2))).
  assert (Wc : wf c) by (unfold c; rewrite !wf_app; repeat split; auto using wf_zeros).
  assert (Lc : zlen c = 2 * bs) by (unfold c; rewrite !zlen_app, zlen_repeat; lia).
  destruct (cfb_whole E sym k o (repeat 0 (Z.to_nat bs)) bs c Ho Hb HE (wf_zeros _) Wc) as (r & o' & R1 & R2); [rewrite Lc; apply Z.mod_mul; lia|].
  assert (Lz : zlen (repeat 0 (Z.to_nat bs)) = bs) by (rewrite zlen_repeat; lia).
  destruct (rfc_cfb_len (E sym k) bs (repeat 0 (Z.to_nat bs)) c ltac:(lia) HE (wf_zeros _) Lz Wc) as [Lr Wr]. rewrite <- R2 in Lr, Wr.
  assert (Le : zlen (slice r 0 (bs + 2)) = bs + 2) by (rewrite slice_len by lia; lia).
  assert (We : wf (slice r 0 (bs + 2))) by now apply slice_wf.
  set (eiv := slice r 0 (bs + 2)) in *.
  assert (Wi2 : wf (slice_from eiv (- bs))). { rewrite <- (firstn_skipn (Z.to_nat (clip (zlen eiv) (- bs))) eiv) in We. now apply wf_app in We as [_ ?]. }
  assert (Li2 : zlen (slice_from eiv (- bs)) = bs).
  { unfold slice_from, clip. replace (- bs <? 0) with true by lia. unfold zlen in *. rewrite skipn_length. lia. }
  destruct (sym_new_ok sym k (slice_from eiv (- bs)) bs Hb H0 Hk Li2) as (o2 & Ho2).
  exists (PgpObj eiv o2 false false), (slice_from eiv (- bs)). unfold openpgp_new. rewrite Hb, Ho. cbn [bind]. cbv zeta. rewrite Hiv, Z.eqb_refl. cbn [negb].
  fold c. rewrite R1. cbn [bind]. fold eiv. rewrite Ho2. cbn [bind po_eiv po_first po_last po_c]. easy.
Qed.
Lemma c27_lock fl E sha1 sym k bs iv values d : symmetric_cipher_block_lengths sym = Some bs -> sym <> 0 -> In (zlen k) (cipher_key_sizes sym) -> zlen iv = bs -> wf iv ->
  good_block (E sym k) bs -> (forall d, zlen (sha1 d) = 20 /\ wf (sha1 d)) -> key_values_data fl values = Ok d -> wf d ->
  if zlen d mod bs =? 0 then exists e, encrypt_key_values_v4 fl E sha1 values k sym iv false true = Ok e /\ zlen e = zlen d + 20 + (bs + 2)
  else encrypt_key_values_v4 fl E sha1 values k sym iv false true = Err ValueError.
Proof.
  intros Hb H0 Hk Hiv Wiv HE Hs Hd Wd. destruct (openpgp_new_ok E sym k bs iv Hb H0 Hk Hiv Wiv HE) as (p & iv2 & P1 & P2 & P3 & P4 & P5 & P6).
  pose proof (bs_8_16 sym bs Hb H0) as H816. unfold encrypt_key_values_v4. rewrite P1, Hd. cbn [bind].
  destruct (get_cfb_inv _ _ _ _ P6) as (k' & bs' & [= <-] & Hb' & _ & Hbs & Hm & Hcb & Hseg & HIV & Hl & _). rewrite Hb in Hb'. injection Hb' as <-.
  unfold openpgp_encrypt. rewrite Hb, P3, P4. cbv zeta. rewrite andb_false_r.
  pose proof (Z.mod_pos_bound (zlen d) bs Hbs) as Hmod. destruct (zlen d mod bs =? 0) eqn:Em.
  - replace (zlen d mod bs) with 0 by lia. rewrite Z.sub_0_r, Z_mod_same_full. cbn [Z.to_nat repeat]. rewrite app_nil_r.
    set (pad := (bs - zlen (sha1 d) mod bs) mod bs).
    assert (Hpad : 0 < pad /\ (20 + pad) mod bs = 0) by (unfold pad; rewrite (proj1 (Hs _)); destruct H816 as [-> | ->]; cbn; lia).
    set (c2 := sha1 d ++ repeat 0 (Z.to_nat pad)).
    assert (Wc2 : wf c2) by (apply wf_app; split; [apply Hs|apply wf_zeros]).
    assert (Lc2 : zlen c2 = 20 + pad) by (unfold c2; rewrite zlen_app, zlen_repeat, (proj1 (Hs _)); lia).
    destruct (cfb_calls_x (E sym k) (fun b => b) no_ctr (po_c p) bs true [d; c2] (d ++ c2) []) as (outs & o' & H1 & H2 & H3); try easy; try congruence.
    { repeat constructor; try easy; [lia|]. rewrite Lc2. apply Hpad. }
    { cbn [concat]. now rewrite <- app_assoc. }
    destruct (enc_two _ _ _ _ _ _ _ H1) as (r1 & o1 & r2 & A1 & A2 & ->). cbn [map] in H2. injection H2 as L1 L2.
    unfold sym_encrypt in *. rewrite A1. cbn [bind]. cbn [po_last po_first po_eiv po_c]. fold pad. replace (0 <? 0) with false by reflexivity. rewrite orb_false_r, andb_false_r.
    fold c2. rewrite A2. cbn [bind app]. eexists. split; [reflexivity|].
    rewrite !zlen_app, P2. pose proof (zlen_nonneg d). pose proof (zlen_nonneg r1). pose proof (zlen_nonneg r2). rewrite (slice_len r1 0 (zlen d)) by lia. rewrite (slice_len r2 0 (zlen (sha1 d))) by (pose proof (zlen_nonneg (sha1 d)); lia). rewrite L1, L2, Lc2, (proj1 (Hs _)). lia.
  - rewrite (Z.mod_small (bs - zlen d mod bs)) by lia. destruct (pad_mod (zlen d) bs Hbs) as [Q1 Q2].
    destruct (padded_encrypt E sym k (po_c p) iv2 bs d (bs - zlen d mod bs) P6 Hb HE P5 Wd Q1 Q2) as (r & o' & R1 & R2).
    rewrite R1. cbn [bind po_last po_first po_eiv po_c]. replace (0 <? bs - zlen d mod bs) with true by lia. rewrite orb_true_r, andb_true_r.
    rewrite (proj1 (Hs _)). replace (0 <? (bs - 20 mod bs) mod bs) with true by (destruct H816 as [-> | ->]; reflexivity). reflexivity.
Qed.
(** ** fingerprints *)
Lemma fp_v4 fl md5 sha1 v ct alg exp ms k : 0 <= ct < 2 ^ 32 -> rfc_exp_ok v exp -> 4 <= v -> rfc_key v ct alg exp ms = Some k ->
  Forall (fun i => 0 <= i /\ bit_length i <= 65535 /\ (0 < i -> fl i = Z.log2 i)) ms -> (forall d, wf (sha1 d)) ->
  exists encs, Forall2 rfc_mpi ms encs /\
    fingerprint fl md5 sha1 k = Ok (hex_text (sha1 ([153] ++ be_bytes 2 (zlen (rfc_pub_body v ct alg exp encs)) ++ rfc_pub_body v ct alg exp encs))).
Proof.
  intros Hct He Hv Hk Hm Hs. destruct (pub_write fl v ct alg exp ms k Hct He Hk Hm) as (encs & F & W). exists encs. split; [easy|].
  unfold fingerprint. assert (Ev : k_version k = v).
  { unfold rfc_key in Hk. destruct ms as [|a [|b [|c [|d [|? ?]]]]]; try discriminate.
    - destruct (_ || _) in Hk; [injection Hk as <-; reflexivity|discriminate].
    - destruct (_ || _) in Hk; [injection Hk as <-; reflexivity|discriminate].
    - destruct (_ =? _) in Hk; [injection Hk as <-; reflexivity|discriminate]. }
  rewrite Ev. replace (v <? 4) with false by lia. rewrite W. cbn [bind]. unfold hexdigest, hash_key. rewrite int_to_2byte_be. apply bytearray_to_hex_all, Hs.
Qed.
Lemma hash_key_inj a b : hash_key a = hash_key b -> a = b.
Proof. intros H. unfold hash_key in H. apply app_inj_len in H as [_ H]; [|reflexivity]. now apply app_inj_len in H as [_ H]. Qed.
Lemma last16 h : zlen h = 20 -> slice_from (hex_text h) (-16) = hex_text (slice_from h 12).
Proof.
  intros H. destruct (split_at h 12 8) as (p & m & s & -> & Lp & Lm); [lia..|]. rewrite !zlen_app in H. assert (s = []) by (apply zlen_0; lia). subst s. rewrite app_nil_r, hex_text_app.
  change (slice_from (hex_text p ++ hex_text m) (-16)) with (slice_from (hex_text p ++ hex_text m) (Z.opp 16)). rewrite (slice_from_last (hex_text p) (hex_text m) 16) by (rewrite ?hex_text_len; lia). rewrite <- Lp, slice_from_app. reflexivity.
Qed.
