(** C84 (dictionaries made from signature packets), C85 (images in user attributes), both of the packet-stream parser. *)
From Verif Require Import Base BaseProofs Utils Text Regex DumpSig DumpSigProofs SpecDumpSig DumpTells HexProofs Spec SpecFraming UtilsProofs FramingProofs.

(** what the caller is told is covered by the signature, 371-380 and 410-417 *)
Definition octet_types (p : dsig) : Prop := Forall (fun b => 0 <= b_type b) (g_subs p).
Definition same_header (p q : dsig) : Prop := g_version p = g_version q /\ g_type p = g_type q /\ g_hash p = g_hash q /\ g_pub p = g_pub q.

Lemma hex_len n : forall arr i r, to_hex_loop n arr i = Ok r -> zlen r = 2 * Z.of_nat n.
Proof.
  induction n as [|n IH]; intros arr i r H; cbn [to_hex_loop] in H; [injection H as <-; reflexivity|]. apply bind_ok in H as (b & _ & H). apply bind_ok in H as (q & Q & H). injection H as <-. rewrite !zlen_cons, (IH _ _ _ Q). lia.
Qed.
Section C84.
Variables (utf8r : bytes -> text) (b64 : bytes -> text) (emb : bytes -> res dsig) (upper : text -> text).
Notation parse := (parse_signature_packet utf8r b64 emb upper).

Lemma parse_v4 p pt ids sh d : 4 <= g_version p -> parse p pt ids sh = Ok d -> exists is_ s h base,
  issuers (g_subs p) = Ok is_ /\ e_self d = existsb (fun k => is_in (fst k) ids) is_ /\ e_ids d = is_ /\
  base = [(hash_algorithm_type, FI (g_hash p)); (pub_algorithm_type, FI (g_pub p)); (sig_type, FI (g_type p)); (sig_version, FI (g_version p))] /\
  parse_subs utf8r b64 emb pt (g_type p) (SDict base [] is_ [] (e_self d) always) (g_subs p) = Ok s /\
  listed (flags sh (g_subs p)) = Ok h /\ e_fields d = e_fields s /\ e_hashed d = always ++ h /\ e_regexes d = e_regexes s /\ e_notations d = e_notations s.
Proof.
  intros V H. unfold parse_signature_packet in H. cbv zeta in H. replace (is_one (g_version p) [2; 3]) with false in H by (cbn [is_one existsb]; symmetry; rewrite !orb_false_iff; repeat split; lia).
  replace (4 <=? g_version p) with true in H by lia. apply bind_ok in H as (is_ & E1 & H). apply bind_ok in H as (s & E2 & H). apply bind_ok in H as (h & E3 & H). injection H as <-. cbn [e_self e_ids e_fields e_hashed e_regexes e_notations].
  pose proof (subs_keep _ _ _ _ _ _ _ _ E2) as (A & B & C & _). cbn [e_self e_ids e_hashed] in A, B, C. exists is_, s, h. eexists. rewrite A, B, C. split; [exact E1|]. split; [reflexivity|]. split; [reflexivity|]. split; [reflexivity|]. split; [exact E2|]. auto 10.
Qed.
Lemma covered p sh h u : 4 <= g_version p -> octet_types p -> g_subs p = h ++ u -> Forall (fun b => b_hashed b = true) h -> Forall (fun b => b_hashed b = false) u ->
  listed (flags false (g_subs p)) = Ok sh -> forall f, In f (always ++ sh) -> forall b, In b u -> b_type b <> type_of f.
Proof.
  intros V O E Hh Hu L f I b Ib. apply in_app_iff in I as [I|I].
  - unfold octet_types in O. rewrite Forall_forall in O. specialize (O b ltac:(rewrite E; apply in_or_app; auto)). cbn in I. repeat destruct I as [<-|I]; try contradiction; cbn; lia.
  - destruct (listed_in _ _ _ L I) as (k & ks & J & K & F). rewrite (keys_type _ _ _ K F). apply flags_in in J as (a & x & c & E2 & T & _ & Hx & N). cbn in Hx.
    rewrite E in E2. rewrite Forall_forall in Hh, Hu.
    assert (Ic : In b c).
    { clear -E2 Ib Hh Hu Hx. revert a E2. induction h as [|y h IH]; intros a E2.
      - cbn in E2. subst u. exfalso. specialize (Hu x ltac:(apply in_or_app; right; now left)). congruence.
      - destruct a as [|z a]; cbn in E2; injection E2 as -> E2.
        + subst c. apply in_or_app. now right.
        + apply (IH ltac:(intros q Q; apply Hh; now right) a E2). }
    exact (N b Ic).
Qed.

(** The values said to be covered by the signature cannot be changed by whoever holds the signed packet: take a signature packet as it is on the
    wire (the hashed subpackets first, then the unhashed ones) and replace the unhashed ones by any others. Every value that both results list
    as covered is the same in both, if the two agree about whether it is a self signature. *)
Theorem c84_covered_values p p' h u u' pt ids d d' f :
  4 <= g_version p -> same_header p p' -> octet_types p -> octet_types p' ->
  g_subs p = h ++ u -> g_subs p' = h ++ u' -> Forall (fun b => b_hashed b = true) h -> Forall (fun b => b_hashed b = false) u -> Forall (fun b => b_hashed b = false) u' ->
  parse p pt ids false = Ok d -> parse p' pt ids false = Ok d' -> e_self d = e_self d' ->
  In f (e_hashed d) -> In f (e_hashed d') -> lookup (e_fields d) f = lookup (e_fields d') f.
Proof.
  intros V (S1 & S2 & S3 & S4) O O' E E' Hh Hu Hu' P P' Es I I'.
  destruct (parse_v4 _ _ _ _ _ V P) as (is_ & s & sh & base & _ & _ & _ & Hb & R & L & F & H & _). assert (V' : 4 <= g_version p') by lia. destruct (parse_v4 _ _ _ _ _ V' P') as (is' & s' & sh' & base' & _ & _ & _ & Hb' & R' & L' & F' & H' & _).
  rewrite H in I. rewrite H' in I'. rewrite F, F'.
  pose proof (covered _ _ h u V O E Hh Hu L f I) as N. pose proof (covered p' _ h u' V' O' E' Hh Hu' L' f I') as N'.
  rewrite E, subs_app in R. rewrite E', subs_app in R'. apply bind_ok in R as (m & R & T). apply bind_ok in R' as (m' & R' & T').
  destruct (subs_keep _ _ _ _ _ _ _ _ T) as (_ & _ & _ & K). destruct (subs_keep _ _ _ _ _ _ _ _ T') as (_ & _ & _ & K'). rewrite (K f N), (K' f N').
  rewrite S2 in R. eapply subs_cong; [| |exact R|exact R']; [exact Es|]. cbn [e_fields]. subst base base'. rewrite S1, S2, S3, S4. reflexivity.
Qed.

(** The creation time reported for a version 4 signature is always one that the signature covers. *)
Theorem c84_creation_time p pt ids sh d v : 4 <= g_version p -> parse p pt ids sh = Ok d -> lookup (e_fields d) creation_time = Some v ->
  exists b n, In b (g_subs p) /\ b_type b = 2 /\ b_hashed b = true /\ long_to_int (b_data b) 0 = Ok n /\ v = FI n.
Proof.
  intros V P L. destruct (parse_v4 _ _ _ _ _ V P) as (is_ & s & h & base & _ & _ & _ & Hb & R & _ & F & _). rewrite F in L. destruct (subs_value _ _ _ _ _ _ _ _ _ _ R L) as [Q | (b & u & Ib & U & Iu)].
  - cbn [e_fields] in Q. subst base. cbn in Q. discriminate Q.
  - destruct (simple_facts _ _ _ _ _ _ _ _ _ U _ _ Iu) as (T & _ & C). destruct (C eq_refl) as (Hh & n & Hn & Hv). exists b, n. repeat split; auto.
Qed.

(** A critical subpacket of a type that is not known: no result. *)
Theorem c84_critical_unknown p pt ids sh b : 4 <= g_version p -> In b (g_subs p) -> b_critical b = true -> keys_of_type (b_type b) = None -> ~ In (b_type b) [16; 20; 32] ->
  forall d, parse p pt ids sh <> Ok d.
Proof.
  intros V I C K N d P. destruct (parse_v4 _ _ _ _ _ V P) as (is_ & s & h & base & _ & _ & _ & _ & R & _). apply in_split in I as (x & y & E). rewrite E in R. eapply bad_sub; [| |exact R].
  - intros T. apply N. rewrite T. now left.
  - intros s0 s1 Q. rewrite plain_type in Q; [rewrite known_types, C in Q by exact K; discriminate Q|]. cbn [is_one existsb]. cbn in N. assert (b_type b <> 6) by (intros T; rewrite T in K; discriminate K). lia.
Qed.

(** A signature that is not to be exported: no result. *)
Theorem c84_local p pt ids sh b : 4 <= g_version p -> In b (g_subs p) -> b_type b = 4 -> get (b_data b) 0 = Ok 0 -> forall d, parse p pt ids sh <> Ok d.
Proof.
  intros V I T G d P. destruct (parse_v4 _ _ _ _ _ V P) as (is_ & s & h & base & _ & _ & _ & _ & R & _). apply in_split in I as (x & y & E). rewrite E in R. eapply bad_sub; [| |exact R]; [lia|].
  intros s0 s1 Q. rewrite plain_type in Q by (rewrite T; reflexivity). rewrite T in Q. cbn [simple] in Q. rewrite G in Q. cbn in Q. discriminate Q.
Qed.

(** Against RFC 4880, 5.2.3.1 (an unrecognised subpacket that is not critical is ignored): if the last hashed subpacket of a type that is not known is
    hashed, there is no result. (Type 33 is the issuer fingerprint that GnuPG writes into every signature.) *)
Theorem c84_hashed_unknown_refuted p pt ids b x y : 4 <= g_version p -> g_subs p = x ++ b :: y -> b_hashed b = true -> (forall z, In z y -> b_type z <> b_type b) ->
  keys_of_type (b_type b) = None -> ~ In (b_type b) [0; 16; 20; 32] -> forall d, parse p pt ids false <> Ok d.
Proof.
  intros V E Hh N K M d P. destruct (parse_v4 _ _ _ _ _ V P) as (is_ & s & h & base & _ & _ & _ & _ & _ & L & _). rewrite E in L.
  assert (S : special b = false). { unfold special. cbn [is_one existsb]. cbn in M. assert (b_type b <> 6) by (intros T; rewrite T in K; discriminate K). lia. }
  pose proof (flags_last false x b y S N) as J. rewrite Hh in J. cbn [orb] in J. rewrite (listed_bad _ _ J) in L; [discriminate L| |exact K]. intros T. apply M. rewrite T. now left.
Qed.

(** A signature that contains another (a subkey that can sign is bound with one): no result. *)
Theorem c84_embedded_refuted p pt ids sh b : 4 <= g_version p -> In b (g_subs p) -> b_type b = 32 -> forall d, parse p pt ids sh <> Ok d.
Proof.
  intros V I T d P. destruct (parse_v4 _ _ _ _ _ V P) as (is_ & s & h & base & _ & _ & _ & _ & R & _). apply in_split in I as (x & y & E). rewrite E in R. eapply bad_sub; [| |exact R]; [lia|].
  intros s0 s1 Q. unfold parse_sub in Q. cbv zeta in Q. rewrite T in Q. apply bind_ok in Q as (z & Q & _). eapply embedded_never. exact Q.
Qed.

(** The lifetime of a signature is taken from an unhashed subpacket if that comes last. *)
Theorem c84_unhashed_lifetime_refuted p q b n pt ids sh d d' : 4 <= g_version p -> g_version q = g_version p -> g_subs q = g_subs p ++ [b] -> b_type b = 3 -> b_hashed b = false ->
  long_to_int (b_data b) 0 = Ok n -> n <> 0 -> parse p pt ids sh = Ok d -> parse q pt ids sh = Ok d' -> lookup (e_fields d') expiration_seconds = Some (FI n).
Proof.
  intros V W E T Hb G N _ P. assert (V' : 4 <= g_version q) by lia. destruct (parse_v4 _ _ _ _ _ V' P) as (is_ & s & h & base & _ & _ & _ & _ & R & _ & F & _). rewrite E, subs_app in R. apply bind_ok in R as (m & _ & R). cbn [parse_subs] in R.
  replace (b_type b =? 16) with false in R by lia. rewrite plain_type in R by (rewrite T; reflexivity). rewrite T in R. cbn [simple] in R. rewrite G in R. cbn [bind] in R. unfold truth in R. replace (negb (n =? 0)) with true in R by (replace (n =? 0) with false by lia; reflexivity).
  injection R as <-. rewrite F. cbn [with_fields e_fields]. unfold assign. cbn [fold_left fst snd]. rewrite lookup_assign1, beq_refl. reflexivity.
Qed.

(** The issuers reported for a version 4 signature have 8 digits, the first half of the key id. *)
Theorem c84_issuer_refuted p pt ids sh d : 4 <= g_version p -> parse p pt ids sh = Ok d -> Forall (fun k => zlen (fst k) = 8) (e_ids d).
Proof.
  intros V P. destruct (parse_v4 _ _ _ _ _ V P) as (is_ & s & h & base & E & _ & -> & _). unfold issuers in E. revert is_ E. generalize (filter (fun b => b_type b =? 16) (g_subs p)). intros l. induction l as [|b l IH]; intros is_ E; cbn [mapM] in E; [injection E as <-; constructor|].
  apply bind_ok in E as (k & Ek & E). apply bind_ok in E as (r & Er & E). injection E as <-. constructor; [|now apply IH]. unfold issuer in Ek. apply bind_ok in Ek as (t & Et & Ek). injection Ek as <-. cbn [fst].
  unfold bytearray_to_hex in Et. change (negb (8 mod 2 =? 0)) with false in Et. cbv iota in Et. apply bind_ok in Et as (r0 & E0 & Et).
  assert (Len : zlen r0 = 8) by (rewrite (hex_len _ _ _ _ E0); reflexivity).
  rewrite Len in Et. change (8 <? 8) with false in Et. cbv iota in Et. assert (Et' : slice_from r0 (- (8)) = t) by congruence. rewrite <- Et'. rewrite (slice_from_all r0 8) by (symmetry; exact Len). exact Len.
Qed.
(** So, with key ids of 16 digits, no version 4 signature is recognised as a self signature, and none of what only self signatures may say is ever reported: ... *)
Theorem c84_self_signature_refuted p pt ids sh d : 4 <= g_version p -> Forall (fun k => zlen k = 16) ids -> parse p pt ids sh = Ok d -> e_self d = false /\
  forall f, In f [key_expiration_seconds; preferred_sym_algorithms; preferred_hash_algorithms; preferred_compression_algorithms; key_server_no_modify; primary; may_have_been_split; may_have_multiple_owners; supports_modification_detection] -> lookup (e_fields d) f = None.
Proof.
  intros V L P. pose proof (c84_issuer_refuted _ _ _ _ _ V P) as K. destruct (parse_v4 _ _ _ _ _ V P) as (is_ & s & h & base & E & Es & Ei & Hb & R & _ & F & _).
  assert (X : e_self d = false).
  { rewrite Es. rewrite Ei in K. destruct (existsb _ is_) eqn:Q; [|reflexivity]. apply existsb_exists in Q as (k & Ik & Q). unfold is_in in Q. apply existsb_exists in Q as (i & Ii & Q). apply zlist_eqb_spec in Q. rewrite Forall_forall in K, L. specialize (K k Ik). specialize (L i Ii). rewrite Q in K. lia. }
  split; [exact X|]. intros f If. assert (Sf : self_only f = true) by (cbn in If; repeat destruct If as [<-|If]; try contradiction; reflexivity). destruct (lookup (e_fields d) f) as [v|] eqn:Q; [|reflexivity]. exfalso. rewrite F in Q.
  destruct (subs_value _ _ _ _ _ _ _ _ _ _ R Q) as [Q' | (b & u & Ib & U & Iu)].
  - cbn [e_fields] in Q'. subst base. cbn in If. repeat destruct If as [<-|If]; try contradiction; discriminate Q'.
  - destruct (simple_facts _ _ _ _ _ _ _ _ _ U _ _ Iu) as (_ & C & _). cbn [e_self] in C. rewrite X in C. now specialize (C Sf).
Qed.
(** ... and the values reported as covered are then the same whatever the unhashed subpackets are. *)
Theorem c84_covered_values_16 p p' h u u' pt ids d d' f : Forall (fun k => zlen k = 16) ids ->
  4 <= g_version p -> same_header p p' -> octet_types p -> octet_types p' ->
  g_subs p = h ++ u -> g_subs p' = h ++ u' -> Forall (fun b => b_hashed b = true) h -> Forall (fun b => b_hashed b = false) u -> Forall (fun b => b_hashed b = false) u' ->
  parse p pt ids false = Ok d -> parse p' pt ids false = Ok d' ->
  In f (e_hashed d) -> In f (e_hashed d') -> lookup (e_fields d) f = lookup (e_fields d') f.
Proof.
  intros L V S O O' E E' Hh Hu Hu' P P'. destruct (c84_self_signature_refuted _ _ _ _ _ V L P) as [X _]. pose proof S as (Sv & _). assert (V' : 4 <= g_version p') by lia. destruct (c84_self_signature_refuted _ _ _ _ _ V' L P') as [X' _]. apply (c84_covered_values p p' h u u' pt ids d d' f); auto. rewrite X, X'. reflexivity.
Qed.

(** Every value is what the last subpacket says that tells something about it, and there is none if no subpacket does. *)
Theorem c84_values p pt ids sh d : 4 <= g_version p -> Forall (fun b => wf (b_data b)) (g_subs p) -> parse p pt ids sh = Ok d -> forall f v, ~ In f [hash_algorithm_type; pub_algorithm_type; sig_type; sig_version] ->
  (lookup (e_fields d) f = Some v <->
   exists a b c, g_subs p = a ++ b :: c /\ tells utf8r (e_self d) (g_type p) pt (b_type b) (b_hashed b) (b_data b) f v /\
     forall x w, In x c -> ~ tells utf8r (e_self d) (g_type p) pt (b_type x) (b_hashed x) (b_data x) f w).
Proof.
  intros V W P f v N. destruct (parse_v4 _ _ _ _ _ V P) as (is_ & s & h & base & _ & _ & _ & Hb & R & _ & F & _). rewrite F. rewrite (subs_tell _ _ _ _ _ _ W _ _ R f v). cbn [e_self e_fields].
  assert (L : lookup base f = None). { subst base. cbn in N. cbn [lookup]. rewrite !beq_neq by (intros <-; tauto). reflexivity. }
  rewrite L. split; [intros [H | [_ H]]; [exact H|discriminate H]|auto].
Qed.
(** The header's values. *)
Theorem c84_header p pt ids sh d : 4 <= g_version p -> octet_types p -> parse p pt ids sh = Ok d ->
  lookup (e_fields d) hash_algorithm_type = Some (FI (g_hash p)) /\ lookup (e_fields d) pub_algorithm_type = Some (FI (g_pub p)) /\ lookup (e_fields d) sig_type = Some (FI (g_type p)) /\ lookup (e_fields d) sig_version = Some (FI (g_version p)).
Proof.
  intros V O P. destruct (parse_v4 _ _ _ _ _ V P) as (is_ & s & h & base & _ & _ & _ & Hb & R & _ & F & _). rewrite F. destruct (subs_keep _ _ _ _ _ _ _ _ R) as (_ & _ & _ & K).
  assert (A : forall f, type_of f = -1 -> forall b, In b (g_subs p) -> b_type b <> type_of f). { intros f E b I. unfold octet_types in O. rewrite Forall_forall in O. specialize (O b I). lia. }
  rewrite !K by (apply A; reflexivity). subst base. repeat split.
Qed.

Lemma split_at_spec t name space : at_sign t name space -> split_at t = (name, space).
Proof.
  intros [N E]. revert t E. induction name as [|c name IH]; intros t E.
  - destruct space; subst t; reflexivity.
  - assert (C : c <> 64) by (intros ->; apply N; now left). assert (N' : ~ In 64 name) by (intros I; apply N; now right). destruct space as [s|]; subst t.
    + cbn [app split_at]. replace (c =? 64) with false by lia. change (name ++ [64] ++ s) with (name ++ [64] ++ s). pose proof (IH N' _ eq_refl) as Q. cbn [app] in Q. rewrite Q. reflexivity.
    + cbn [split_at]. replace (c =? 64) with false by lia. rewrite (IH N' _ eq_refl). reflexivity.
Qed.
Lemma flag_octets f f1 f2 f3 r : wf [f; f1; f2; f3] -> long_to_int ([f; f1; f2; f3] ++ r) 0 = Ok (f * 2 ^ 24 + (f1 * 2 ^ 16 + f2 * 2 ^ 8 + f3)) /\ 0 <= f1 * 2 ^ 16 + f2 * 2 ^ 8 + f3 < 2 ^ 24.
Proof.
  intros W. split; [rewrite long_front by reflexivity; f_equal; cbn [be_val]; change (zlen [f1; f2; f3]) with 3; change (zlen [f2; f3]) with 2; change (zlen [f3]) with 1; change (zlen (@nil Z)) with 0; change (256 ^ 3) with 16777216; change (256 ^ 2) with 65536; change (256 ^ 1) with 256; change (256 ^ 0) with 1; lia|].
  pose proof (Forall_inv (Forall_inv_tail W)) as B1. pose proof (Forall_inv (Forall_inv_tail (Forall_inv_tail W))) as B2. pose proof (Forall_inv (Forall_inv_tail (Forall_inv_tail (Forall_inv_tail W)))) as B3. unfold byte in *. cbn beta in *. lia.
Qed.
Lemma flag_split f x : 0 <= x < 2 ^ 24 -> 0 <= f < 256 -> Z.land (f * 2 ^ 24 + x) 16777215 = x /\ Z.land (Z.shiftr (f * 2 ^ 24 + x) 24) 255 = f.
Proof.
  intros X F. split.
  - change 16777215 with (Z.ones 24). rewrite Z.land_ones by lia. rewrite Z.add_comm, Z.mod_add by lia. apply Z.mod_small. exact X.
  - rewrite Z.shiftr_div_pow2 by lia. rewrite Z.div_add_l by lia. rewrite Z.div_small by exact X. change 255 with (Z.ones 8). rewrite Z.land_ones by lia. rewrite Z.add_0_r. apply Z.mod_small. exact F.
Qed.
Lemma notation_at b l : noted utf8r b64 b l -> exists o, parse_notation utf8r b64 (b_data b) (b_hashed b) = Ok o /\ l = match o with Some n => [n] | None => [] end.
Proof.
  assert (S2 : forall n : bytes, zlen n < 2 ^ 16 -> forall p r, zlen p + 2 <= zlen p + 2 -> short_to_int (p ++ be_bytes 2 (zlen n) ++ r) (zlen p) = Ok (zlen n)).
  { intros n L p r _. unfold short_to_int. pose proof (zlen_nonneg n). rewrite (bytes_to_int_spec p (be_bytes 2 (zlen n)) r 2); [f_equal; rewrite be_bytes_val; apply Z.mod_small; change (256 ^ Z.of_nat 2) with (2 ^ 16); lia|rewrite be_bytes_len; reflexivity]. }
  assert (C : forall f n v rest name space h, 0 <= f < 256 -> zlen n < 2 ^ 16 -> zlen v < 2 ^ 16 -> at_sign (utf8r n) name space ->
    parse_notation utf8r b64 ([f; 0; 0; 0] ++ be_bytes 2 (zlen n) ++ be_bytes 2 (zlen v) ++ n ++ v ++ rest) h = Ok (Some (Notation_ name space (f =? 128) (if f =? 128 then utf8r v else b64 v) h))).
  { intros f n v rest name space h F Ln Lv A. unfold parse_notation. assert (W0 : wf [f; 0; 0; 0]) by (apply Forall_cons; [exact F|]; repeat (apply Forall_cons; [unfold byte; lia|]); constructor). destruct (flag_octets f 0 0 0 (be_bytes 2 (zlen n) ++ be_bytes 2 (zlen v) ++ n ++ v ++ rest) W0) as [E _]. rewrite E. cbn [bind].
    pose proof (S2 n Ln [f; 0; 0; 0] (be_bytes 2 (zlen v) ++ n ++ v ++ rest) ltac:(lia)) as E4. change (zlen [f; 0; 0; 0]) with 4 in E4. rewrite E4. cbn [bind].
    assert (L6 : zlen ([f; 0; 0; 0] ++ be_bytes 2 (zlen n)) = 6) by (rewrite zlen_app, be_bytes_len; reflexivity).
    pose proof (S2 v Lv ([f; 0; 0; 0] ++ be_bytes 2 (zlen n)) (n ++ v ++ rest) ltac:(lia)) as E6. rewrite L6, <- app_assoc in E6. rewrite E6. cbn [bind]. cbv zeta.
    pose proof (zlen_nonneg n). pose proof (zlen_nonneg v).
    assert (L8 : zlen ([f; 0; 0; 0] ++ be_bytes 2 (zlen n) ++ be_bytes 2 (zlen v)) = 8) by (rewrite !zlen_app, !be_bytes_len; reflexivity).
    assert (Sn : slice ([f; 0; 0; 0] ++ be_bytes 2 (zlen n) ++ be_bytes 2 (zlen v) ++ n ++ v ++ rest) 8 (8 + zlen n) = n). { replace ([f; 0; 0; 0] ++ be_bytes 2 (zlen n) ++ be_bytes 2 (zlen v) ++ n ++ v ++ rest) with (([f; 0; 0; 0] ++ be_bytes 2 (zlen n) ++ be_bytes 2 (zlen v)) ++ n ++ (v ++ rest)) by (rewrite <- !app_assoc; reflexivity). apply slice_app'; lia. }
    assert (Sv : slice ([f; 0; 0; 0] ++ be_bytes 2 (zlen n) ++ be_bytes 2 (zlen v) ++ n ++ v ++ rest) (8 + zlen n) (8 + zlen n + zlen v) = v). { replace ([f; 0; 0; 0] ++ be_bytes 2 (zlen n) ++ be_bytes 2 (zlen v) ++ n ++ v ++ rest) with ((([f; 0; 0; 0] ++ be_bytes 2 (zlen n) ++ be_bytes 2 (zlen v)) ++ n) ++ v ++ rest) by (rewrite <- !app_assoc; reflexivity). apply slice_app'; rewrite zlen_app; lia. }
    rewrite Sn, Sv, (split_at_spec _ _ _ A). destruct (flag_split f (0 * 2 ^ 16 + 0 * 2 ^ 8 + 0) ltac:(lia) F) as [Q1 Q2]. rewrite Q1, Q2. reflexivity. }
  intros N. destruct N as [b n v rest name space E Ln Lv A | b f n v rest name space E F NF Ln Lv A | b f f1 f2 f3 nl vl rest E W Ln Lv NZ]; rewrite E.
  - rewrite (C 128 n v rest name space (b_hashed b)) by (auto; lia). eexists. split; [reflexivity|]. reflexivity.
  - rewrite (C f n v rest name space (b_hashed b)) by (auto; lia). replace (f =? 128) with false by lia. eexists. split; [reflexivity|]. reflexivity.
  - exists None. split; [|reflexivity]. unfold parse_notation. destruct (flag_octets f f1 f2 f3 (nl ++ vl ++ rest) W) as [E1 B]. rewrite E1. cbn [bind].
    assert (E4 : short_to_int ([f; f1; f2; f3] ++ nl ++ vl ++ rest) 4 = Ok (be_val nl)) by (apply (bytes_to_int_spec [f; f1; f2; f3] nl (vl ++ rest) 2); now rewrite Ln).
    assert (E6 : short_to_int ([f; f1; f2; f3] ++ nl ++ vl ++ rest) 6 = Ok (be_val vl)). { pose proof (bytes_to_int_spec ([f; f1; f2; f3] ++ nl) vl rest 2 ltac:(now rewrite Lv)) as Q. rewrite zlen_app, Ln, <- app_assoc in Q. exact Q. }
    rewrite E4, E6. cbn [bind]. cbv zeta. destruct (split_at _) as [name space]. destruct (flag_split f _ B ltac:(exact (Forall_inv W))) as [Q1 _]. rewrite Q1. pose proof (Forall_inv (Forall_inv_tail W)) as B1. pose proof (Forall_inv (Forall_inv_tail (Forall_inv_tail W))) as B2. pose proof (Forall_inv (Forall_inv_tail (Forall_inv_tail (Forall_inv_tail W)))) as B3. unfold byte in *. cbn beta in *.
    replace (f1 * 2 ^ 16 + f2 * 2 ^ 8 + f3 =? 0) with false by lia. reflexivity.
Qed.
(** The notations are those of the packet, in order, each with its own flag for being hashed. *)
Theorem c84_notations p pt ids sh d ls : 4 <= g_version p -> Forall2 (noted utf8r b64) (filter (fun b => b_type b =? 20) (g_subs p)) ls -> parse p pt ids sh = Ok d -> e_notations d = concat ls.
Proof.
  intros V N P. destruct (parse_v4 _ _ _ _ _ V P) as (is_ & s & h & base & _ & _ & _ & _ & R & _ & _ & _ & _ & ->).
  assert (G : forall l s s' ls, Forall2 (noted utf8r b64) (filter (fun b => b_type b =? 20) l) ls -> parse_subs utf8r b64 emb pt (g_type p) s l = Ok s' -> e_notations s' = e_notations s ++ concat ls).
  2:{ exact (G _ _ _ _ N R). }
  clear V N P R. clear s ls. induction l as [|b l IH]; intros s s' ls N H.
  - cbn [filter] in N. inversion N. subst. cbn [parse_subs] in H. assert (s = s') by congruence. subst. cbn. now rewrite app_nil_r.
  - cbn [parse_subs] in H. cbn [filter] in N. destruct (b_type b =? 16) eqn:T16.
    { replace (b_type b =? 20) with false in N by lia. eapply IH; eauto. }
    apply bind_ok in H as (s1 & H1 & H). destruct (b_type b =? 20) eqn:T20.
    + inversion N as [|? l0 ? ls0 Nb N']. subst. rewrite (IH _ _ _ N' H). cbn [concat]. rewrite app_assoc. f_equal. unfold parse_sub in H1. cbv zeta in H1. apply Z.eqb_eq in T20. rewrite T20 in H1. destruct (notation_at _ _ Nb) as (o & Eo & ->). rewrite Eo in H1. cbn [bind] in H1.
      destruct o as [n|]; [|assert (s = s1) by congruence; subst; now rewrite app_nil_r]. destruct (b_critical b); [discriminate H1|]. apply (f_equal (fun x => match x with Ok y => y | Err _ => s1 end)) in H1. cbv beta iota in H1. subst s1. reflexivity.
    + rewrite (IH _ _ _ N H). f_equal. unfold parse_sub in H1. cbv zeta in H1. destruct (is_one (b_type b) [6; 20; 32]) eqn:Sp.
      * cbn [is_one existsb] in Sp. assert (T : b_type b = 6 \/ b_type b = 32) by lia. destruct T as [T|T]; rewrite T in H1.
        -- destruct (validate_subpacket_regex _); [|congruence|discriminate H1]. apply (f_equal (fun x => match x with Ok y => y | Err _ => s1 end)) in H1. cbv beta iota in H1. subst s1. reflexivity.
        -- apply bind_ok in H1 as (x & E & _). exfalso. eapply embedded_never. exact E.
      * change (parse_sub utf8r b64 emb pt (g_type p) s b = Ok s1) in H1. rewrite plain_type in H1 by exact Sp. apply bind_ok in H1 as (u & _ & H1). apply (f_equal (fun x => match x with Ok y => y | Err _ => s1 end)) in H1. cbv beta iota in H1. subst s1. reflexivity.
Qed.
(** A critical notation: no result. *)
Theorem c84_critical_notation p pt ids sh b n : 4 <= g_version p -> In b (g_subs p) -> b_type b = 20 -> b_critical b = true -> noted utf8r b64 b [n] -> forall d, parse p pt ids sh <> Ok d.
Proof.
  intros V I T C N d P. destruct (parse_v4 _ _ _ _ _ V P) as (is_ & s & h & base & _ & _ & _ & _ & R & _). apply in_split in I as (x & y & E). rewrite E in R. eapply bad_sub; [| |exact R]; [lia|].
  intros s0 s1 Q. unfold parse_sub in Q. cbv zeta in Q. rewrite T in Q. destruct (notation_at _ _ N) as (o & Eo & Ho). rewrite Eo in Q. cbn [bind] in Q. destruct o; [|discriminate Ho]. rewrite C in Q. discriminate Q.
Qed.
(** The regular expressions are those of the packet that are valid (C18), without the octet at their end, in order. *)
Theorem c84_regexes p pt ids sh d : 4 <= g_version p -> parse p pt ids sh = Ok d ->
  e_regexes d = map (fun b => (ascii_r (removelast (b_data b)), b_hashed b)) (filter (fun b => (b_type b =? 6) && match validate_subpacket_regex (ascii_r (removelast (b_data b))) with Accept => true | _ => false end) (g_subs p)).
Proof.
  intros V P. destruct (parse_v4 _ _ _ _ _ V P) as (is_ & s & h & base & _ & _ & _ & _ & R & _ & _ & _ & -> & _).
  assert (RL : forall d : bytes, slice d 0 (-1) = removelast d).
  { clear. intros d. destruct (list_eq_dec Z.eq_dec d []) as [->|N]; [reflexivity|]. destruct (exists_last N) as (e & x & ->). rewrite removelast_last. pose proof (zlen_nonneg e). unfold slice, clip. rewrite zlen_app. change (zlen [x]) with 1. change (0 <? 0) with false. change (-1 <? 0) with true. cbv iota zeta.
    replace (Z.to_nat (Z.max 0 (-1 + (zlen e + 1)) - Z.min 0 (zlen e + 1))) with (length e) by (unfold zlen in *; lia). replace (Z.to_nat (Z.min 0 (zlen e + 1))) with O by lia. cbn [skipn]. rewrite firstn_app, Nat.sub_diag, firstn_all. cbn [firstn]. apply app_nil_r. }
  match goal with |- _ = map ?v (filter ?o _) => set (val := v); set (ok := o) end.
  assert (G : forall l s s', parse_subs utf8r b64 emb pt (g_type p) s l = Ok s' -> e_regexes s' = e_regexes s ++ map val (filter ok l)).
  2:{ exact (G _ _ _ R). }
  clear -RL. induction l as [|b l IH]; intros s s' H.
  - cbn [parse_subs] in H. assert (s = s') by congruence. subst. cbn. now rewrite app_nil_r.
  - cbn [parse_subs] in H. cbn [filter]. destruct (b_type b =? 16) eqn:T16.
    { replace (ok b) with false; [now apply IH|]. unfold ok. replace (b_type b =? 6) with false by lia. reflexivity. }
    apply bind_ok in H as (s1 & H1 & H). rewrite (IH _ _ H). destruct (b_type b =? 6) eqn:T6.
    + unfold parse_sub in H1. cbv zeta in H1. pose proof T6 as T6'. apply Z.eqb_eq in T6'. rewrite T6', RL in H1. unfold ok at 2. rewrite T6. cbn [andb]. destruct (validate_subpacket_regex _); [|assert (s = s1) by congruence; subst; reflexivity|discriminate H1].
      apply (f_equal (fun x => match x with Ok y => y | Err _ => s1 end)) in H1. cbv beta iota in H1. subst s1. cbn [e_regexes map]. rewrite <- app_assoc. reflexivity.
    + replace (ok b) with false by (unfold ok; rewrite T6; reflexivity). f_equal. destruct (is_one (b_type b) [6; 20; 32]) eqn:Sp.
      * unfold parse_sub in H1. cbv zeta in H1. cbn [is_one existsb] in Sp. assert (T : b_type b = 20 \/ b_type b = 32) by lia. destruct T as [T|T]; rewrite T in H1.
        -- apply bind_ok in H1 as (n & _ & H1). destruct n; [|congruence]. destruct (b_critical b); [discriminate H1|]. apply (f_equal (fun x => match x with Ok y => y | Err _ => s1 end)) in H1. cbv beta iota in H1. subst s1. reflexivity.
        -- apply bind_ok in H1 as (x & E & _). exfalso. eapply embedded_never. exact E.
      * rewrite plain_type in H1 by exact Sp. apply bind_ok in H1 as (u & _ & H1). apply (f_equal (fun x => match x with Ok y => y | Err _ => s1 end)) in H1. cbv beta iota in H1. subst s1. reflexivity.
Qed.

(** Signatures of version 2 and 3: the creation time and the issuer of the packet, and the comparison with the parent's key ids. *)
Theorem c84_version_3 p pt ids sh : In (g_version p) [2; 3] -> exists d, parse p pt ids sh = Ok d /\ e_ids d = [(upper (g_key_id p), true)] /\ (e_self d = true <-> In (upper (g_key_id p)) ids) /\
  lookup (e_fields d) creation_time = Some (FI (g_created p)) /\ lookup (e_fields d) sig_type = Some (FI (g_type p)) /\ lookup (e_fields d) hash_algorithm_type = Some (FI (g_hash p)) /\
  lookup (e_fields d) pub_algorithm_type = Some (FI (g_pub p)) /\ lookup (e_fields d) sig_version = Some (FI (g_version p)).
Proof.
  intros V. unfold parse_signature_packet. cbv zeta. replace (is_one (g_version p) [2; 3]) with true by (cbn in *; lia). eexists. split; [reflexivity|]. cbn [e_ids e_self e_fields]. split; [reflexivity|]. split.
  - unfold is_in. rewrite existsb_exists. split; [intros (x & I & E); apply zlist_eqb_spec in E; congruence|intros I; exists (upper (g_key_id p)); split; [exact I|now apply zlist_eqb_spec]].
  - repeat split.
Qed.
(** Versions 0 and 1: an error. *)
Theorem c84_other_versions p pt ids sh : g_version p < 2 -> parse p pt ids sh = Err UnsupportedSignatureVersion.
Proof. intros V. unfold parse_signature_packet. cbv zeta. replace (is_one (g_version p) [2; 3]) with false by (cbn [is_one existsb]; symmetry; rewrite !orb_false_iff; repeat split; lia). replace (4 <=? g_version p) with false by lia. reflexivity. Qed.
End C84.
Print Assumptions c84_covered_values.
Print Assumptions c84_creation_time.
Print Assumptions c84_critical_unknown.
Print Assumptions c84_local.
Print Assumptions c84_hashed_unknown_refuted.
Print Assumptions c84_embedded_refuted.
Print Assumptions c84_unhashed_lifetime_refuted.
Print Assumptions c84_issuer_refuted.
Print Assumptions c84_self_signature_refuted.
Print Assumptions c84_covered_values_16.
Print Assumptions c84_values.
Print Assumptions c84_header.
Print Assumptions c84_notations.
Print Assumptions c84_critical_notation.
Print Assumptions c84_regexes.
Print Assumptions c84_version_3.
Print Assumptions c84_other_versions.
(** a certification by its key: hashed creation time and preferences, unhashed issuer and lifetime *)
Definition c84_h := [DSub 2 true false [0; 0; 4; 0]; DSub 27 true false [3]; DSub 11 true false [9; 8]].
Definition c84_p := DSig 4 19 8 1 [0; 0] [] 0 (c84_h ++ [DSub 16 false false [1; 2; 3; 4; 5; 6; 7; 8]]).
Definition c84_q := DSig 4 19 8 1 [0; 0] [] 0 (c84_h ++ [DSub 16 false false [1; 2; 3; 4; 5; 6; 7; 8]; DSub 3 false false [0; 0; 0; 5]]).
Definition c84_parse p := parse_signature_packet (fun x => x) (fun x => x) (fun _ => Err ValueError) (fun x => x) p 13 [hex_text [1; 2; 3; 4; 5; 6; 7; 8]] false.
Example c84_covered_values_ex : exists d d', c84_parse c84_p = Ok d /\ c84_parse c84_q = Ok d' /\ e_hashed d = e_hashed d' /\ In may_sign_data (e_hashed d) /\ lookup (e_fields d) may_sign_data = Some (FB true) /\
  lookup (e_fields d) creation_time = Some (FI 1024) /\ lookup (e_fields d) expiration_seconds = None /\ lookup (e_fields d') expiration_seconds = Some (FI 5) /\ e_self d = false /\ lookup (e_fields d) preferred_sym_algorithms = None.
Proof. eexists. eexists. split; [vm_compute; reflexivity|]. split; [vm_compute; reflexivity|]. repeat split. cbn. tauto. Qed.
Example c84_errors_ex : c84_parse (DSig 4 19 8 1 [] [] 0 [DSub 33 true false [4]]) = Err TypeError /\ c84_parse (DSig 4 19 8 1 [] [] 0 [DSub 33 true true [4]]) = Err CannotParseCritical /\
  c84_parse (DSig 4 19 8 1 [] [] 0 [DSub 4 true true [0]]) = Err LocalCertificationSignature /\ c84_parse (DSig 1 19 8 1 [] [] 0 []) = Err UnsupportedSignatureVersion.
Proof. repeat split; vm_compute; reflexivity. Qed.
(** notations (text, binary, undefined flags), a regular expression, and a reason for revocation: in a revocation, and ignored in a certification *)
Definition c84_note := [DSub 20 true false ([128; 0; 0; 0; 0; 3; 0; 2] ++ [97; 64; 98] ++ [120; 121]); DSub 20 false false ([0; 0; 0; 0; 0; 1; 0; 1] ++ [99] ++ [7]); DSub 20 true false ([128; 0; 0; 1; 0; 0; 0; 0]); DSub 6 true false [46; 0]; DSub 29 true false [1; 104]].
Example c84_lists_ex : exists d d', c84_parse (DSig 4 32 8 1 [0; 0] [] 0 c84_note) = Ok d /\ c84_parse (DSig 4 19 8 1 [0; 0] [] 0 c84_note) = Ok d' /\
  e_notations d = [Notation_ [97] (Some [98]) true [120; 121] true; Notation_ [99] None false [7] false] /\ e_regexes d = [([46], true)] /\
  lookup (e_fields d) revocation_code = Some (FI 1) /\ lookup (e_fields d) revocation_reason = Some (FT [104]) /\ lookup (e_fields d') revocation_code = None.
Proof. eexists. eexists. split; [vm_compute; reflexivity|]. split; [vm_compute; reflexivity|]. repeat split. Qed.
Example c84_noted_ex : Forall2 (noted (fun x => x) (fun x => x)) (filter (fun b => b_type b =? 20) c84_note) [[Notation_ [97] (Some [98]) true [120; 121] true]; [Notation_ [99] None false [7] false]; []].
Proof.
  constructor; [apply (noted_text (fun x => x) (fun x => x) (DSub 20 true false ([128; 0; 0; 0; 0; 3; 0; 2] ++ [97; 64; 98] ++ [120; 121])) [97; 64; 98] [120; 121] [] [97] (Some [98])); [reflexivity|vm_compute; reflexivity|vm_compute; reflexivity|]; split; [intros [H|[]]; discriminate H|reflexivity]|].
  constructor; [apply (noted_binary (fun x => x) (fun x => x) (DSub 20 false false ([0; 0; 0; 0; 0; 1; 0; 1] ++ [99] ++ [7])) 0 [99] [7] [] [99] None); [reflexivity|lia|lia|vm_compute; reflexivity|vm_compute; reflexivity|]; split; [intros [H|[]]; discriminate H|reflexivity]|].
  constructor; [apply (noted_undefined _ _ _ 128 0 0 1 [0; 0] [0; 0] []); [reflexivity| |reflexivity|reflexivity|lia]; repeat (apply Forall_cons; [unfold byte; lia|]); constructor|constructor].
Qed.
(** The hypothesis that hashed subpackets come first is needed: with a hashed subpacket after an unhashed one whose value is kept (a lifetime of 0 sets nothing), an unsigned value is listed as covered. *)
Example c84_order_matters : exists d, c84_parse (DSig 4 19 8 1 [] [] 0 [DSub 3 false false [0; 0; 0; 5]; DSub 3 true false [0; 0; 0; 0]]) = Ok d /\ In expiration_seconds (e_hashed d) /\ lookup (e_fields d) expiration_seconds = Some (FI 5).
Proof. eexists. split; [vm_compute; reflexivity|]. split; [cbn; tauto|reflexivity]. Qed.

(** ** C85 *)
(** RFC 4880, 5.12.1: the header of a JPEG image *)
Definition jpeg_header : bytes := [16; 0; 1; 1; 0; 0; 0; 0; 0; 0; 0; 0; 0; 0; 0; 0].
(** the contents of a user attribute packet with one image: length, type 1, header, image *)
Definition one_image (l image : bytes) : bytes := l ++ [1] ++ jpeg_header ++ image.
Lemma image_content magic pu x : image_of magic pu (jpeg_header ++ x) = Ok [(x, magic (firstn 1024 x))].
Proof.
  unfold image_of.
  assert (G0 : get (jpeg_header ++ x) 0 = Ok 16) by exact (get_app_0 [] _ 16). assert (G1 : get (jpeg_header ++ x) 1 = Ok 0) by exact (get_app_0 [16] _ 0).
  assert (G2 : get (jpeg_header ++ x) 2 = Ok 1) by exact (get_app_0 [16; 0] _ 1). assert (G3 : get (jpeg_header ++ x) 3 = Ok 1) by exact (get_app_0 [16; 0; 1] _ 1). rewrite G0, G1, G2, G3.
  cbn [bind]. cbv zeta. change (1 =? 1) with true. change (16 + Z.shiftl 0 8) with 16. change (negb (16 =? 16)) with false. cbv iota.
  replace (slice (jpeg_header ++ x) 4 16) with [0; 0; 0; 0; 0; 0; 0; 0; 0; 0; 0; 0].
  2:{ symmetry. change (jpeg_header ++ x) with ([16; 0; 1; 1] ++ [0; 0; 0; 0; 0; 0; 0; 0; 0; 0; 0; 0] ++ x). apply slice_app'; reflexivity. }
  change (any _) with false. cbv iota. cbn [orb].
  replace (slice_from (jpeg_header ++ x) 16) with x by (symmetry; exact (slice_from_app jpeg_header x)). do 3 f_equal. f_equal.
  unfold slice. rewrite zlen_app. change (zlen jpeg_header) with 16. pose proof (zlen_nonneg x). rewrite (clip_in _ 16) by lia. change (Z.to_nat 16) with (length jpeg_header). rewrite skipn_app, skipn_all, Nat.sub_diag. cbn [skipn app].
  unfold clip. change (1040 <? 0) with false. cbv iota. destruct (Z.le_gt_cases (16 + zlen x) 1040).
  - rewrite Z.min_r by lia. rewrite !firstn_all2; [reflexivity| |]; unfold zlen in *; lia.
  - rewrite Z.min_l by lia. f_equal.
Qed.

(** An attribute that is one image: exactly that image, as long as the packet says, with the type found in its first 1024 octets; no error. *)
Theorem c85_single_image magic pu l image : rfc_new_length (17 + zlen image) l -> parse_user_attribute_subpackets magic pu (one_image l image) = ([(image, magic (firstn 1024 image))], None).
Proof.
  intros H. pose proof (rfc_new_length_nonneg _ _ H) as [Hn Hl]. unfold parse_user_attribute_subpackets. unfold one_image at 2. set (data := l ++ [1] ++ jpeg_header ++ image). pose proof (zlen_nonneg image) as Zi.
  assert (L : zlen data = zlen l + 17 + zlen image) by (unfold data; rewrite !zlen_app; change (zlen [1]) with 1; change (zlen jpeg_header) with 16; lia).
  assert (Hf : exists k, length (one_image l image) = S k). { destruct l as [|a l]; [unfold zlen in Hl; cbn in Hl; lia|]. eexists. reflexivity. } destruct Hf as [k ->].
  cbn [attr_subs]. replace (0 <? zlen data) with true by lia. replace (new_packet_length data 0) with (Ok (zlen l, 17 + zlen image, false) : res (Z * Z * bool)) by (symmetry; apply rfc_new_length_parse_0; exact H).
  cbv iota. replace (get data (zlen l)) with (Ok 1 : res Z) by (symmetry; apply get_app_0). cbv zeta. change (1 =? 1) with true. cbv iota.
  replace (slice data (0 + zlen l + 1) (0 + zlen l + 1 + (17 + zlen image))) with (jpeg_header ++ image).
  2:{ unfold slice. rewrite (clip_in _ (0 + zlen l + 1)) by lia. rewrite clip_hi by lia. replace (Z.to_nat (0 + zlen l + 1)) with (length (l ++ [1])) by (rewrite app_length; unfold zlen; cbn; lia). replace data with ((l ++ [1]) ++ jpeg_header ++ image) at 2 by (unfold data; rewrite <- app_assoc; reflexivity). rewrite skipn_app, skipn_all, Nat.sub_diag. cbn [skipn app]. symmetry. apply firstn_all2. rewrite L, app_length. change (length jpeg_header) with 16%nat. unfold zlen. lia. }
  rewrite image_content. replace (0 + zlen l + 1 + (17 + zlen image) <? zlen data) with false by lia. reflexivity.
Qed.

(** Two subpackets: the image in the first one is reported with an octet too many, the first of the second subpacket. *)
Theorem c85_octet_too_many_refuted magic pu l image x rest : rfc_new_length (17 + zlen image) l ->
  exists more e, parse_user_attribute_subpackets magic pu (one_image l image ++ x :: rest) = ((image ++ [x], magic (firstn 1024 (image ++ [x]))) :: more, e).
Proof.
  intros H. pose proof (rfc_new_length_nonneg _ _ H) as [Hn Hl]. unfold parse_user_attribute_subpackets. set (n := length _). unfold one_image. pose proof (zlen_nonneg image) as Zi. pose proof (zlen_nonneg rest) as Zr.
  replace ((l ++ [1] ++ jpeg_header ++ image) ++ x :: rest) with (l ++ [1] ++ jpeg_header ++ image ++ x :: rest) by (rewrite <- !app_assoc; reflexivity). set (data := l ++ [1] ++ jpeg_header ++ image ++ x :: rest).
  assert (L : zlen data = zlen l + 18 + zlen image + zlen rest) by (unfold data; rewrite !zlen_app; change (zlen [1]) with 1; change (zlen jpeg_header) with 16; rewrite zlen_cons; lia).
  cbn [attr_subs]. replace (0 <? zlen data) with true by lia. replace (new_packet_length data 0) with (Ok (zlen l, 17 + zlen image, false) : res (Z * Z * bool)) by (symmetry; apply rfc_new_length_parse_0; exact H).
  cbv iota. replace (get data (zlen l)) with (Ok 1 : res Z) by (symmetry; apply get_app_0). cbv zeta. change (1 =? 1) with true. cbv iota.
  replace (slice data (0 + zlen l + 1) (0 + zlen l + 1 + (17 + zlen image))) with (jpeg_header ++ image ++ [x]).
  2:{ symmetry. replace data with ((l ++ [1]) ++ (jpeg_header ++ image ++ [x]) ++ rest) by (unfold data; rewrite <- !app_assoc; reflexivity). apply slice_app'; rewrite !zlen_app; change (zlen [1]) with 1; change (zlen [x]) with 1; change (zlen jpeg_header) with 16; lia. }
  rewrite image_content. destruct (attr_subs _ _ _ _ _) as [r e]. exists r, e. reflexivity.
Qed.

(** Whatever the octets: it ends, either without an error or with IndexError (each round moves forward, whatever length is claimed). *)
Lemma attr_ends magic pu data : wf data -> forall fuel o l e, 0 <= o -> Z.of_nat fuel > zlen data - o -> (0 < fuel)%nat -> attr_subs magic fuel pu data o = (l, e) -> e = None \/ e = Some IndexError.
Proof.
  intros W. induction fuel as [|f IH]; intros o l e Ho Hf Hp H; [lia|]. cbn [attr_subs] in H. destruct (o <? zlen data) eqn:Eo; [|injection H as <- <-; auto].
  destruct (new_packet_length data o) as [[[so n] part]|x] eqn:E; [|injection H as <- <-; right; f_equal; eapply new_packet_length_err; eauto].
  destruct (new_packet_length_bound _ _ _ _ _ Ho W E) as [B1 B2]. destruct part; [injection H as <- <-; auto|]. destruct (get data so) as [ty|x] eqn:G; [|injection H as <- <-; right; f_equal; eapply get_err; eauto].
  cbv zeta in H. match type of H with match ?m with _ => _ end = _ => destruct m as [r|x] eqn:M end.
  - destruct (attr_subs magic f pu data (o + so + 1 + n)) as [r' e'] eqn:R. injection H as <- <-. apply (IH (o + so + 1 + n) r' e'); [lia|lia|lia|exact R].
  - injection H as <- <-. right. f_equal. destruct (ty =? 1); [|discriminate M]. unfold image_of in M.
    repeat match type of M with bind (get ?d ?i) _ = Err _ => let y := fresh "y" in let E := fresh "E" in destruct (get d i) as [y|y] eqn:E; cbn [bind] in M; [|injection M as <-; eapply get_err; eauto] | (if ?b then _ else _) = Err _ => destruct b; try discriminate M | (let _ := _ in _) = _ => cbv zeta in M end.
Qed.
Theorem c85_ends magic pu data : wf data -> snd (parse_user_attribute_subpackets magic pu data) = None \/ snd (parse_user_attribute_subpackets magic pu data) = Some IndexError.
Proof.
  intros W. destruct (parse_user_attribute_subpackets magic pu data) as [l e] eqn:E. cbn [snd]. unfold parse_user_attribute_subpackets in E. apply (attr_ends magic pu data W _ _ _ _ (Z.le_refl 0)) in E; [exact E|unfold zlen; lia|lia].
Qed.
(** One subpacket of any type with any contents. *)
Lemma one_sub magic pu l ty c : rfc_new_length (1 + zlen c) l ->
  parse_user_attribute_subpackets magic pu (l ++ [ty] ++ c) = match (if ty =? 1 then image_of magic pu c else Ok []) with Ok r => (r, None) | Err e => ([], Some e) end.
Proof.
  intros H. pose proof (rfc_new_length_nonneg _ _ H) as [Hn Hl]. unfold parse_user_attribute_subpackets. set (data := l ++ [ty] ++ c). pose proof (zlen_nonneg c) as Zc.
  assert (L : zlen data = zlen l + 1 + zlen c) by (unfold data; rewrite !zlen_app; change (zlen [ty]) with 1; lia).
  assert (Hf : exists k, length data = S k). { unfold data. destruct l as [|a l]; [unfold zlen in Hl; cbn in Hl; lia|]. eexists. reflexivity. } destruct Hf as [k ->].
  cbn [attr_subs]. replace (0 <? zlen data) with true by lia. replace (new_packet_length data 0) with (Ok (zlen l, 1 + zlen c, false) : res (Z * Z * bool)) by (symmetry; apply rfc_new_length_parse_0; exact H).
  cbv iota. replace (get data (zlen l)) with (Ok ty : res Z) by (symmetry; apply get_app_0). cbv zeta.
  replace (slice data (0 + zlen l + 1) (0 + zlen l + 1 + (1 + zlen c))) with c.
  2:{ unfold slice. rewrite (clip_in _ (0 + zlen l + 1)) by lia. rewrite clip_hi by lia. replace (Z.to_nat (0 + zlen l + 1)) with (length (l ++ [ty])) by (rewrite app_length; unfold zlen; cbn; lia). replace data with ((l ++ [ty]) ++ c) at 2 by (unfold data; rewrite <- app_assoc; reflexivity). rewrite skipn_app, skipn_all, Nat.sub_diag. cbn [skipn app]. symmetry. apply firstn_all2. rewrite L. unfold zlen. lia. }
  replace (0 + zlen l + 1 + (1 + zlen c) <? zlen data) with false by lia. destruct (if ty =? 1 then _ else _); [rewrite app_nil_r|]; reflexivity.
Qed.
Lemma long_slice (h x : bytes) : zlen h = 16 -> slice_from (h ++ x) 16 = x /\ slice (h ++ x) 16 1040 = firstn 1024 x.
Proof.
  intros L. split; [rewrite <- L; apply slice_from_app|]. unfold slice. rewrite zlen_app, L. pose proof (zlen_nonneg x). rewrite (clip_in _ 16) by lia. replace (Z.to_nat 16) with (length h) by (unfold zlen in L; lia). rewrite skipn_app, skipn_all, Nat.sub_diag. cbn [skipn app].
  unfold clip. change (1040 <? 0) with false. cbv iota. destruct (Z.le_gt_cases (16 + zlen x) 1040).
  - rewrite Z.min_r by lia. rewrite !firstn_all2; [reflexivity| |]; unfold zlen in *; lia.
  - rewrite Z.min_l by lia. f_equal.
Qed.
(** What is reported of an attribute that is one subpacket: nothing unless it is an image (type 1); of an image with a header of version 1, nothing unless the header
    has 16 octets, the reserved ones are 0 and the format is JPEG or a private one; of other header versions nothing unless asked for, and then what follows the header. *)
Theorem c85_headers magic pu l ty a b v r : rfc_new_length (4 + zlen r) l -> byte a -> byte b -> let c := a :: b :: v :: r in
  (ty <> 1 -> parse_user_attribute_subpackets magic pu (l ++ [ty] ++ c) = ([], None)) /\
  (ty = 1 -> v <> 1 -> parse_user_attribute_subpackets magic pu (l ++ [ty] ++ c) = (if pu then [(skipn (Z.to_nat (a + 256 * b)) c, magic (firstn 1024 (skipn (Z.to_nat (a + 256 * b)) c)))] else [], None)) /\
  (ty = 1 -> v = 1 -> a + 256 * b <> 16 -> parse_user_attribute_subpackets magic pu (l ++ [ty] ++ c) = ([], None)) /\
  (forall f zs image, ty = 1 -> v = 1 -> a = 16 -> b = 0 -> r = f :: zs ++ image -> zlen zs = 12 ->
     (Forall (eq 0) zs /\ (f = 1 \/ 100 <= f <= 110) -> parse_user_attribute_subpackets magic pu (l ++ [ty] ++ c) = ([(image, magic (firstn 1024 image))], None)) /\
     (~ (Forall (eq 0) zs /\ (f = 1 \/ 100 <= f <= 110)) -> parse_user_attribute_subpackets magic pu (l ++ [ty] ++ c) = ([], None))).
Proof.
  intros H Ba Bb c. assert (H' : rfc_new_length (1 + zlen c) l). { replace (1 + zlen c) with (4 + zlen r) by (unfold c; rewrite !zlen_cons; lia). exact H. } rewrite (one_sub magic pu l ty c H').
  assert (G0 : get c 0 = Ok a) by exact (get_app_0 [] _ a). assert (G1 : get c 1 = Ok b) by exact (get_app_0 [a] _ b). assert (G2 : get c 2 = Ok v) by exact (get_app_0 [a; b] _ v).
  assert (S8 : a + Z.shiftl b 8 = a + 256 * b) by (rewrite Z.shiftl_mul_pow2 by lia; lia). unfold byte in *.
  split; [intros N; replace (ty =? 1) with false by lia; reflexivity|]. unfold image_of. rewrite G0, G1, G2. cbn [bind]. cbv zeta. rewrite S8. split; [|split].
  - intros -> Nv. change (1 =? 1) with true. replace (v =? 1) with false by lia. cbv iota. destruct pu; [|reflexivity].
    assert (Sk : slice_from c (a + 256 * b) = skipn (Z.to_nat (a + 256 * b)) c). { unfold slice_from, clip. replace (a + 256 * b <? 0) with false by lia. destruct (Z.le_gt_cases (a + 256 * b) (zlen c)); [rewrite Z.min_l by lia; reflexivity|]. rewrite Z.min_r by lia. rewrite !skipn_all2; [reflexivity| |]; unfold zlen in *; lia. }
    rewrite Sk. set (x := skipn _ c). replace (slice x 0 1024) with (firstn 1024 x); [reflexivity|]. unfold slice, clip. change (1024 <? 0) with false. change (0 <? 0) with false. cbv iota zeta. pose proof (zlen_nonneg x). rewrite (Z.min_l 0) by lia. change (Z.to_nat 0) with O. cbn [skipn]. rewrite Z.sub_0_r. destruct (Z.le_gt_cases (zlen x) 1024); [rewrite Z.min_r by lia; rewrite !firstn_all2; [reflexivity| |]; unfold zlen in *; lia|rewrite Z.min_l by lia; reflexivity].
  - intros -> -> Nh. change (1 =? 1) with true. cbv iota. replace (a + 256 * b =? 16) with false by lia. reflexivity.
  - intros f zs image -> -> -> -> -> Lz. change (1 =? 1) with true. cbv iota. change (16 + 256 * 0 =? 16) with true. cbn [negb]. assert (G3 : get c 3 = Ok f) by exact (get_app_0 [16; 0; 1] _ f). rewrite G3. cbn [bind].
    assert (Sz : slice c 4 16 = zs) by (change c with ([16; 0; 1; f] ++ zs ++ image); apply slice_app'; [reflexivity|rewrite Lz; reflexivity]). rewrite Sz.
    assert (Az : any zs = false <-> Forall (eq 0) zs). { rewrite any_false, Forall_forall. split; intros Q x I; specialize (Q x I); auto. }
    assert (Cx : c = ([16; 0; 1; f] ++ zs) ++ image) by reflexivity. assert (L16 : zlen ([16; 0; 1; f] ++ zs) = 16) by (rewrite zlen_app, Lz; reflexivity). destruct (long_slice _ image L16) as [X Y]. rewrite Cx, X, Y.
    split; intros Q.
    + destruct Q as [Qz Qf]. apply Az in Qz. rewrite Qz. replace ((f =? 1) || (99 <? f) && (f <? 111))%bool with true by lia. reflexivity.
    + destruct (any zs); [reflexivity|]. destruct Az as [Az _]. specialize (Az eq_refl). replace ((f =? 1) || (99 <? f) && (f <? 111))%bool with false; [reflexivity|]. destruct ((f =? 1) || (99 <? f) && (f <? 111))%bool eqn:Z; [|reflexivity]. exfalso. apply Q. split; [exact Az|lia].
Qed.
Print Assumptions c85_headers.
Print Assumptions c85_single_image.
Print Assumptions c85_octet_too_many_refuted.
Print Assumptions c85_ends.
Example c85_ex : let m := fun x : bytes => x in let im := [255; 216; 7] in rfc_new_length (17 + zlen im) [20] /\
  parse_user_attribute_subpackets m false (one_image [20] im) = ([(im, im)], None) /\
  parse_user_attribute_subpackets m false (one_image [20] im ++ one_image [20] im) = ([([255; 216; 7; 20], [255; 216; 7; 20])], None).
Proof. split; [apply nl_one; unfold zlen; cbn; lia|]. split; [vm_compute; reflexivity|vm_compute; reflexivity]. Qed.
Example c85_headers_ex : let m := fun x : bytes => x in rfc_new_length (4 + zlen [7]) [5] /\ parse_user_attribute_subpackets m true ([5] ++ [1] ++ [3; 0; 2; 7]) = ([([7], [7])], None) /\
  parse_user_attribute_subpackets m true ([5] ++ [1] ++ [15; 0; 1; 1]) = ([], None) /\ parse_user_attribute_subpackets m true ([5] ++ [2] ++ [3; 0; 2; 7]) = ([], None).
Proof. split; [apply nl_one; unfold zlen; cbn; lia|]. repeat split; vm_compute; reflexivity. Qed.
