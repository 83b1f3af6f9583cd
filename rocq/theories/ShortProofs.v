(** Proofs: reading and writing keys. *)
From Verif Require Import Base BaseProofs Spec Utils Framing SpecFraming FramingProofs FramingProps Text Armor SpecArmor ArmorProofs ArmorProps S2k SessionKeys SessionKeysProofs KeyPackets KeyProofs SigPackets DataPackets UserAttr Packets SpecPackets PacketsProofs TransKey SpecTrans TransProofs TransRound Shortcuts SpecShort.

(** ** the header format does not matter to the validator and the loops *)
Section Map.
Variable h : header_format.
Notation r := (refmt h).
Lemma refmt_type p : pkt_type (r p) = pkt_type p. Proof. reflexivity. Qed.
Lemma strip_refmt l : strip_trust (map r l) = map r (strip_trust l).
Proof. induction l as [|p l IH]; [reflexivity|]. cbn [map strip_trust]. rewrite refmt_type. destruct (pkt_type p =? 12); [exact IH|reflexivity]. Qed.
Lemma before_refmt l : before (map r l) = map r (before l).
Proof. unfold before. now rewrite <- map_rev, strip_refmt. Qed.
Lemma filter_refmt (f : Z -> bool) l : filter (fun p => f (pkt_type p)) (map r l) = map r (filter (fun p => f (pkt_type p)) l).
Proof. induction l as [|p l IH]; [reflexivity|]. cbn [map filter]. rewrite refmt_type. destruct (f (pkt_type p)); cbn [map]; now rewrite IH. Qed.
Lemma only_refmt tys l : only tys (map r l) = only tys l.
Proof. unfold only. induction l as [|p l IH]; [reflexivity|]. cbn [map forallb]. now rewrite refmt_type, IH. Qed.
Lemma step_refmt secret v pre x nx : step secret v (map r pre) (r x) (option_map r nx) = step secret v pre x nx.
Proof.
  unfold step. rewrite refmt_type, !only_refmt, before_refmt. change (sig_ty (r x)) with (sig_ty x).
  rewrite (filter_refmt (fun t => negb (is_one t [2; 12])) (before pre)). unfold zlen. rewrite map_length.
  destruct (filter (fun p => negb (is_one (pkt_type p) [2; 12])) (before pre)) as [|q qs]; cbn [map]; destruct (before pre) as [|y ys]; cbn [map]; destruct nx as [n|]; reflexivity.
Qed.
Lemma vf_refmt secret v l : forall pre, validate_from secret v (map r pre) (map r l) = validate_from secret v pre l.
Proof.
  induction l as [|x l IH]; intros pre; [reflexivity|]. cbn [map validate_from]. replace (hd_error (map r l)) with (option_map r (hd_error l)) by (destruct l; reflexivity). rewrite step_refmt.
  destruct (step secret v pre x (hd_error l)) as [[]|e]; [|reflexivity]. cbn [bind]. change [r x] with (map r [x]). rewrite <- map_app. apply IH.
Qed.
Lemma validate_refmt secret l : validate_key secret (map r l) = validate_key secret l.
Proof.
  unfold validate_key. destruct l as [|k l]; [reflexivity|]. cbn [map]. rewrite refmt_type. destruct (negb (pkt_type k =? key_type secret)); [reflexivity|]. change (key_version (r k)) with (key_version k).
  destruct (key_version k); [|reflexivity]. cbn [bind]. exact (vf_refmt secret a (k :: l) []).
Qed.
Lemma span_sigs_refmt l : span_sigs (map r l) = (map r (fst (span_sigs l)), map r (snd (span_sigs l))).
Proof. induction l as [|p l IH]; [reflexivity|]. cbn [map span_sigs]. rewrite refmt_type. destruct (pkt_type p =? 2); [|reflexivity]. rewrite IH. destruct (span_sigs l). reflexivity. Qed.
Definition r2 (g : pkt * list pkt) := (r (fst g), map r (snd g)).
Lemma spans_refmt tys f : forall l, spans f tys (map r l) = (map r2 (fst (spans f tys l)), map r (snd (spans f tys l))).
Proof.
  induction f as [|f IH]; intros [|p l]; try reflexivity. cbn [map spans]. rewrite refmt_type. destruct (is_one (pkt_type p) tys); [|reflexivity]. rewrite span_sigs_refmt. destruct (span_sigs l) as [s rest]. cbn [fst snd]. rewrite IH. destruct (spans f tys rest). reflexivity.
Qed.
Lemma mapM_commute {A A' B B'} (f : A -> res B) (f' : A' -> res B') (a : A -> A') (b : B -> B') l : (forall x, f' (a x) = do y <- f x;; Ok (b y)) -> mapM f' (map a l) = do ys <- mapM f l;; Ok (map b ys).
Proof. intros H. induction l as [|x l IH]; [reflexivity|]. cbn [map mapM]. rewrite H. destruct (f x); [|reflexivity]. cbn [bind]. rewrite IH. destruct (mapM f l); reflexivity. Qed.
Variables (local mktime : Z -> res Z) (magic : bytes -> text).
Lemma sig_from_refmt p : sig_from local (r p) = do s <- sig_from local p;; Ok (sobject_fmt h s).
Proof. destruct p as [f b]. unfold sig_from, refmt. cbn [p_body p_fmt]. destruct b as [|s| | | | | |]; try reflexivity. destruct s as [v ? ? ? ? ? ct ?|v ? ? ? ? ? ? ?]; [destruct ((v =? 2) || (v =? 3)); [|reflexivity]; destruct (local ct); reflexivity|destruct (4 <=? v); reflexivity]. Qed.
Lemma uid_from_refmt p : uid_from (r p) = do s <- uid_from p;; Ok (h, snd s).
Proof. destruct p as [f b]. unfold uid_from, refmt. cbn [p_body p_fmt]. destruct b as [| | | | | | |d]; try reflexivity. destruct d; reflexivity. Qed.
Lemma attr_from_refmt p : attr_from magic (r p) = do s <- attr_from magic p;; Ok (h, snd s).
Proof. destruct p as [f b]. unfold attr_from, refmt. cbn [p_body p_fmt]. destruct b as [| | | | | |l|d]; try reflexivity. destruct (mapM (item_from magic) l); reflexivity. Qed.
Lemma key_from_refmt secret p : key_from local secret (r p) = do k <- key_from local secret p;; Ok (kobject_fmt h k).
Proof. destruct p as [f b]. unfold key_from, refmt. cbn [p_body p_fmt]. destruct b as [| | | |s k|s k| |]; try reflexivity; [|destruct secret; [reflexivity|]]; unfold key_from_pub; [destruct (local (k_ctime (s_pub k)))|destruct (local (k_ctime k))]; reflexivity. Qed.
Lemma with_refmt {A} (f : pkt -> res A) (b : A -> A) : (forall p, f (r p) = do s <- f p;; Ok (b s)) -> forall g, with_sigs local f (r2 g) = do u <- with_sigs local f g;; Ok (b (fst u), map (sobject_fmt h) (snd u)).
Proof.
  intros H [p s]. unfold with_sigs, r2. cbn [fst snd]. rewrite H. destruct (f p) as [a|e]; [|reflexivity]. cbn [bind]. rewrite (mapM_commute (sig_from local) _ r (sobject_fmt h) s sig_from_refmt). destruct (mapM (sig_from local) s); reflexivity.
Qed.
Lemma from_refmt secret l : from_packets local magic secret (map r l) = do o <- from_packets local magic secret l;; Ok (reformat h o).
Proof.
  unfold from_packets. rewrite validate_refmt. destruct (validate_key secret l) as [[]|e]; [|reflexivity]. cbn [bind]. destruct l as [|p t]; [reflexivity|]. cbn [map]. rewrite key_from_refmt. destruct (key_from local secret p) as [k|e]; [|reflexivity]. cbn [bind].
  rewrite span_sigs_refmt. destruct (span_sigs t) as [s rest]. cbn [fst snd]. rewrite (mapM_commute _ _ r _ s sig_from_refmt). destruct (mapM (sig_from local) s) as [so|e]; [|reflexivity]. cbn [bind].
  rewrite map_length, spans_refmt. destruct (spans (length rest) [13] rest) as [us r0]. cbn [fst snd].
  rewrite (mapM_commute (with_sigs local uid_from) _ r2 _ us (with_refmt uid_from (fun s => (h, snd s)) uid_from_refmt)). destruct (mapM (with_sigs local uid_from) us) as [uo|e]; [|reflexivity]. cbn [bind].
  rewrite map_length, spans_refmt. destruct (spans (length r0) [17] r0) as [ats r1]. cbn [fst snd].
  rewrite (mapM_commute (with_sigs local (attr_from magic)) _ r2 _ ats (with_refmt (attr_from magic) (fun s => (h, snd s)) attr_from_refmt)). destruct (mapM (with_sigs local (attr_from magic)) ats) as [ao|e]; [|reflexivity]. cbn [bind].
  rewrite map_length, spans_refmt. destruct (spans (length r1) [14; 7] r1) as [sb r3]. cbn [fst snd].
  rewrite (mapM_commute (with_sigs local (key_from local secret)) _ r2 _ sb (with_refmt (key_from local secret) (kobject_fmt h) (key_from_refmt secret))). destruct (mapM (with_sigs local (key_from local secret)) sb) as [bo|e]; [|reflexivity]. reflexivity.
Qed.
End Map.

(** ** binary data *)
Lemma packet_first p enc : representable p -> (hfmt p = NewH -> pcontent p <> []) -> packet_bytes p = Ok enc -> exists b t, enc = b :: t /\ 128 <= b.
Proof.
  intros R N E. destruct (packet_bytes_conforms p R N) as (enc' & E' & H). rewrite E in E'. apply ok_inj in E' as <-. destruct H as [t body l H| |t body lt l H H']; do 2 eexists; (split; [reflexivity|]); try lia. destruct H'; lia.
Qed.
Lemma not_armor_high b t : 128 <= b -> is_armor (b :: t) = false.
Proof.
  intros H. unfold is_armor. change (zlen DASHES) with 5. destruct (slice (b :: t) 0 5) as [|c l] eqn:E.
  - destruct (forallb _ []); reflexivity.
  - assert (c = b). { unfold slice in E. change (clip (zlen (b :: t)) 0) with (Z.min 0 (zlen (b :: t))) in E. rewrite Z.min_l in E by (unfold zlen; lia). cbn [Z.to_nat skipn] in E. destruct (Z.to_nat (clip (zlen (b :: t)) 5 - 0)); [discriminate E|]. cbn [firstn] in E. congruence. }
    subst c. cbn [forallb]. replace (b <? 128) with false by lia. reflexivity.
Qed.
Lemma pkts_not_armor fl rec ps encs : exact_log fl -> Forall (pkt_ok fl rec) ps -> mapM (pkt_bytes fl rec) ps = Ok encs -> is_armor (concat encs) = false.
Proof.
  intros Hfl F E. destruct F as [|p ps Hp _]; [cbn in E; apply ok_inj in E as <-; reflexivity|]. cbn [mapM] in E. apply bind_ok in E as (e & Ee & E). apply bind_ok in E as (es & _ & E). apply ok_inj in E as <-.
  destruct (pkt_ok_back fl rec p Hfl Hp) as (c & A & B & C & _). unfold pkt_bytes in Ee. rewrite A in Ee. cbn [bind] in Ee. destruct (packet_first _ _ C (fun _ => B) Ee) as (b & t & -> & Hb). cbn [concat app]. apply not_armor_high. exact Hb.
Qed.
Lemma read_binary fl rec ps encs : exact_log fl -> Forall (pkt_ok fl rec) ps -> mapM (pkt_bytes fl rec) ps = Ok encs -> read_packets (InBytes (concat encs)) false = Ok (map as_read ps).
Proof.
  intros Hfl F E. unfold read_packets. cbn [input_armor]. rewrite (pkts_not_armor fl rec ps encs Hfl F E). cbn [bind]. destruct (pkts_round fl rec ps Hfl F) as (encs' & E1 & E2 & _). rewrite E in E1. apply ok_inj in E1 as <-. rewrite E2. reflexivity.
Qed.
(** ** armored data *)
Lemma join_all (P : Z -> Prop) sep ls : Forall P sep -> Forall (Forall P) ls -> Forall P (join sep ls).
Proof. intros S. induction 1 as [|l ls Hl F IH]; [constructor|]. destruct ls as [|m ls]; [exact Hl|]. cbn [join] in *. rewrite !Forall_app. auto. Qed.
Definition ascii (t : text) : Prop := Forall (fun c => 0 <= c < 128) t.
Lemma b64char_range i : 0 <= i < 64 -> 0 <= b64char i < 128.
Proof. intros H. unfold b64char. repeat match goal with |- context [if ?b then _ else _] => destruct b eqn:? end; lia. Qed.
Lemma b64_ascii d : wf d -> ascii (b64encode d).
Proof. intros H. eapply Forall_impl; [|exact (b64encode_chars d H)]. intros c (A & _ & [->|(i & Hi & ->)]); [lia|now apply b64char_range]. Qed.
Lemma public_text data ver : wf data -> no_break ver -> ascii ver -> exists t rest, armor_str (Armor 2 data None None (Some ver) None None None None None) = Ok t /\
  from_ascii t = Ok (Armor 2 data None None (Some ver) None None None None None) /\ ascii t /\ t = str "-----BEGIN PGP PUBLIC KEY BLOCK-----" ++ [10] ++ rest.
Proof.
  intros W Nb As. set (a := Armor 2 data None None (Some ver) None None None None None).
  assert (Hok : armor_ok a) by (split; cbn; auto; lia). destruct (c18_round a Hok eq_refl) as (t & T1 & T2). destruct (armor_str_lines a Hok eq_refl) as (h & tl & dl & cb & E & _ & Hd & Ht & _ & Hcc & _ & _ & Hwc). cbv zeta in E.
  rewrite T1 in E. apply ok_inj in E. exists t.
  assert (Eh : h = str "-----BEGIN PGP PUBLIC KEY BLOCK-----") by (inversion Hd; reflexivity).
  assert (Et : tl = str "-----END PGP PUBLIC KEY BLOCK-----"). { destruct Ht as (r & Er & ->). rewrite Eh in Er. change (str "-----BEGIN PGP PUBLIC KEY BLOCK-----") with (str "-----BEGIN " ++ str "PGP PUBLIC KEY BLOCK-----") in Er. apply app_inv_head in Er. now rewrite <- Er. }
  assert (Es : exists rest, t = h ++ [10] ++ rest). { rewrite E. cbn [hlines_of]. unfold hlines_of. cbn [a version comment message_id hash_algorithms charset opt_line app]. eexists. cbn [join]. rewrite <- !app_assoc. reflexivity. }
  destruct Es as (rest & Es). exists rest. split; [exact T1|]. split; [exact T2|]. split; [|rewrite <- Eh; exact Es]. rewrite E. apply Forall_app. split; [|repeat constructor; lia].
  assert (S : forall s, forallb (fun c => (0 <=? c) && (c <? 128)) s = true -> ascii s). { intros s F. apply Forall_forall. intros c I. rewrite forallb_forall in F. specialize (F c I). cbn beta in F. lia. }
  apply join_all; [repeat constructor; lia|]. constructor; [rewrite Eh; apply S; reflexivity|]. apply Forall_app. split.
  - unfold hlines_of. cbn [a version comment message_id hash_algorithms charset opt_line app]. constructor; [|constructor]. apply Forall_app. split; [apply S; reflexivity|]. apply Forall_app. split; [apply S; reflexivity|exact As].
  - constructor; [constructor|]. apply Forall_app. split; [|constructor; [constructor; [lia|now apply b64_ascii]|constructor; [rewrite Et; apply S; reflexivity|constructor]]].
    apply Forall_forall. intros l Il. apply Forall_forall. intros c Ic. pose proof (b64_ascii data W) as B. unfold ascii in B. rewrite Forall_forall in B. apply B. change data with (adata a). rewrite <- Hcc. apply in_concat. eauto.
Qed.
Lemma read_armored fl rec ps encs ver flag : exact_log fl -> Forall (pkt_ok fl rec) ps -> mapM (pkt_bytes fl rec) ps = Ok encs -> wf (concat encs) -> no_break ver -> ascii ver ->
  exists t, armor_str (Armor PGP_PUBLIC_KEY_BLOCK (concat encs) None None (Some ver) None None None None None) = Ok t /\ first_line (str "-----BEGIN PGP PUBLIC KEY BLOCK-----") t /\ forall i, given_as t i -> read_packets i flag = Ok (map as_read ps).
Proof.
  intros Hfl F E W Nb As. destruct (public_text (concat encs) ver W Nb As) as (t & rest & T1 & T2 & T3 & T4). exists t. split; [exact T1|]. split; [exists rest; exact T4|].
  assert (P : parse_ascii_packet_data t = Ok (map as_read ps, None)). { unfold parse_ascii_packet_data. rewrite T2. cbn [bind adata]. destruct (pkts_round fl rec ps Hfl F) as (encs' & E1 & E2 & _). rewrite E in E1. apply ok_inj in E1 as <-. now rewrite E2. }
  assert (SL : slice t 0 (zlen DASHES) = DASHES). { rewrite T4. (change (str "-----BEGIN PGP PUBLIC KEY BLOCK-----") with (DASHES ++ str "BEGIN PGP PUBLIC KEY BLOCK-----"); rewrite <- app_assoc; apply (slice_app' [] DASHES); reflexivity). }
  intros i [-> | ->]; unfold read_packets; cbn [input_armor].
  - rewrite SL. change (zlist_eqb DASHES DASHES) with true. cbn [bind]. rewrite P. reflexivity.
  - unfold is_armor. rewrite SL. change (forallb (fun c => c <? 128) DASHES) with true. change (zlist_eqb DASHES DASHES) with true. cbn iota. replace (forallb (fun c => c <? 128) t) with true; [cbn [bind]; rewrite P; reflexivity|].
    symmetry. apply forallb_forall. intros c I. unfold ascii in T3. rewrite Forall_forall in T3. specialize (T3 c I). lia.
Qed.

(** ** the round trip *)
Lemma rfc_new_length_wf n l : rfc_new_length n l -> wf l.
Proof. intros [m H|b0 b1 H H'|q H H']; repeat (apply wf_cons; split); auto; try apply wf_nil; unfold byte in *; lia. Qed.
Lemma rfc_packet_wf p enc : rfc_packet false p enc -> wf (pcontent p) -> wf enc.
Proof.
  intros H. remember false as f. destruct H as [t body l Ht Hl| |t body lt l Ht Hl]; [|discriminate|]; cbn [pcontent]; intros W; apply wf_cons; (split; [unfold byte|apply wf_app; split; [|exact W]]).
  - lia. - exact (rfc_new_length_wf _ _ Hl). - destruct Hl; lia. - destruct Hl; assumption.
Qed.
Lemma encs_wf fl rec ps : exact_log fl -> Forall (pkt_ok fl rec) ps -> (forall p d, In p ps -> body_content fl rec (p_body p) = Ok d -> wf d) -> forall encs, mapM (pkt_bytes fl rec) ps = Ok encs -> wf (concat encs).
Proof.
  intros Hfl. induction 1 as [|p ps Hp _ IH]; intros W encs E; [cbn in E; apply ok_inj in E as <-; apply wf_nil|]. cbn [mapM] in E. apply bind_ok in E as (e & Ee & E). apply bind_ok in E as (es & Es & E). apply ok_inj in E as <-.
  cbn [concat]. apply wf_app. split; [|apply IH; [intros q d I; apply W; now right|exact Es]]. destruct (pkt_ok_back fl rec p Hfl Hp) as (c & A & B & C & _). unfold pkt_bytes in Ee. rewrite A in Ee. cbn [bind] in Ee.
  destruct (packet_bytes_conforms _ C (fun _ => B)) as (e' & E' & H). rewrite Ee in E'. apply ok_inj in E' as <-. apply (rfc_packet_wf _ _ H). cbn [pcontent]. apply (W p c); [now left|exact A].
Qed.
Lemma kept_as_read local mktime secret h p : kept local mktime secret p -> as_read (refmt h p) = refmt h p.
Proof. destruct p as [f b]. unfold kept, refmt. cbn [p_body]. destruct b as [| | | | | | |d]; try reflexivity. destruct d; try contradiction; reflexivity. Qed.
Lemma mapM_app {A B} (f : A -> res B) a b : mapM f (a ++ b) = do x <- mapM f a;; do y <- mapM f b;; Ok (x ++ y).
Proof. induction a as [|z a IH]; cbn [app mapM bind]; [destruct (mapM f b); reflexivity|]. destruct (f z); [|reflexivity]. cbn [bind]. rewrite IH. destruct (mapM f a); [|reflexivity]. cbn [bind]. destruct (mapM f b); reflexivity. Qed.
Section Round.
Variables (local mktime : Z -> res Z) (magic : bytes -> text) (fl : Z -> Z) (rec : seckey -> res bytes).
Hypothesis Hfl : exact_log fl.
Lemma read_key_of secret l o i flag : validate_key secret l = Ok tt -> read_packets i flag = Ok l -> from_packets local magic secret l = Ok o -> read_key local magic i flag = Ok o.
Proof.
  intros V R F. unfold read_key. rewrite R. cbn [bind]. destruct l as [|p l]; [discriminate V|]. unfold validate_key in V. destruct (pkt_type p =? key_type secret) eqn:E; [|discriminate V]. destruct secret; cbn [key_type] in E.
  - replace (pkt_type p =? 6) with false by lia. rewrite E. exact F. - rewrite E. exact F.
Qed.
Lemma key_round_trip ver secret l o h : validate_key secret l = Ok tt -> (forall p, In p l -> pkt_type p <> 12) -> Forall (kept local mktime secret) l -> from_packets local magic secret l = Ok o ->
  Forall (pkt_ok fl rec) (map (refmt h) l) ->
  (exists b, serialize_key mktime fl rec ver o false (Some h) = Ok (InBytes b) /\ read_key local magic (InBytes b) false = Ok (reformat h o)) /\
  ((forall p d, In p l -> body_content fl rec (p_body p) = Ok d -> wf d) -> no_break ver -> ascii ver ->
   exists t, serialize_key mktime fl rec ver o true (Some h) = Ok (InStr t) /\ first_line (str "-----BEGIN PGP PUBLIC KEY BLOCK-----") t /\ forall i flag, given_as t i -> read_key local magic i flag = Ok (reformat h o)).
Proof.
  intros V N K F P. destruct (round_trust local mktime magic secret l [] ltac:(now rewrite app_nil_r) Logic.I N K) as (o' & F' & T). rewrite app_nil_r in F'. rewrite F in F'. apply ok_inj in F' as <-.
  destruct (pkts_round fl rec _ Hfl P) as (encs & E & _).
  assert (A : map as_read (map (refmt h) l) = map (refmt h) l). { rewrite map_map. apply map_ext_in. intros p I. rewrite Forall_forall in K. exact (kept_as_read _ _ _ _ _ (K p I)). }
  assert (VR : validate_key secret (map (refmt h) l) = Ok tt) by (rewrite validate_refmt; exact V).
  assert (FR : from_packets local magic secret (map (refmt h) l) = Ok (reformat h o)) by (rewrite from_refmt, F; reflexivity).
  unfold serialize_key. rewrite T. cbn [bind]. rewrite E. cbn [bind]. split.
  - eexists. split; [reflexivity|]. apply (read_key_of secret (map (refmt h) l)); auto. rewrite (read_binary fl rec _ encs Hfl P E), A. reflexivity.
  - intros W Nb As. assert (We : wf (concat encs)). { apply (encs_wf fl rec _ Hfl P); [|exact E]. intros p d I. apply in_map_iff in I as (q & <- & I). exact (W q d I). }
    destruct (read_armored fl rec _ encs ver false Hfl P E We Nb As) as (t & T1 & T2 & _). exists t. rewrite T1. cbn [bind]. split; [reflexivity|]. split; [exact T2|]. intros i flag G.
    destruct (read_armored fl rec _ encs ver flag Hfl P E We Nb As) as (t' & T1' & _ & T3). rewrite T1 in T1'. apply ok_inj in T1' as <-. apply (read_key_of secret (map (refmt h) l)); auto. rewrite (T3 i G), A. reflexivity.
Qed.

(** ** user attributes with the old header format *)
Lemma parse_loop_prefix {A} (dec : raw_packet -> res A) ps enc : rfc_packets ps enc -> forall objs, mapM dec ps = Ok objs -> forall suf fuel pre, (length enc < fuel)%nat ->
  exists f, (length enc < f + length enc)%nat /\ parse_loop fuel dec (pre ++ enc ++ suf) (zlen pre) = (objs ++ fst (parse_loop f dec (pre ++ enc ++ suf) (zlen (pre ++ enc))), snd (parse_loop f dec (pre ++ enc ++ suf) (zlen (pre ++ enc)))).
Proof.
  induction 1 as [|part p ps enc encs Hp Hps IH]; intros objs Ho suf fuel pre Hf.
  - cbn in Ho. apply ok_inj in Ho as <-. exists fuel. split; [lia|]. cbn [app]. rewrite app_nil_r. destruct (parse_loop fuel dec (pre ++ suf) (zlen pre)). reflexivity.
  - destruct fuel as [|fuel]; [lia|]. pose proof (rfc_packet_len _ _ _ Hp) as L.
    cbn [mapM] in Ho. apply bind_ok in Ho as (o & Ho & Hos). apply bind_ok in Hos as (os & Hos & E). apply ok_inj in E as <-.
    cbn [parse_loop]. replace (zlen pre <? zlen (pre ++ (enc ++ encs) ++ suf)) with true by (rewrite !zlen_app; pose proof (zlen_nonneg encs); pose proof (zlen_nonneg suf); lia).
    unfold packet_from_packet_data. rewrite <- app_assoc. rewrite (raw_from_data_rfc part p enc pre (encs ++ suf) Hp). cbn [bind]. rewrite Ho. cbn [bind].
    rewrite app_length in Hf. destruct (IH os Hos suf fuel (pre ++ enc)) as (f & Hf' & E); [unfold zlen in L; lia|]. rewrite <- !app_assoc in E. rewrite E. exists f. split; [lia|]. rewrite ?app_assoc. reflexivity.
Qed.
Lemma pfd_tag fuel : forall data o t acc o' h' t' b, t <> 0 -> pfd_loop fuel data o (Some t) NewH acc = Ok (o', h', t', b) -> t' = t.
Proof.
  induction fuel as [|f IH]; intros data o t acc o' h' t' b N H; [discriminate H|]. rewrite pfd_loop_some in H by exact N. unfold pfd_rest in H. apply bind_ok in H as ([[o1 n] inc] & _ & H). destruct inc; [exact (IH _ _ _ _ _ _ _ _ N H)|]. congruence.
Qed.
Lemma raw_high data pre b rest o r : data = pre ++ b :: rest -> 193 <= b < 256 -> raw_from_data data (zlen pre) = Ok (o, r) -> ptype r = b - 192.
Proof.
  intros -> Hb H. unfold raw_from_data in H. apply bind_ok in H as ([[[o1 h1] t1] b1] & H & E). apply ok_inj in E. injection E as _ <-. rewrite pfd_loop_none in H. rewrite (get_at pre rest b _ eq_refl) in H. cbn [bind] in H.
  assert (HB : byte b) by (unfold byte; lia). rewrite (land_64_byte b HB) in H. replace ((b / 64) mod 2 =? 0) with false in H by lia. rewrite land_63 in H. unfold pfd_rest in H. apply bind_ok in H as ([[o2 n] inc] & _ & H). cbn [ptype].
  assert (N : b mod 64 <> 0) by lia. assert (M : b mod 64 = b - 192) by lia. destruct inc; [rewrite (pfd_tag _ _ _ _ _ _ _ _ _ N H); exact M|]. injection H as _ _ <- _. exact M.
Qed.
Lemma dec_type456 r p : In (ptype r) [4; 5; 6] -> pkt_dec r = Ok p -> pkt_type p = ptype r.
Proof.
  intros I H. unfold pkt_dec in H. apply bind_ok in H as (b & H & E). apply ok_inj in E as <-. unfold pkt_type. cbn [p_body]. destruct I as [I|[I|[I|[]]]]; rewrite <- I in *; unfold body_dec in H; cbn [Z.eqb Pos.eqb] in H; apply bind_ok in H as (x & _ & H); apply ok_inj in H as <-; reflexivity.
Qed.
Lemma accepted_types secret p l : validate_key secret (p :: l) = Ok tt -> forall q, In q l -> ~ In (pkt_type q) [4; 5; 6].
Proof.
  intros V q I. destruct (accepted_well_formed _ _ V) as (k & ss & gs & a & b & c & v & E & Tk & _ & Ts & F & _). change (flat ((k, ss) :: gs)) with (k :: flat_sgs ss ++ flat gs) in E. injection E as -> ->. pose proof (kt_st secret) as KS.
  assert (SG : forall g, In g ((k, ss) :: gs) -> In q (flat_sgs (snd g)) -> ~ In (pkt_type q) [4; 5; 6]). { intros g Ig Iq. rewrite Forall_forall in F. pose proof (F g Ig) as G. unfold group_ok in G. destruct (flat_sgs_types _ _ _ G Iq) as [[E _]|E]; rewrite E; cbn; lia. }
  apply in_app_iff in I as [I|I]; [apply (SG (k, ss)); [now left|exact I]|]. unfold flat in I. apply in_flat_map in I as (g & Ig & I). destruct I as [<-|I]; [|apply (SG g); [now right|exact I]].
  assert (J : In (pkt_type (fst g)) (repeat 13 a ++ repeat 17 b ++ repeat (subkey_type secret) c)) by (rewrite <- Ts; exact (in_map (fun g : pkt * sgs => pkt_type (fst g)) _ _ Ig)). rewrite !in_app_iff in J. destruct J as [J|[J|J]]; apply repeat_spec in J; rewrite J; cbn; try lia.
Qed.
Lemma old_attr_bytes c enc : zlen c < 16777216 -> packet_bytes (Raw OldH 17 c) = Ok enc -> exists b t, enc = b :: t /\ In (b - 192) [4; 5; 6].
Proof.
  intros L H. unfold packet_bytes, packet_bytes_fuel in H. cbn [hfmt pcontent ptype] in H. destruct (old_packet_length_to_bytes (zlen c)) as [lt lb] eqn:E. apply bind_ok in H as (hh & Hh & H). apply bind_ok in H as (ll & _ & H). apply ok_inj in H as <-.
  apply mk_bytes_inv in Hh as [-> _]. assert (L0 : 0 <= zlen c < 16777216) by (pose proof (zlen_nonneg c); lia). cbn [app]. do 2 eexists. split; [reflexivity|]. pose proof (old_length_conforms (zlen c) lt lb L0 E) as [_ R]. change (Z.shiftl 17 2) with 68. assert (lt = 0 \/ lt = 1 \/ lt = 2) as [-> |[-> | ->]] by (clear -R; inversion R; auto); cbn; auto.
Qed.
Lemma parse_bad ps encs b rest qs : Forall (pkt_ok fl rec) ps -> mapM (pkt_bytes fl rec) ps = Ok encs -> In (b - 192) [4; 5; 6] -> listed (parse_binary_packet_data pkt_dec (concat encs ++ b :: rest)) = Ok qs -> exists q tl, qs = map as_read ps ++ q :: tl /\ In (pkt_type q) [4; 5; 6].
Proof.
  intros F E I H.
  assert (X : exists raws, rfc_packets raws (concat encs) /\ mapM pkt_dec raws = Ok (map as_read ps)).
  { assert (Y : exists raws, (forall p, In p raws -> representable p /\ (hfmt p = NewH -> pcontent p <> [])) /\ mapM pkt_dec raws = Ok (map as_read ps) /\ mapM (pkt_bytes fl rec) ps = mapM packet_bytes raws).
    { clear E H. induction F as [|p ps Hp _ (raws & I1 & I2 & I3)]; [exists []; repeat split; easy|]. destruct (pkt_ok_back fl rec p Hfl Hp) as (c & A & B & C & D).
      exists (Raw (p_fmt p) (pkt_type p) c :: raws). split; [intros q [<- | Hq]; auto|]. split; [cbn [mapM map]; rewrite D; cbn [bind]; rewrite I2; reflexivity|]. cbn [mapM]. rewrite <- I3. unfold pkt_bytes at 1. rewrite A. reflexivity. }
    destruct Y as (raws & I1 & I2 & I3). destruct (mapM_packet_bytes raws I1) as (encs' & E' & R). rewrite <- I3, E in E'. apply ok_inj in E' as <-. eauto. }
  destruct X as (raws & R & D). unfold parse_binary_packet_data in H.
  destruct (parse_loop_prefix pkt_dec raws (concat encs) R _ D (b :: rest) (S (length (concat encs ++ b :: rest))) []) as (f & Hf & P); [rewrite app_length; lia|]. cbn [app] in P. change (zlen []) with 0 in P. rewrite P in H. unfold listed in H. cbn [fst snd] in H.
  destruct f as [|f]; [cbn in H; discriminate H|]. cbn [parse_loop] in H. replace (zlen (concat encs) <? zlen (concat encs ++ b :: rest)) with true in H by (rewrite zlen_app, zlen_cons; pose proof (zlen_nonneg rest); lia).
  destruct (packet_from_packet_data pkt_dec (concat encs ++ b :: rest) (zlen (concat encs))) as [[o' q]|e] eqn:Q; [|discriminate H]. destruct (parse_loop f pkt_dec (concat encs ++ b :: rest) o') as [tl e]. cbn [fst snd] in H. destruct e; [discriminate H|]. apply ok_inj in H as <-. exists q, tl. split; [reflexivity|].
  unfold packet_from_packet_data in Q. apply bind_ok in Q as ([o1 r] & Q1 & Q). apply bind_ok in Q as (q' & Q2 & Q). apply ok_inj in Q. injection Q as _ <-.
  assert (T : ptype r = b - 192) by (eapply raw_high; [reflexivity|cbn in I; lia|exact Q1]). rewrite (dec_type456 r q'); rewrite ?T; auto.
Qed.
Lemma bad_key ps encs b rest i flag : ps <> [] -> Forall (pkt_ok fl rec) ps -> mapM (pkt_bytes fl rec) ps = Ok encs -> In (b - 192) [4; 5; 6] ->
  (read_packets i flag = listed (parse_binary_packet_data pkt_dec (concat encs ++ b :: rest))) -> forall o, read_key local magic i flag <> Ok o.
Proof.
  intros N F E I R o H. unfold read_key in H. apply bind_ok in H as (qs & Hq & H). rewrite R in Hq. destruct (parse_bad ps encs b rest qs F E I Hq) as (q & tl & -> & Tq). destruct ps as [|p ps]; [congruence|]. cbn [map app] in H.
  assert (G : forall secret, from_packets local magic secret (as_read p :: map as_read ps ++ q :: tl) <> Ok o). { intros secret G. unfold from_packets in G. apply bind_ok in G as ([] & V & _). apply (accepted_types _ _ _ V q); [apply in_app_iff; right; now left|exact Tq]. }
  destruct (pkt_type (as_read p) =? 6); [exact (G false H)|]. destruct (pkt_type (as_read p) =? 5); [exact (G true H)|discriminate H].
Qed.
Lemma old_attr_lost ver secret l a p b o : l = a ++ p :: b -> pkt_type p = 17 -> validate_key secret l = Ok tt -> (forall p, In p l -> pkt_type p <> 12) -> Forall (kept local mktime secret) l -> from_packets local magic secret l = Ok o ->
  Forall (pkt_ok fl rec) (map (refmt OldH) a) -> (forall c, body_content fl rec (p_body p) = Ok c -> zlen c < 16777216) ->
  (forall d, serialize_key mktime fl rec ver o false None = Ok d -> forall k, read_key local magic d false <> Ok k) /\
  ((forall q d, In q l -> body_content fl rec (p_body q) = Ok d -> wf d) -> no_break ver -> ascii ver -> forall d, serialize_key mktime fl rec ver o true None = Ok d -> forall flag k, read_key local magic d flag <> Ok k).
Proof.
  intros -> T V N K F P L. destruct (round_trust local mktime magic secret _ [] ltac:(rewrite app_nil_r; exact V) Logic.I N K) as (o' & F' & T'). rewrite app_nil_r in F'. rewrite F in F'. apply ok_inj in F' as <-.
  assert (Na : map (refmt OldH) a <> []). { destruct a as [|k a]; [|discriminate]. exfalso. cbn [app] in V. unfold validate_key in V. rewrite T in V. destruct secret; discriminate V. }
  assert (S : forall bs, mapM (pkt_bytes fl rec) (map (refmt OldH) (a ++ p :: b)) = Ok bs -> exists encs x rest, mapM (pkt_bytes fl rec) (map (refmt OldH) a) = Ok encs /\ In (x - 192) [4; 5; 6] /\ concat bs = concat encs ++ x :: rest).
  { intros bs H. rewrite map_app in H. cbn [map] in H. destruct (pkts_round fl rec _ Hfl P) as (encs & E & _). rewrite (mapM_app _ _ _) in H. rewrite E in H. cbn [bind mapM] in H. apply bind_ok in H as (r & H & Hr). apply bind_ok in H as (e & He & H). apply bind_ok in H as (es & _ & H). apply ok_inj in H as <-. apply ok_inj in Hr as <-.
    unfold pkt_bytes in He. change (pkt_type (refmt OldH p)) with (pkt_type p) in He. rewrite T in He. apply bind_ok in He as (c & Hc & He). destruct (old_attr_bytes c e (L c Hc) He) as (x & t & -> & Ix). exists encs, x, (t ++ concat es). split; [exact E|]. split; [exact Ix|]. rewrite concat_app. reflexivity. }
  split.
  - intros d H. unfold serialize_key in H. rewrite T' in H. cbn [bind] in H. apply bind_ok in H as (bs & Hb & H). apply ok_inj in H as <-. destruct (S bs Hb) as (encs & x & rest & E & Ix & Ec). rewrite Ec. apply (bad_key (map (refmt OldH) a) encs x rest); auto.
    unfold read_packets. cbn [input_armor]. replace (is_armor (concat encs ++ x :: rest)) with false; [reflexivity|]. symmetry.
    destruct (map (refmt OldH) a) as [|q qs]; [congruence|]. cbn [mapM] in E. apply bind_ok in E as (e & Ee & E). apply bind_ok in E as (es & _ & E). apply ok_inj in E as <-. destruct (pkt_ok_back fl rec q Hfl (Forall_inv P)) as (c & A & B & C & _). unfold pkt_bytes in Ee. rewrite A in Ee. cbn [bind] in Ee. destruct (packet_first _ _ C (fun _ => B) Ee) as (y & t & -> & Hy). cbn [concat app]. apply not_armor_high. exact Hy.
  - intros W Nb As d H. unfold serialize_key in H. rewrite T' in H. cbn [bind] in H. apply bind_ok in H as (bs & Hb & H). destruct (S bs Hb) as (encs & x & rest & E & Ix & Ec).
    assert (Wb : wf (concat bs)).
    { assert (W' : forall q d, In q (a ++ p :: b) -> body_content fl rec (p_body (refmt OldH q)) = Ok d -> wf d) by exact W. clear -Hb W'. revert bs Hb W'. generalize (a ++ p :: b). intros l. induction l as [|q l IH]; intros bs Hb W; [cbn in Hb; apply ok_inj in Hb as <-; apply wf_nil|]. cbn [map mapM] in Hb. apply bind_ok in Hb as (e & He & Hb). apply bind_ok in Hb as (es & Hs & Hb). apply ok_inj in Hb as <-. cbn [concat]. apply wf_app. split; [|apply IH; [exact Hs|intros r d I; apply W; now right]].
      unfold pkt_bytes in He. apply bind_ok in He as (c & Hc & He). unfold packet_bytes, packet_bytes_fuel in He. cbn [refmt hfmt p_fmt pcontent] in He. destruct (old_packet_length_to_bytes (zlen c)) as [lt lb]. apply bind_ok in He as (h1 & H1 & He). apply bind_ok in He as (h2 & H2 & He). apply ok_inj in He as <-. apply mk_bytes_inv in H1 as [-> H1]. apply mk_bytes_inv in H2 as [-> H2]. rewrite !wf_app. split; [exact H1|]. split; [exact H2|]. apply (W q c); [now left|exact Hc]. }
    apply bind_ok in H as (t & Ht & H). apply ok_inj in H as <-. intros flag. destruct (public_text (concat bs) ver Wb Nb As) as (t' & r & T1 & T2 & T3 & T4). change PGP_PUBLIC_KEY_BLOCK with 2 in Ht. rewrite Ht in T1. apply ok_inj in T1 as <-.
    apply (bad_key (map (refmt OldH) a) encs x rest); auto. unfold read_packets. cbn [input_armor].
    assert (SL : slice t 0 (zlen DASHES) = DASHES). { rewrite T4. change (str "-----BEGIN PGP PUBLIC KEY BLOCK-----") with (DASHES ++ str "BEGIN PGP PUBLIC KEY BLOCK-----"). rewrite <- app_assoc. apply (slice_app' [] DASHES); reflexivity. }
    rewrite SL. change (zlist_eqb DASHES DASHES) with true. cbn [bind]. unfold parse_ascii_packet_data. rewrite T2. cbn [bind adata]. rewrite Ec. reflexivity.
Qed.
End Round.

(** ** the public copy *)
Definition as_octets (q q' : pkt) : Prop := p_fmt q = p_fmt q' /\ pkt_type q = pkt_type q' /\ forall fl rec, body_content fl rec (p_body q) = body_content fl rec (p_body q').
Definition not_secret (q : pkt) : Prop := match p_body q with BSec _ _ => False | _ => True end.
Section Public.
Variables (mktime : Z -> res Z) (now_p : kobject -> option Z).
Lemma key_public sub k q : key_to mktime sub k = Ok q -> exists q', key_to mktime sub (public_kobject now_p k) = Ok q' /\ as_octets q' (public_part q) /\ not_secret q'.
Proof.
  unfold key_to. intros H. apply bind_ok in H as (ct & Hct & H). apply bind_ok in H as ([] & Hx & H). cbn [public_kobject ko_created ko_pub ko_expires ko_sec ko_fmt k_version]. rewrite Hct. cbn [bind]. rewrite Hx. cbn [bind]. eexists. split; [reflexivity|].
  split; [|exact Logic.I]. set (k0 := ko_pub k) in *.
  assert (G : forall fl, pub_content fl (PubKey (k_version k0) ct (k_alg k0) None (k_n k0) (k_e k0) (if is_rsa_alg (k_alg k0) then now_p k else k_p k0) (k_q k0) (k_g k0) (k_y k0)) = pub_content fl (PubKey (k_version k0) ct (k_alg k0) None (k_n k0) (k_e k0) (k_p k0) (k_q k0) (k_g k0) (k_y k0))).
  { intros fl. unfold pub_content. cbn [k_version k_alg KeyPackets.k_exp k_n k_e k_p k_q k_g k_y k_ctime]. destruct (is_rsa_alg (k_alg k0)); reflexivity. }
  destruct (ko_sec k) as [s|]; [destruct (s_s2k s); [|discriminate H]|]; apply ok_inj in H as <-; (split; [reflexivity|]); (split; [reflexivity|]); intros fl rec; exact (G fl).
Qed.
Lemma sig_to_public s q : sig_to s = Ok q -> public_part q = q /\ not_secret q.
Proof. unfold sig_to. destruct (o_sig s); [discriminate|]. intros H. apply ok_inj in H as <-. split; [reflexivity|exact Logic.I]. Qed.
Definition rel (qs l : list pkt) : Prop := Forall2 as_octets qs (map public_part l) /\ Forall not_secret qs.
Lemma as_refl q : as_octets q q. Proof. repeat split. Qed.
Lemma rel_app a b c d : rel a c -> rel b d -> rel (a ++ b) (c ++ d).
Proof. intros [A1 A2] [B1 B2]. split; [rewrite map_app; now apply Forall2_app|now apply Forall_app]. Qed.
Lemma rel_same l : Forall (fun q => public_part q = q /\ not_secret q) l -> rel l l.
Proof. induction 1 as [|q l [E N] _ [I1 I2]]; [split; constructor|]. split; [cbn [map]; rewrite E; constructor; [apply as_refl|exact I1]|constructor; assumption]. Qed.
Lemma mapM_forall {A B} (f : A -> res B) (P : B -> Prop) l r : mapM f l = Ok r -> (forall a b, In a l -> f a = Ok b -> P b) -> Forall P r.
Proof. revert r. induction l as [|a l IH]; intros r E H; [cbn in E; apply ok_inj in E as <-; constructor|]. cbn [mapM] in E. apply bind_ok in E as (b & Eb & E). apply bind_ok in E as (bs & Ebs & E). apply ok_inj in E as <-. constructor; [eapply H; [now left|exact Eb]|]. apply IH; [exact Ebs|]. intros x y I. apply H. now right. Qed.
Lemma sigs_public s l : mapM sig_to s = Ok l -> rel l l.
Proof. intros H. apply rel_same. apply (mapM_forall _ _ _ _ H). intros a b _. apply sig_to_public. Qed.
Lemma emit_same {A} (f : A -> res pkt) gs ls : (forall a q, f a = Ok q -> public_part q = q /\ not_secret q) -> mapM (emit f) gs = Ok ls -> rel (concat ls) (concat ls).
Proof.
  intros F H. apply rel_same. apply Forall_concat. apply (mapM_forall _ _ _ _ H). intros [a s] b _ E. unfold emit in E. apply bind_ok in E as (q & Eq & E). apply bind_ok in E as (ss & Es & E). apply ok_inj in E as <-. constructor; [exact (F _ _ Eq)|]. apply (mapM_forall _ _ _ _ Es). intros x y _. apply sig_to_public.
Qed.
Lemma subs_public gs : forall ls, mapM (emit (key_to mktime true)) gs = Ok ls -> exists ls', mapM (emit (key_to mktime true)) (map (fun s => (public_kobject now_p (fst s), snd s)) gs) = Ok ls' /\ rel (concat ls') (concat ls).
Proof.
  induction gs as [|[k s] gs IH]; intros ls H; [cbn in H; apply ok_inj in H as <-; exists []; split; [reflexivity|split; constructor]|]. cbn [mapM] in H. apply bind_ok in H as (l1 & H1 & H). apply bind_ok in H as (l2 & H2 & H). apply ok_inj in H as <-.
  destruct (IH l2 H2) as (l2' & E2 & R2). unfold emit in H1. cbn [fst snd] in H1. apply bind_ok in H1 as (q & Hq & H1). apply bind_ok in H1 as (ss & Hs & H1). apply ok_inj in H1 as <-. destruct (key_public true k q Hq) as (q' & Hq' & A & N).
  cbn [map mapM]. unfold emit at 1. cbn [fst snd]. rewrite Hq'. cbn [bind]. rewrite Hs. cbn [bind]. rewrite E2. cbn [bind]. eexists. split; [reflexivity|]. cbn [concat]. apply rel_app; [|exact R2]. destruct (sigs_public _ _ Hs) as [S1 S2]. split; [cbn [map]; constructor; assumption|constructor; assumption].
Qed.
Lemma to_packets_public o l : to_packets mktime o = Ok l -> exists qs, to_packets mktime (to_public_key now_p o) = Ok qs /\ rel qs l.
Proof.
  unfold to_packets, to_public_key. intros H. cbn [tk_key tk_sigs tk_uids tk_attrs tk_subs]. apply bind_ok in H as (q & Hq & H). apply bind_ok in H as (s & Hs & H). apply bind_ok in H as (u & Hu & H). apply bind_ok in H as (a & Ha & H). apply bind_ok in H as (b & Hb & H). apply ok_inj in H as <-.
  destruct (key_public false _ _ Hq) as (q' & Hq' & A & N). rewrite Hq', Hs, Hu, Ha. cbn [bind]. destruct (subs_public _ _ Hb) as (b' & Hb' & R). rewrite Hb'. cbn [bind]. eexists. split; [reflexivity|].
  change (q' :: s ++ concat u ++ concat a ++ concat b') with ([q'] ++ s ++ concat u ++ concat a ++ concat b'). change (q :: s ++ concat u ++ concat a ++ concat b) with ([q] ++ s ++ concat u ++ concat a ++ concat b).
  apply rel_app; [split; repeat constructor; auto; apply A|]. apply rel_app; [exact (sigs_public _ _ Hs)|]. apply rel_app; [apply (emit_same uid_to _ _) with (2 := Hu); intros x y E; unfold uid_to in E; apply ok_inj in E as <-; split; [reflexivity|exact Logic.I]|].
  apply rel_app; [|exact R]. apply (emit_same attr_to _ _) with (2 := Ha). intros x y E. unfold attr_to in E. apply bind_ok in E as (z & _ & E). apply ok_inj in E as <-. split; [reflexivity|exact Logic.I].
Qed.
Lemma octets_same fl rec h qs ls : Forall2 as_octets qs ls -> mapM (pkt_bytes fl rec) (map (refmt h) qs) = mapM (pkt_bytes fl rec) (map (refmt h) ls).
Proof.
  induction 1 as [|q q' qs ls (A1 & A2 & A3) _ IH]; [reflexivity|]. cbn [map mapM]. rewrite IH. unfold pkt_bytes at 1 3. cbn [refmt p_body p_fmt]. change (pkt_type (refmt h q)) with (pkt_type q). change (pkt_type (refmt h q')) with (pkt_type q'). rewrite A3, A2. reflexivity.
Qed.
End Public.
(** the public parts of an accepted secret key are an accepted public key *)
Lemma public_type p : pkt_type (public_part p) = match pkt_type p with 5 => 6 | 7 => 14 | t => t end \/ (exists d, p_body p = BData d) /\ public_part p = p.
Proof. destruct p as [f b]. unfold public_part, pkt_type. cbn [p_body]. destruct b as [| | | |[] ?|[] ?| |d]; try (left; reflexivity). right. split; [eauto|reflexivity]. Qed.
Lemma public_keeps p : pkt_type p <> 5 -> pkt_type p <> 7 -> public_part p = p.
Proof. destruct p as [f b]. unfold public_part, pkt_type. cbn [p_body]. destruct b as [| | | |[] ?|[] ?| |d]; intros; try reflexivity; cbn in *; congruence. Qed.
Lemma public_flat gs : map public_part (flat gs) = flat (map (fun g => (public_part (fst g), map (fun x => (public_part (fst x), map public_part (snd x))) (snd g))) gs).
Proof.
  unfold flat. induction gs as [|[p ss] gs IH]; [reflexivity|]. cbn [flat_map map fst snd]. rewrite map_app, IH. f_equal. cbn [map]. f_equal. unfold flat_sgs. clear IH. induction ss as [|[s ts] ss IH]; [reflexivity|]. cbn [flat_map map fst snd]. rewrite map_app, IH. reflexivity.
Qed.
Lemma public_sig p : pkt_type p = 2 -> public_part p = p. Proof. intros E. apply public_keeps; lia. Qed.
Lemma kept_public_type local mktime p : kept local mktime true p -> pkt_type (public_part p) = (if pkt_type p =? 5 then 6 else if pkt_type p =? 7 then 14 else pkt_type p) /\ kept local mktime false (public_part p).
Proof.
  destruct p as [f b]. unfold kept, public_part, pkt_type. cbn [p_body]. destruct b as [|s| | |sub k|sub k|l|d]; try contradiction; intros K.
  - split; [reflexivity|exact K]. - split; [destruct sub; reflexivity|]. cbn [p_body]. split; [reflexivity|apply K]. - destruct K as [K _]. discriminate K. - split; [reflexivity|exact K]. - destruct d; try contradiction. split; [reflexivity|exact Logic.I].
Qed.
Lemma public_accepted local mktime l : validate_key true l = Ok tt -> Forall (kept local mktime true) l -> validate_key false (map public_part l) = Ok tt.
Proof.
  intros V K. destruct (accepted_well_formed _ _ V) as (k & ss & gs & a & b & c & v & -> & Tk & Hv & Ts & F & D & B & C). apply well_formed_accepted. rewrite public_flat. cbn [map fst snd].
  set (pg := fun g : pkt * sgs => (public_part (fst g), map (fun x => (public_part (fst x), map public_part (snd x))) (snd g))).
  assert (Kp : forall g, In g ((k, ss) :: gs) -> kept local mktime true (fst g)). { intros g Ig. rewrite Forall_forall in K. apply K. unfold flat. apply in_flat_map. exists g. split; [exact Ig|now left]. }
  assert (Tg : forall g, In g gs -> In (pkt_type (fst g)) [13; 17; 7]). { intros g Ig. assert (J : In (pkt_type (fst g)) (repeat 13 a ++ repeat 17 b ++ repeat (subkey_type true) c)) by (rewrite <- Ts; exact (in_map (fun g : pkt * sgs => pkt_type (fst g)) _ _ Ig)). rewrite !in_app_iff in J. destruct J as [J|[J|J]]; apply repeat_spec in J; rewrite J; cbn; auto. }
  assert (SG : forall g, In g ((k, ss) :: gs) -> map (fun x => (public_part (fst x), map public_part (snd x))) (snd g) = snd g).
  { intros g Ig. rewrite Forall_forall in F. pose proof (F g Ig) as G. unfold group_ok in G. rewrite Forall_forall in G. transitivity (map (fun x => x) (snd g)); [|apply map_id]. apply map_ext_in. intros [x ts] Ix. destruct (G _ Ix) as (X1 & _ & X3). cbn [fst snd] in *. rewrite (public_sig x X1). f_equal. transitivity (map (fun x => x) ts); [|apply map_id]. apply map_ext_in. intros t It. rewrite Forall_forall in X3. specialize (X3 t It). apply public_keeps; lia. }
  assert (Tt : forall g, In g gs -> pkt_type (public_part (fst g)) = (if pkt_type (fst g) =? 7 then 14 else pkt_type (fst g))). { intros g Ig. destruct (kept_public_type _ _ _ (Kp g (or_intror Ig))) as [E _]. rewrite E. pose proof (Tg g Ig) as I3. cbn in I3. replace (pkt_type (fst g) =? 5) with false by lia. reflexivity. }
  exists (public_part k), ss, (map pg gs), a, b, c, v. split; [f_equal; f_equal; f_equal; exact (SG (k, ss) (or_introl eq_refl))|]. destruct (kept_public_type _ _ _ (Kp (k, ss) (or_introl eq_refl))) as [Ek Kk]. cbn [fst] in Ek, Kk. rewrite Tk in Ek.
  split; [exact Ek|]. split. { destruct k as [f [| | | |s q|s q| |]]; try discriminate Hv; exact Hv. }
  split.
  { rewrite map_map. cbn [pg fst]. assert (E : map (fun x : pkt * sgs => pkt_type (public_part (fst x))) gs = map (fun t => if t =? 7 then 14 else t) (map (fun g : pkt * sgs => pkt_type (fst g)) gs)). { rewrite map_map. apply map_ext_in. exact Tt. }
    unfold pg. cbn [fst]. rewrite E, Ts, !map_app. assert (Rp : forall t n, map (fun t => if t =? 7 then 14 else t) (repeat t n) = repeat (if t =? 7 then 14 else t) n). { intros t n. induction n as [|n IH]; [reflexivity|]. cbn [repeat map]. now rewrite IH. } rewrite !Rp. reflexivity. }
  assert (AL : forall ty, In ty [5; 13; 17; 7] -> allowed false (if ty =? 5 then 6 else if ty =? 7 then 14 else ty) = allowed true ty). { intros ty [<-|[<-|[<-|[<-|[]]]]]; reflexivity. }
  split.
  { constructor.
    - rewrite Forall_forall in F. pose proof (F (k, ss) (or_introl eq_refl)) as G. unfold group_ok in *. cbn [fst snd] in *. rewrite Ek. rewrite Tk in G. exact G.
    - apply Forall_forall. intros g' I. apply in_map_iff in I as (g & <- & Ig). rewrite Forall_forall in F. pose proof (F g (or_intror Ig)) as G. unfold group_ok in *. unfold pg. cbn [fst snd]. rewrite (SG g (or_intror Ig)). rewrite (Tt g Ig). pose proof (Tg g Ig) as I3. cbn in I3.
      pose proof (AL (pkt_type (fst g)) ltac:(cbn; tauto)) as Q. replace (pkt_type (fst g) =? 5) with false in Q by lia. rewrite Q. exact G. }
  split; [exact D|]. split; [|exact C]. intros g' I T. apply in_map_iff in I as (g & <- & Ig). unfold pg in *. cbn [fst snd] in *. rewrite (SG g (or_intror Ig)). apply (B g Ig). pose proof (Tg g Ig) as I3. cbn in I3. rewrite (Tt g Ig) in T. destruct (pkt_type (fst g) =? 7) eqn:E7; [cbn; lia|]. cbn in T. lia.
Qed.
Section Copy.
Variables (local mktime : Z -> res Z) (magic : bytes -> text) (fl : Z -> Z) (rec : seckey -> res bytes).
Lemma public_copy l o now_p : validate_key true l = Ok tt -> (forall p, In p l -> pkt_type p <> 12) -> Forall (kept local mktime true) l -> from_packets local magic true l = Ok o ->
  exists q, from_packets local magic false (map public_part l) = Ok q /\ to_packets mktime q = Ok (map public_part l) /\
    forall ver armored hf, serialize_key mktime fl rec ver (to_public_key now_p o) armored hf = serialize_key mktime fl rec ver q armored hf.
Proof.
  intros V N K F. destruct (round_trust local mktime magic true l [] ltac:(now rewrite app_nil_r) Logic.I N K) as (o' & F' & T). rewrite app_nil_r in F'. rewrite F in F'. apply ok_inj in F' as <-.
  pose proof (public_accepted _ _ _ V K) as V'. assert (K' : Forall (kept local mktime false) (map public_part l)). { apply Forall_forall. intros p I. apply in_map_iff in I as (x & <- & Ix). rewrite Forall_forall in K. apply (kept_public_type _ _ _ (K x Ix)). }
  assert (N' : forall p, In p (map public_part l) -> pkt_type p <> 12). { intros p I. apply in_map_iff in I as (x & <- & Ix). rewrite Forall_forall in K. destruct (kept_public_type _ _ _ (K x Ix)) as [E _]. rewrite E. pose proof (N x Ix). destruct (pkt_type x =? 5); [lia|]. destruct (pkt_type x =? 7); lia. }
  destruct (round_trust local mktime magic false (map public_part l) [] ltac:(now rewrite app_nil_r) Logic.I N' K') as (q & Fq & Tq). rewrite app_nil_r in Fq. exists q. split; [exact Fq|]. split; [exact Tq|].
  intros ver armored hf. destruct (to_packets_public mktime now_p o l T) as (qs & Eq & R & _). unfold serialize_key. rewrite Eq, Tq. cbn [bind]. rewrite (octets_same fl rec _ qs _ R). reflexivity.
Qed.
End Copy.
