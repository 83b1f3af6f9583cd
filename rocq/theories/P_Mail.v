(** C105: a message encrypted to an exported key is read by the holder of the secret key. *)
From Verif Require Import Base BaseProofs Spec Utils UtilsProofs Text Utf8 SpecUtf8 Utf8Proofs Framing SpecFraming Armor SpecArmor ArmorProofs ArmorProps S2k SpecS2k Cipher SymCipher SessionKeys SessionKeysProofs KeyPackets SpecKey KeyProofs SigPackets SpecSig DataPackets UserAttr SpecAttr Packets SpecPackets PacketsProofs CfbProofs Message SpecMessage MsgProps TransKey SpecTrans TransRound Shortcuts SpecShort ShortProofs P_Packets P_Message P_Short.
From Verif Require Import Signable KeyOps SpecVerify VerifyProofs DemoRsa P_Keys PubMsg SpecPubMsg PubMsgProofs P_PubMsg P_Transparent P_SignMessage P_Stranger KeyCrypt SpecKeyCrypt.

Lemma span_sigs_in l : forall p, In p (snd (span_sigs l)) -> In p l.
Proof. induction l as [|x l IH]; intros p I; [exact I|]. cbn [span_sigs] in I. destruct (pkt_type x =? 2); [|exact I]. destruct (span_sigs l) as [a b]. cbn [snd] in *. right. auto. Qed.
Lemma spans_in tys : forall fuel l p, (In p (map fst (fst (spans fuel tys l))) -> In p l /\ In (pkt_type p) tys) /\ (In p (snd (spans fuel tys l)) -> In p l).
Proof.
  induction fuel as [|f IH]; intros [|x l] p; cbn [spans]; try (split; [intros []|auto]). destruct (is_one (pkt_type x) tys) eqn:T; [|split; [intros []|auto]].
  pose proof (span_sigs_in l) as S. destruct (span_sigs l) as [s r]. cbn [snd] in S. specialize (IH r p). destruct (spans f tys r) as [g r']. cbn [fst snd map] in *. destruct IH as [IH1 IH2]. split.
  - intros [<-|I]; [split; [now left|]|].
    + apply TransProofs.is_one_spec. exact T.
    + destruct (IH1 I). split; [right; auto|assumption].
  - intros I. right. auto.
Qed.
Lemma mapM_back {A B} (f : A -> res B) l : forall r b, mapM f l = Ok r -> In b r -> exists a, In a l /\ f a = Ok b.
Proof.
  induction l as [|a l IH]; intros r b E I; cbn [mapM] in E; [apply ok_inj in E as <-; destruct I|]. apply bind_ok in E as (x & Ex & E). apply bind_ok in E as (t & Et & E). apply ok_inj in E as <-.
  destruct I as [<-|I]; [exists a; split; [now left|exact Ex]|]. destruct (IH t b Et I) as (c & J & Ec). exists c. split; [now right|exact Ec].
Qed.
Lemma subs_from local magic secret l q s : from_packets local magic secret l = Ok q -> In s (tk_subs q) -> exists p, In p l /\ In (pkt_type p) [14; 7] /\ key_from local secret p = Ok (fst s).
Proof.
  unfold from_packets. intros H. apply bind_ok in H as (_ & _ & H). destruct l as [|p l]; [discriminate H|]. apply bind_ok in H as (k & E & H). pose proof (span_sigs_in l) as S0. destruct (span_sigs l) as [s0 r]. apply bind_ok in H as (sg & _ & H).
  pose proof (spans_in [13] (length r) r) as S1. destruct (spans (length r) [13] r) as [us r1]. apply bind_ok in H as (u & _ & H). pose proof (spans_in [17] (length r1) r1) as S2. destruct (spans (length r1) [17] r1) as [ats r2]. apply bind_ok in H as (a & _ & H).
  pose proof (spans_in [14; 7] (length r2) r2) as S3. destruct (spans (length r2) [14; 7] r2) as [sb r3]. apply bind_ok in H as (b & Eb & H). apply ok_inj in H. subst q. cbn [tk_subs fst snd] in *. intros I.
  destruct (mapM_back _ _ _ _ Eb I) as (g & Ig & Eg). unfold with_sigs in Eg. apply bind_ok in Eg as (x & Ex & Eg). apply bind_ok in Eg as (y & _ & Eg). apply ok_inj in Eg as <-. cbn [fst]. exists (fst g).
  destruct (proj1 (S3 (fst g)) (in_map fst _ _ Ig)) as [A B]. split; [|split; [exact B|exact Ex]]. right. apply S0, S1, S2. exact A.
Qed.
Lemma emit_in {A} (f : A -> res pkt) gs r p : mapM (emit f) gs = Ok r -> In p (concat r) -> (exists g, In g gs /\ f (fst g) = Ok p) \/ pkt_type p = 2.
Proof.
  intros E I. apply in_concat in I as (c & Ic & Ip). destruct (mapM_back _ _ _ _ E Ic) as (g & Ig & Eg). unfold emit in Eg. apply bind_ok in Eg as (x & Ex & Eg). apply bind_ok in Eg as (y & Ey & Eg). apply ok_inj in Eg as <-.
  destruct Ip as [<-|Ip]; [left; eauto|]. right. destruct (mapM_back _ _ _ _ Ey Ip) as (s & _ & Es). unfold sig_to in Es. destruct (o_sig s); [discriminate Es|]. apply ok_inj in Es as <-. reflexivity.
Qed.
Lemma key_object local mktime magic l q f sub k : whole_key local mktime magic false l q -> In (Pkt f (BPub sub k)) l -> exists ko, In ko (keys_in q) /\ key_from local false (Pkt f (BPub sub k)) = Ok ko.
Proof.
  intros (V & N & K & F) I. destruct (TransRound.round_trust local mktime magic false l [] ltac:(now rewrite app_nil_r) Logic.I N K) as (o' & F' & T). rewrite app_nil_r in F'. rewrite F in F'. apply ok_inj in F' as <-.
  pose proof T as T0. unfold to_packets in T. apply bind_ok in T as (p & E1 & T). apply bind_ok in T as (s & E2 & T). apply bind_ok in T as (u & E3 & T). apply bind_ok in T as (a & E4 & T). apply bind_ok in T as (b & E5 & T). apply ok_inj in T. subst l.
  destruct I as [I|I].
  - subst p. apply primary_packet in F. exists (tk_key q). split; [now left|exact F].
  - repeat rewrite in_app_iff in I. destruct I as [I|[I|[I|I]]].
    + destruct (mapM_back _ _ _ _ E2 I) as (x & _ & Ex). unfold sig_to in Ex. destruct (o_sig x); [discriminate Ex|]. apply ok_inj in Ex. discriminate Ex.
    + destruct (emit_in _ _ _ _ E3 I) as [(g & _ & G)|G]; [unfold uid_to in G; apply ok_inj in G; discriminate G|destruct sub; discriminate G].
    + destruct (emit_in _ _ _ _ E4 I) as [(g & _ & G)|G]; [unfold attr_to in G; apply bind_ok in G as (z & _ & G); apply ok_inj in G; discriminate G|destruct sub; discriminate G].
    + destruct (emit_in _ _ _ _ E5 I) as [(g & Ig & G)|G]; [|destruct sub; discriminate G]. exists (fst g). split; [right; apply in_map; exact Ig|].
      destruct (subs_from _ _ _ _ _ _ F Ig) as (p0 & I0 & T1 & K0). rewrite Forall_forall in K. pose proof (K _ I0) as Kp.
      assert (Ty : pkt_type p0 = 14). { destruct T1 as [T1|[T1|[]]]; [now symmetry|]. exfalso. destruct p0 as [h0 [b0|b0|b0|b0|b0 k0|b0 k0|b0|b0]]; cbn in T1, Kp; try discriminate T1; try destruct b0; try discriminate T1; try contradiction; destruct Kp; discriminate. }
      destruct (key_round local mktime false true p0 Ty Kp) as (ko & A & B). rewrite K0 in A. apply ok_inj in A as <-. rewrite G in B. apply ok_inj in B as ->. exact K0.
Qed.
Lemma clip_free (h : bytes) : zlen h = 20 -> slice_from h 12 = skipn 12 h.
Proof. intros L. unfold slice_from. rewrite (clip_in (zlen h) 12) by lia. reflexivity. Qed.
Lemma key_id_good fl md5 sha1 k : pub_ok fl k -> 4 <= k_version k -> (forall d, zlen (sha1 d) = 20 /\ wf (sha1 d)) -> exists b, obj_key_id fl md5 sha1 k = Ok (hex_text b) /\ wf b /\ zlen b = 8.
Proof.
  intros (v & ct & alg & exp & ms & C & X & R & F) V S. assert (Ev : k_version k = v) by (unfold SpecKey.rfc_key in R; repeat match type of R with context [match ?l with _ => _ end] => destruct l end; try discriminate R; injection R as <-; reflexivity).
  destruct (c37_fingerprint_v4_partial fl md5 sha1 v ct alg exp ms k C X ltac:(lia) R F (fun d => proj2 (S d))) as (encs & _ & E). set (h := sha1 _) in E. assert (Lh : zlen h = 20) by apply S. assert (Wh : wf h) by apply S. clearbody h.
  exists (slice_from h 12). unfold obj_key_id. replace (k_version k <? 4) with false by lia. split; [exact (c37_key_id fl md5 sha1 k h Wh Lh E)|]. rewrite (clip_free h Lh). split.
  - apply Forall_forall. intros x I. unfold wf in Wh. rewrite Forall_forall in Wh. apply Wh. rewrite <- (firstn_skipn 12 h). apply in_or_app. now right.
  - unfold zlen in *. rewrite skipn_length. lia.
Qed.

Lemma esk_size fl k vs : 0 < k -> (forall i, 0 < i < 256 ^ k -> fl i = Z.log2 i) -> Forall (fun v => wf v /\ zlen v <= k) vs -> vs <> [] -> forall esk, mpis_of fl vs = Ok esk -> esk <> [] /\ zlen esk <= (k + 2) * zlen vs.
Proof.
  intros Hk Hfl F N. enough (G : forall esk, mpis_of fl vs = Ok esk -> 2 * zlen vs <= zlen esk <= (k + 2) * zlen vs).
  { intros esk E. specialize (G esk E). split; [|lia]. intros ->. destruct vs as [|v vs]; [easy|]. change (zlen (@nil Z)) with 0 in G. rewrite zlen_cons in G. pose proof (zlen_nonneg vs). lia. }
  clear N. induction F as [|v vs (Wv & Lv) _ IH]; intros esk E; cbn [mpis_of] in E; [apply ok_inj in E as <-; change (zlen (@nil bytes)) with 0; change (zlen (@nil Z)) with 0; lia|].
  apply bind_ok in E as (i & Ei & E). apply bind_ok in E as (b & Eb & E). apply bind_ok in E as (r & Er & E). apply ok_inj in E as <-. specialize (IH r Er). rewrite zlen_app, zlen_cons.
  pose proof (bytes_to_int_spec [] v [] (zlen v)) as B. cbn [app] in B. rewrite app_nil_r in B. change (zlen (@nil Z)) with 0 in B. rewrite B in Ei by reflexivity. apply ok_inj in Ei as <-.
  pose proof (be_val_nonneg v Wv) as Bv. assert (256 ^ zlen v <= 256 ^ k) by (apply Z.pow_le_mono_r; lia).
  enough (2 <= zlen b <= k + 2) by lia. unfold int_to_mpi in Eb. destruct (be_val v <? 0) eqn:E0; [discriminate Eb|]. destruct (be_val v =? 0) eqn:E1; [apply ok_inj in Eb as <-; change (zlen [0; 0]) with 2; lia|].
  cbv zeta in Eb. apply ok_inj in Eb as <-. rewrite zlen_app, int_to_2byte_be, !be_bytes_len. rewrite (Hfl (be_val v)) by lia.
  assert (Z.log2 (be_val v) < 8 * k). { apply Z.log2_lt_pow2; [lia|]. rewrite Z.pow_mul_r by lia. change (2 ^ 8) with 256. lia. } pose proof (Z.log2_nonneg (be_val v)). unfold ceil8. lia.
Qed.
Lemma octets_unique n a b : octets_of n a -> octets_of n b -> a = b.
Proof.
  intros [A1 A2] [B1 B2]. destruct (Z.lt_trichotomy a b) as [L|[L|L]]; [|exact L|]; exfalso.
  - assert (256 ^ a <= 256 ^ (b - 1)) by (apply Z.pow_le_mono_r; lia). lia.
  - assert (256 ^ b <= 256 ^ (a - 1)) by (apply Z.pow_le_mono_r; lia). lia.
Qed.
Lemma padded k ps x em : k <= zlen ps -> wf ps -> Forall (fun x => x <> 0) ps -> pkcs1_pad k ps x = Ok em -> rfc_pkcs1 k ps x em.
Proof.
  intros L Wp N E. unfold pkcs1_pad in E. destruct (k - 11 <? zlen x) eqn:C; [discriminate E|]. apply ok_inj in E as <-. pose proof (zlen_nonneg x). exists (slice ps 0 (k - zlen x - 3)), (skipn (Z.to_nat (k - zlen x - 3)) ps). split; [rewrite slice_firstn_skipn by lia; rewrite Z.sub_0_r; symmetry; apply firstn_skipn|].
  assert (Ls : zlen (slice ps 0 (k - zlen x - 3)) = k - zlen x - 3) by (rewrite slice_len; lia). split; [reflexivity|]. split; [|split; [lia|]].
  - apply Forall_slice. exact N.
  - repeat rewrite zlen_app. rewrite Ls. change (zlen [0; 2]) with 2. change (zlen [0]) with 1. lia.
Qed.
Lemma key_obj_rsa k n e d : rsa_pair k n e d -> key_obj_ok k = Ok tt /\ (k_alg k =? 1) || (k_alg k =? 3) = true.
Proof. intros (A & N & E & _). unfold key_obj_ok, is_elg_alg. rewrite N, E. destruct A as [A|[A|[]]]; rewrite <- A; split; reflexivity. Qed.

Section Mail.
Variables (local mktime : Z -> res Z) (magic : bytes -> text) (fl : Z -> Z) (rec : seckey -> res bytes) (md5 sha1 : bytes -> bytes) (inv : Z -> Z -> Z).
Variables (other_enc : pubkey -> bytes -> res (list bytes)) (other_dec : pubkey -> Z -> list bytes -> res (option bytes)).
Variables (H : Z -> bytes -> bytes) (E : Z -> bytes -> bytes -> bytes) (od : Z -> option bytes -> bytes -> bytes -> res bytes).

(** what one recipient gets *)
Lemma one_recipient m d alg bl sk iv r b enc esk dec : exact_log fl -> (forall d, zlen (sha1 d) = 20 /\ wf (sha1 d)) ->
  survives fl rec m d -> wf d -> zlen d < 2 ^ 32 - 100 ->
  symmetric_cipher_block_lengths alg = Some bl -> alg <> 0 -> In (zlen sk) (cipher_key_sizes alg) -> wf sk -> good_block (E alg sk) bl -> wf iv -> zlen iv = bl ->
  byte (r_alg r) -> r_id r = hex_text b -> wf b -> zlen b = 8 -> r_enc r = Ok enc -> get_encrypted_key fl enc alg sk = Ok esk -> esk <> [] -> zlen esk < 2 ^ 32 - 100 ->
  exists M o, public_key_encrypt E sha1 fl rec m alg (Some r) None None sk iv true = Ok M /\ message_octets fl rec M = Ok o /\ read_message (InBytes o) false = Ok M /\
    (recovers dec r esk alg sk -> get_message E sha1 od H M (ByKey false dec) = Ok m) /\
    (forall e, refuses dec r esk e -> get_message E sha1 od H M (ByKey false dec) = Err e).
Proof.
  intros Hfl Hs Sv Wd Ld Hb H0 Hk Wsk HE Wiv Liv Ba Id Wb Lb Hr He Hne Le.
  destruct (pub_end H E sha1 od fl rec m d alg bl sk iv [(r, esk)] [] Hfl Hs Sv Wd Hb H0 Hk Wsk HE Wiv Liv) as (d' & A & B & _ & _ & L). { constructor; [|constructor]. exists enc. auto. }
  pose proof (bs_8_16 alg bl Hb H0) as Hbl.
  destruct (pub_wire H E sha1 fl rec [(r, esk)] d' Hfl) as (o & ps & W1 & W2 & W3 & _); [discriminate| |change (2 ^ 32) with 4294967296 in *; lia|].
  { constructor; [|constructor]. cbn [fst snd]. split; [split; [exact Ba|exists b; auto]|auto]. }
  exists (MEncrypted (map sk_of ([(r, esk)] ++ [])) (EncData d' true (Some 1))), o. split; [exact A|]. split; [exact W1|]. split; [rewrite (octets_read fl rec _ o ps W1 W2); exact W3|]. split.
  - intros R. cbn [get_message app map]. rewrite (holder_reads H E sha1 od [] r esk [] dec alg sk _ ltac:(constructor) R). exact B.
  - intros e R. cbn [get_message app map get_message_loop sk_of fst snd algorithm_and_key is_pub_key]. unfold refuses in R. rewrite R. cbn [bind]. destruct e; reflexivity.
Qed.

Variables (ver : text) (h : header_format) (now_p : kobject -> option Z) (l : list pkt) (o : tkey).
Hypothesis (Hfl : forall i, 1024 <= i <= 65011712 -> fl i = Z.log2 i).
Hypothesis (Hs : forall d, zlen (sha1 d) = 20 /\ wf (sha1 d)).
Hypothesis (W : whole_key local mktime magic true l o).
Hypothesis (P : Forall (pkt_ok fl rec) (map (refmt h) (map public_part l))).
Hypothesis (Wf : forall x d, In x (map public_part l) -> body_content fl rec (p_body x) = Ok d -> wf d).
Hypothesis (Nb : no_break ver).
Hypothesis (As : Forall (fun c => 0 <= c < 128) ver).

(** the exported key is read, and each of its keys is there, with a key id of eight octets *)
Lemma exported : exists t, serialize_key mktime fl rec ver (to_public_key now_p o) true (Some h) = Ok (InStr t) /\
  forall i flag, given_as t i -> exists q, read_key local magic i flag = Ok q /\ tk_secret q = false /\
    forall f sub k, In (Pkt f (BSec sub k)) l -> exists ko b, In ko (keys_in q) /\ ko_pub ko = s_pub k /\ ko_sec ko = None /\ obj_key_id fl md5 sha1 (s_pub k) = Ok (hex_text b) /\ wf b /\ zlen b = 8.
Proof.
  destruct (public_whole _ _ _ _ _ W) as (q & Wq). pose proof W as (V0 & N0 & K0 & F0).
  destruct (public_copy local mktime magic fl rec l o now_p V0 N0 K0 F0) as (q' & Q' & _ & S). pose proof Wq as (Vq & Nq & Kq & Fq). rewrite Fq in Q'. apply ok_inj in Q' as <-.
  destruct (c69_armored_partial local mktime magic fl rec ver false _ q h Hfl Wq P Wf Nb As) as (t & T1 & T2). exists t. split; [rewrite S; exact T1|].
  intros i flag G. exists (reformat h q). split; [exact (T2 i flag G)|]. split.
  { cbn [reformat tk_secret]. clear - Fq. destruct (map public_part l) as [|p t]; unfold from_packets in Fq; apply bind_ok in Fq as (_ & _ & Fq); [discriminate Fq|]. apply bind_ok in Fq as (k & _ & Fq). destruct (span_sigs _) as [s r]. apply bind_ok in Fq as (sg & _ & Fq).
    destruct (spans (length r) [13] r) as [us r1]. apply bind_ok in Fq as (u & _ & Fq). destruct (spans (length r1) [17] r1) as [ats r2]. apply bind_ok in Fq as (a & _ & Fq). destruct (spans (length r2) [14; 7] r2) as [sb r3]. apply bind_ok in Fq as (b & _ & Fq). apply ok_inj in Fq. subst q. reflexivity. }
  intros f sub k I. assert (I2 : In (Pkt f (BPub sub (s_pub k))) (map public_part l)) by (apply (in_map public_part) in I; exact I).
  destruct (key_object _ _ _ _ _ _ _ _ Wq I2) as (ko & Iko & Eko).
  assert (Pk : pub_ok fl (s_pub k)). { rewrite Forall_forall in P. destruct (P (refmt h (Pkt f (BPub sub (s_pub k)))) (in_map _ _ _ I2)) as [B _]. exact B. }
  assert (Vk : 4 <= k_version (s_pub k)). { rewrite Forall_forall in K0. destruct (K0 _ I) as (_ & (A & _) & _). exact A. }
  destruct (key_id_good fl md5 sha1 (s_pub k) Pk Vk Hs) as (b & B1 & B2 & B3).
  assert (X : ko_pub ko = s_pub k /\ ko_sec ko = None). { unfold key_from, key_from_pub in Eko. cbn [p_body p_fmt] in Eko. apply bind_ok in Eko as (c & _ & Eko). apply ok_inj in Eko as <-. split; reflexivity. }
  exists (kobject_fmt h ko), b. split; [|destruct X; cbn [kobject_fmt ko_pub ko_sec]; auto]. destruct Iko as [<-|J]; [now left|]. right. cbn [reformat tk_subs]. rewrite map_map. cbn [fst]. apply in_map_iff in J as (s & <- & J). apply in_map_iff. exists s. auto.
Qed.

(** C105. The owner of a secret key exports its public copy as armor, in any state of the key. Somebody reads it, finds the owner's RSA key (the
    primary key or a subkey) in it, and encrypts a message to it. The owner, with the unlocked secret key, reads the octets, or any armor of them, and
    gets the message, if the encrypted session key happens to need as many octets as the modulus. Otherwise it is a ValueError. *)
Theorem c105_rsa_partial f sub k n e d size ps m dd alg bl sk iv : In (Pkt f (BSec sub k)) l -> rsa_pair (s_pub k) n e d -> octets_of n size -> room fl size ps sk ->
  survives fl rec m dd -> wf dd -> zlen dd < 2 ^ 32 - 100 ->
  symmetric_cipher_block_lengths alg = Some bl -> alg <> 0 -> byte alg -> In (zlen sk) (cipher_key_sizes alg) -> wf sk -> good_block (E alg sk) bl -> wf iv -> zlen iv = bl ->
  exists t em, serialize_key mktime fl rec ver (to_public_key now_p o) true (Some h) = Ok (InStr t) /\ rfc_pkcs1 size ps (alg :: sk ++ be_bytes 2 (zsum sk mod 65536)) em /\
    forall i flag, given_as t i -> exists q ko r M octets, read_key local magic i flag = Ok q /\ In ko (keys_in q) /\ key_recipient fl md5 sha1 other_enc ps (ko_pub ko) = Ok r /\
      public_key_encrypt E sha1 fl rec m alg (Some r) None None sk iv true = Ok M /\ message_octets fl rec M = Ok octets /\
      (forall received, read_message (InBytes octets) false = Ok received <-> received = M) /\
      (forall a, adata a = octets -> armor_ok a -> extra_headers a = None -> exists t', armor_str a = Ok t' /\ forall flag, read_message (InStr t') flag = Ok M) /\
      (octets_of (be_val em ^ e mod n) size -> get_message E sha1 od H M (ByKey false (key_decrypt inv other_dec (s_pub k) (SRsa d))) = Ok m) /\
      (~ octets_of (be_val em ^ e mod n) size -> get_message E sha1 od H M (ByKey false (key_decrypt inv other_dec (s_pub k) (SRsa d))) = Err ValueError).
Proof.
  intros Ik Pair On (Rs & Rfl & Rl & Rw & Rn) Sv Wd Ld Hb H0 Ba Hk Wsk HE Wiv Liv. destruct exported as (t & T1 & T2). pose proof (key_obj_rsa _ _ _ _ Pair) as (Ok1 & Alg). pose proof Pair as (A1 & A2 & A3 & A4 & A5 & A6 & A7).
  assert (Es : nbytes n = size). { apply (octets_unique n); [apply nbytes_octets; lia|exact On]. }
  set (pub := fun x => Zpow_mod x e n). set (sec := fun x => Zpow_mod x d n).
  assert (Bd : forall x, 0 <= pub x < n). { intros x. unfold pub. rewrite Zpow_mod_correct by lia. apply Z.mod_pos_bound. lia. }
  assert (FG : forall x, 0 < x < 256 ^ (size - 1) -> 0 < pub x < 256 ^ size /\ sec (pub x) = x).
  { intros x Hx. unfold pub, sec. rewrite !Zpow_mod_correct by lia. destruct On as [On _]. specialize (A7 x ltac:(lia)). split; [|exact A7]. pose proof (Z.mod_pos_bound (x ^ e) n ltac:(lia)).
    assert (x ^ e mod n <> 0). { intros Z0. rewrite Z0, Z.pow_0_l, Z.mod_0_l in A7 by lia. lia. } lia. }
  destruct (rsa_round fl size pub sec ps alg sk (k_alg (s_pub k)) Ba Wsk ltac:(lia) ltac:(lia) FG Rfl Rl Rw Rn) as (c & esk & X1 & X2 & (em & X3 & X4) & X5); [destruct A1 as [<-|[<-|[]]]; discriminate|destruct A1 as [<-|[<-|[]]]; discriminate|].
  exists t, em. split; [exact T1|]. split; [exact (padded size ps _ em Rl Rw Rn X3)|]. intros i flag G. destruct (T2 i flag G) as (q & Q1 & Q2 & Q3). destruct (Q3 f sub k Ik) as (ko & b & K1 & K2 & K3 & K4 & K5 & K6).
  set (r := Recip (k_alg (s_pub k)) (hex_text b) (key_encrypt other_enc ps (s_pub k))).
  assert (R1 : key_recipient fl md5 sha1 other_enc ps (ko_pub ko) = Ok r) by (rewrite K2; unfold key_recipient; rewrite K4; reflexivity).
  assert (R2 : r_enc r = Ok (rsa_encrypt size pub ps)). { cbn [r r_enc]. unfold key_encrypt. rewrite Ok1. cbn [bind]. rewrite Alg, A2, A3, Es. reflexivity. }
  assert (Sz : esk <> [] /\ zlen esk <= (size + 2) * 1).
  { pose proof X1 as X1'. unfold get_encrypted_key in X1'. apply bind_ok in X1' as (blk & _ & X1'). apply bind_ok in X1' as (vs & Ev & X1'). unfold rsa_encrypt in Ev. apply bind_ok in Ev as (em' & Em & Ev). apply ok_inj in Ev as <-.
    refine (esk_size fl size _ _ Rfl _ _ esk X1'); [pose proof (zlen_nonneg sk); lia| |discriminate]. constructor; [|constructor]. pose proof (Bd (os2ip em')) as Bv. set (v := pub (os2ip em')) in *. clearbody v. assert (Hv : 0 <= v < 256 ^ size) by (destruct On; lia).
    destruct (l2b_ok v ltac:(lia)) as (W1 & _ & _). pose proof (l2b_len_le v size ltac:(pose proof (zlen_nonneg sk); lia) ltac:(lia)) as Lv. unfold left_pad. split; [apply wf_app; split; [apply wf_zeros|exact W1]|]. rewrite zlen_app, zlen_repeat. lia. }
  destruct (one_recipient m dd alg bl sk iv r b (rsa_encrypt size pub ps) esk (key_decrypt inv other_dec (s_pub k) (SRsa d)) Hfl Hs Sv Wd Ld Hb H0 Hk Wsk HE Wiv Liv) as (M & oc & M1 & M2 & M3 & M4 & M5); auto.
  { cbn [r r_alg]. unfold byte. destruct A1 as [<-|[<-|[]]]; lia. }
  { apply Sz. } { change (2 ^ 32) with 4294967296. lia. }
  assert (Dec : key_decrypt inv other_dec (s_pub k) (SRsa d) (k_alg (s_pub k)) = rsa_decrypt size sec). { unfold key_decrypt. replace ((k_alg (s_pub k) =? 1) || (k_alg (s_pub k) =? 2) || (k_alg (s_pub k) =? 3)) with true by lia. rewrite A2, Es. reflexivity. }
  exists q, ko, r, M, oc. split; [exact Q1|]. split; [exact K1|]. split; [exact R1|]. split; [exact M1|]. split; [exact M2|]. split; [intros received; rewrite M3; split; [intros X; now apply ok_inj in X|now intros ->]|]. split.
  { intros a Ea Ha Hx. destruct (written_read fl rec M oc a M2 Ea Ha Hx) as (t' & T' & R'). exists t'. split; [exact T'|]. intros fl'. rewrite R'. exact M3. }
  assert (Ec : c = be_val em ^ e mod n) by (rewrite X4; unfold pub; apply Zpow_mod_correct; lia). rewrite <- Ec. split; intros Hc.
  - apply M4. unfold recovers. cbn [r r_alg]. rewrite Dec, X5. destruct Hc as [Hc _]. replace (256 ^ (size - 1) <=? c) with true by lia. reflexivity.
  - apply M5. unfold refuses. cbn [r r_alg]. rewrite Dec, X5. replace (256 ^ (size - 1) <=? c) with false; [reflexivity|]. symmetry. apply Z.leb_gt. destruct (Z.lt_ge_cases c (256 ^ (size - 1))) as [Lc|Lc]; [exact Lc|]. exfalso. apply Hc.
    assert (Cn : c < n) by (rewrite X4; apply Bd). destruct On as [[_ On] Op]. split; [split; [clear - Lc; lia|exact (Z.lt_trans _ _ _ Cn On)]|exact Op].
Qed.

(** To an ElGamal key (the primary key or a subkey) the message always arrives, but the session key is encrypted with the random number 0 (C59):
    whoever holds any secret exponent [x] whatever for the same public values reads it, not only the owner. *)
Theorem c105_elgamal_anybody_refuted f sub k pr g y size ps m dd alg bl sk iv : In (Pkt f (BSec sub k)) l -> elgamal_key inv (s_pub k) pr g y -> octets_of pr size -> room fl size ps sk ->
  survives fl rec m dd -> wf dd -> zlen dd < 2 ^ 32 - 100 ->
  symmetric_cipher_block_lengths alg = Some bl -> alg <> 0 -> byte alg -> In (zlen sk) (cipher_key_sizes alg) -> wf sk -> good_block (E alg sk) bl -> wf iv -> zlen iv = bl ->
  exists t, serialize_key mktime fl rec ver (to_public_key now_p o) true (Some h) = Ok (InStr t) /\
    forall i flag, given_as t i -> exists q ko r M octets, read_key local magic i flag = Ok q /\ In ko (keys_in q) /\ key_recipient fl md5 sha1 other_enc ps (ko_pub ko) = Ok r /\
      public_key_encrypt E sha1 fl rec m alg (Some r) None None sk iv true = Ok M /\ message_octets fl rec M = Ok octets /\
      (forall received, read_message (InBytes octets) false = Ok received <-> received = M) /\
      (forall a, adata a = octets -> armor_ok a -> extra_headers a = None -> exists t', armor_str a = Ok t' /\ forall flag, read_message (InStr t') flag = Ok M) /\
      (forall x, 0 <= x -> get_message E sha1 od H M (ByKey false (key_decrypt inv other_dec (s_pub k) (SElg x))) = Ok m).
Proof.
  intros Ik Key On (Rs & Rfl & Rl & Rw & Rn) Sv Wd Ld Hb H0 Ba Hk Wsk HE Wiv Liv. destruct exported as (t & T1 & T2). destruct Key as (A1 & A2 & A3 & A4 & A5 & A6).
  set (ky := ElgPub pr g y). assert (Es : elg_k ky = size). { apply (octets_unique pr); [|exact On]. change (elg_k ky) with (nbytes pr). apply nbytes_octets. lia. }
  assert (Ek : forall x, 0 <= x -> get_encrypted_key fl (elg_encrypt ky ps) alg sk = get_encrypted_key fl (elg_encrypt ky ps) alg sk /\ exists esk, get_encrypted_key fl (elg_encrypt ky ps) alg sk = Ok esk /\
    get_key_and_cipher_algo (elg_decrypt ky (fun c => (snd c * inv (Zpow_mod (fst c) x pr) pr) mod pr)) 16 esk = Ok (alg, sk)).
  { intros x Hx. split; [reflexivity|]. apply elg_round; try assumption; try (rewrite Es; assumption); try (rewrite Es; apply Rs).
    intros v Hv. cbn [ky elg_p] in Hv. unfold elg_raw_encrypt. cbn [ky elg_p elg_g elg_y fst snd]. rewrite !Z.pow_0_r, Z.mul_1_l. rewrite (Z.mod_small 1 pr) by lia. rewrite (Z.mod_small v pr) by lia.
      rewrite Zpow_mod_correct by lia. rewrite Z.pow_1_l by exact Hx. rewrite (Z.mod_small 1 pr) by lia. rewrite A6, Z.mul_1_r. apply Z.mod_small. exact Hv. }
  destruct (Ek 0 ltac:(lia)) as (_ & esk & X1 & _).
  assert (Sz : esk <> [] /\ zlen esk <= (size + 2) * 2).
  { pose proof X1 as X1'. unfold get_encrypted_key in X1'. apply bind_ok in X1' as (blk & _ & X1'). apply bind_ok in X1' as (vs & Ev & X1'). unfold elg_encrypt in Ev. apply bind_ok in Ev as (em' & Em & Ev). unfold elg_raw_encrypt in Ev. cbn [ky elg_p elg_g elg_y] in Ev. apply ok_inj in Ev as <-.
    assert (Sp : 0 < size) by apply On.
    assert (G : forall v, 0 <= v < pr -> wf (SessionKeys.long_to_bytes v) /\ zlen (SessionKeys.long_to_bytes v) <= size).
    { intros v Hv. destruct (l2b_ok v ltac:(lia)) as (W1 & _ & _). split; [exact W1|]. assert (Hv2 : 0 <= v < 256 ^ size) by (destruct On as [[_ On] _]; split; [lia|exact (Z.lt_trans _ _ _ (proj2 Hv) On)]). apply (l2b_len_le v size); [lia|exact Hv2]. }
    refine (esk_size fl size _ _ Rfl _ _ esk X1'); [exact Sp| |discriminate]. constructor; [|constructor; [|constructor]]; apply G; apply Z.mod_pos_bound; lia. }
  exists t. split; [exact T1|]. intros i flag G. destruct (T2 i flag G) as (q & Q1 & Q2 & Q3). destruct (Q3 f sub k Ik) as (ko & b & K1 & K2 & K3 & K4 & K5 & K6).
  set (r := Recip (k_alg (s_pub k)) (hex_text b) (key_encrypt other_enc ps (s_pub k))).
  assert (R1 : key_recipient fl md5 sha1 other_enc ps (ko_pub ko) = Ok r) by (rewrite K2; unfold key_recipient; rewrite K4; reflexivity).
  assert (Kok : key_obj_ok (s_pub k) = Ok tt) by (unfold key_obj_ok; rewrite A1, A2, A3, A4; reflexivity).
  assert (R2 : r_enc r = Ok (elg_encrypt ky ps)). { cbn [r r_enc]. unfold key_encrypt. rewrite Kok. cbn [bind]. rewrite A1, A2, A3, A4. reflexivity. }
  assert (Rc : forall dec, exists M oc, public_key_encrypt E sha1 fl rec m alg (Some r) None None sk iv true = Ok M /\ message_octets fl rec M = Ok oc /\ read_message (InBytes oc) false = Ok M /\
    (recovers dec r esk alg sk -> get_message E sha1 od H M (ByKey false dec) = Ok m)).
  { intros dec. destruct (one_recipient m dd alg bl sk iv r b (elg_encrypt ky ps) esk dec Hfl Hs Sv Wd Ld Hb H0 Hk Wsk HE Wiv Liv) as (M & oc & M1 & M2 & M3 & M4 & M5).
    - cbn [r r_alg]. rewrite A1. unfold byte. lia.
    - reflexivity.
    - exact K5.
    - exact K6.
    - exact R2.
    - exact X1.
    - apply Sz.
    - destruct Sz as [_ Sz]. clear - Sz Rs. change (2 ^ 32) with 4294967296. lia.
    - exists M, oc. auto. }
  destruct (Rc (key_decrypt inv other_dec (s_pub k) (SElg 0))) as (M & oc & M1 & M2 & M3 & _).
  exists q, ko, r, M, oc. split; [exact Q1|]. split; [exact K1|]. split; [exact R1|]. split; [exact M1|]. split; [exact M2|]. split; [intros received; rewrite M3; split; [intros X; now apply ok_inj in X|now intros ->]|]. split.
  { intros a Ea Ha Hx. destruct (written_read fl rec M oc a M2 Ea Ha Hx) as (t' & T' & R'). exists t'. split; [exact T'|]. intros fl'. rewrite R'. exact M3. }
  intros x Hx. destruct (Rc (key_decrypt inv other_dec (s_pub k) (SElg x))) as (M' & oc' & M1' & _ & _ & M4'). rewrite M1 in M1'. apply ok_inj in M1' as <-. apply M4'. unfold recovers. cbn [r r_alg].
  destruct (Ek x Hx) as (_ & esk' & X1' & X2'). rewrite X1 in X1'. apply ok_inj in X1' as <-. unfold key_decrypt. rewrite A1, A2, A3, A4. exact X2'.
Qed.
End Mail.
Print Assumptions c105_rsa_partial.
Print Assumptions c105_elgamal_anybody_refuted.

(** RFC 4880 9.1: RSA encrypt-only keys (2) are for encryption and sign-only keys (3) are not. The library refuses the first; the second is
    covered by [c105_rsa_partial], which encrypts to it. *)
Theorem c105_encrypt_only_refuted fl rec md5 sha1 E other_enc ps k r m alg sk iv : k_alg k = 2 -> key_recipient fl md5 sha1 other_enc ps k = Ok r -> sk <> [] ->
  public_key_encrypt E sha1 fl rec m alg (Some r) None None sk iv true = Err UnsupportedPublicKeyAlgorithm.
Proof.
  intros A R N. unfold key_recipient in R. apply bind_ok in R as (id & _ & R). apply ok_inj in R as <-. unfold public_key_encrypt. cbn [bind mapM]. unfold pub_session_key. destruct sk as [|c sk]; [easy|]. cbn [r_enc].
  unfold key_encrypt, key_obj_ok. rewrite A. reflexivity.
Qed.
Print Assumptions c105_encrypt_only_refuted.

(** the conditions are met: a key with an RSA primary key of 25 octets and an ElGamal subkey *)
Definition mail_primes : list Z := [2; 3; 5; 7; 11; 13; 17; 19; 29; 31; 37; 41; 43; 61; 71; 73; 97; 113; 127; 181; 211; 241; 281; 337; 421; 631; 673; 1009; 2017; 2521; 3361].
Definition mail_n : Z := 672691222039867045262179954299573595970878287971316412317330.
Definition mail_rsa := PubKey 4 9 1 None (Some mail_n) (Some 17) None None None None.
Definition mail_p : Z := 1461501637330902918203684832716283019655932542983.
Definition mail_elg := PubKey 4 9 16 None None None (Some mail_p) None (Some 3) (Some 81).
Lemma mail_pair : rsa_pair mail_rsa mail_n 17 593.
Proof.
  split; [cbn; auto|]. split; [reflexivity|]. split; [reflexivity|]. split; [reflexivity|]. split; [lia|]. split; [lia|]. intros m B. assert (N0 : 0 < mail_n) by reflexivity.
  rewrite <- Zpower_mod by exact N0. rewrite <- Z.pow_mul_r by lia. change (17 * 593) with 10081. rewrite <- (Z.mod_small m mail_n) at 2 by exact B.
  assert (D : (mail_n | m ^ 10081 - m)).
  { change mail_n with (fold_right Z.mul 1 mail_primes). apply prod_divide.
    - intros p Hp. apply residue_fixed; [|lia|].
      + revert p Hp. apply Forall_forall. unfold mail_primes. repeat (apply Forall_cons; [reflexivity|]). apply Forall_nil.
      + revert p Hp. apply Forall_forall. unfold mail_primes. repeat (apply Forall_cons; [vm_compute; reflexivity|]). apply Forall_nil.
    - unfold mail_primes. repeat (apply FOP_cons; [repeat (apply Forall_cons; [reflexivity|]); apply Forall_nil|]). apply FOP_nil. }
  destruct D as [c C]. set (a := m ^ 10081) in *. clearbody a. assert (E : a = m + c * mail_n) by lia. rewrite E, Z.mod_add by discriminate. reflexivity.
Qed.
Definition mail_sec (sub : bool) (k : pubkey) : pkt := Pkt NewH (BSec sub (SecKey k (Some kx_s2k) 9 (repeat 7 16) [1; 2; 3] false true)).
Definition mail_list : list pkt := [mail_sec false mail_rsa; kx_uid; kx_sig 19; mail_sec true mail_elg; kx_sig 24].
Lemma mail_whole : exists o, whole_key same same no_magic true mail_list o.
Proof.
  eexists. split; [vm_compute; reflexivity|]. split; [intros p I; repeat destruct I as [<-|I]; try contradiction; discriminate|]. split; [|vm_compute; reflexivity].
  assert (KK : forall k, In k [mail_rsa; mail_elg] -> kept_key same same k). { intros k I. repeat destruct I as [<-|I]; try contradiction; (split; [cbn; lia|split; [reflexivity|eexists; split; reflexivity]]). }
  apply Forall_forall. intros p I. repeat destruct I as [<-|I]; try contradiction; try (apply (kx_kept true); cbn; auto 10; fail).
  - change (true = true /\ kept_key same same mail_rsa /\ exists x, Some kx_s2k = Some x). split; [reflexivity|]. split; [apply KK; cbn; auto|eexists; reflexivity].
  - change (true = true /\ kept_key same same mail_elg /\ exists x, Some kx_s2k = Some x). split; [reflexivity|]. split; [apply KK; cbn; auto|eexists; reflexivity].
Qed.
Lemma mail_pub_ok h : Forall (pkt_ok Z.log2 no_rec) (map (refmt h) (map public_part mail_list)).
Proof.
  apply Forall_forall. intros q I. apply in_map_iff in I as (p & <- & I). repeat destruct I as [<-|I]; try contradiction; try (apply kx_ok; cbn; auto 10; fail);
    (split; [|intros d H; destruct h; vm_compute in H; apply ok_inj in H; subst d; vm_compute; repeat split; congruence]); cbn [refmt public_part p_body p_fmt body_ok mail_sec].
  - exists 4, 9, 1, None, [mail_n; 17]. split; [lia|]. split; [right; split; [lia|reflexivity]|]. split; [reflexivity|]. repeat (apply Forall_cons; [vm_compute; repeat split; congruence|]). apply Forall_nil.
  - exists 4, 9, 16, None, [mail_p; 3; 81]. split; [lia|]. split; [right; split; [lia|reflexivity]|]. split; [reflexivity|]. repeat (apply Forall_cons; [vm_compute; repeat split; congruence|]). apply Forall_nil.
Qed.
Lemma mail_wf x d : In x (map public_part mail_list) -> body_content Z.log2 no_rec (p_body x) = Ok d -> wf d.
Proof. intros I H. cbn [map mail_list In] in I. repeat destruct I as [<-|I]; try contradiction; vm_compute in H; apply ok_inj in H; subst d; unfold wf; repeat (apply Forall_cons; [unfold byte; lia|]); apply Forall_nil. Qed.
Lemma mail_room size : 22 <= size <= 25 -> room Z.log2 size (repeat 5 25) (repeat 9 8).
Proof. intros S. split; [change (zlen (repeat 9 8)) with 8; lia|]. split; [reflexivity|]. split; [change (zlen (repeat 5 25)) with 25; lia|]. split; [unfold wf; apply Forall_forall|apply Forall_forall]; intros x I; apply repeat_spec in I; subst x; unfold byte; lia. Qed.
Lemma mail_text : pkt_ok Z.log2 no_rec (Pkt NewH (BData (PLiteral 117 (str "a.txt") (TDate 1000) (LText (str "hi" ++ [233]))))).
Proof.
  split; cbn [p_body p_fmt].
  - split; [eexists; vm_compute; reflexivity|]. split; [cbn; repeat (apply Forall_cons; [unfold scalar; lia|]); apply Forall_nil|]. split; [reflexivity|]. split; [vm_compute; discriminate|]. split; [lia|]. split; [cbn; repeat (apply Forall_cons; [unfold scalar; lia|]); apply Forall_nil|discriminate].
  - intros d H. vm_compute in H; apply ok_inj in H; subst d; vm_compute; repeat split; discriminate.
Qed.
Definition mail_E (alg : Z) (key b : bytes) : bytes := b.
Definition no_enc (k : pubkey) (b : bytes) : res (list bytes) := Err TypeError.
Definition no_dec (k : pubkey) (a : Z) (b : list bytes) : res (option bytes) := Err TypeError.
Definition no_old (a : Z) (k : option bytes) (iv b : bytes) : res bytes := Err TypeError.
Definition mail_dd : bytes := match message_octets Z.log2 no_rec demo_message with Ok d => d | Err _ => [] end.
Lemma mail_survives : survives Z.log2 no_rec demo_message mail_dd.
Proof. apply (plain_survives Z.log2 no_rec (fun i _ => eq_refl) demo_message _ mail_dd eq_refl mail_text). vm_compute. reflexivity. Qed.
Example c105_rsa_ex now_p : exists o t q ko r M, whole_key same same no_magic true mail_list o /\ serialize_key same Z.log2 no_rec (str "x") (to_public_key now_p o) true (Some OldH) = Ok (InStr t) /\
  read_key same no_magic (InStr t) false = Ok q /\ In ko (keys_in q) /\ key_recipient Z.log2 demo_sha1 demo_sha1 no_enc (repeat 5 25) (ko_pub ko) = Ok r /\
  public_key_encrypt mail_E demo_sha1 Z.log2 no_rec demo_message 3 (Some r) None None (repeat 9 8) (repeat 1 8) true = Ok M /\
  get_message mail_E demo_sha1 no_old demo_H M (ByKey false (key_decrypt demo_inv no_dec mail_rsa (SRsa 593))) = Ok demo_message.
Proof.
  destruct mail_whole as (o & W). exists o.
  destruct (c105_rsa_partial same same no_magic Z.log2 no_rec demo_sha1 demo_sha1 demo_inv no_enc no_dec demo_H mail_E no_old (str "x") OldH now_p mail_list o) with (f := NewH) (sub := false)
    (k := SecKey mail_rsa (Some kx_s2k) 9 (repeat 7 16) [1; 2; 3] false true) (n := mail_n) (e := 17) (d := 593) (size := 25) (ps := repeat 5 25) (m := demo_message)
    (dd := mail_dd) (alg := 3) (bl := 8) (sk := repeat 9 8) (iv := repeat 1 8) as (t & em & A & P & B).
  - reflexivity.
  - intros d; split; [reflexivity|unfold wf, demo_sha1; apply Forall_forall; intros x I; apply repeat_spec in I; subst x; unfold byte; lia].
  - exact W.
  - apply mail_pub_ok.
  - exact mail_wf.
  - repeat constructor; cbn; lia.
  - repeat constructor; lia.
  - now left.
  - exact mail_pair.
  - split; [vm_compute; split; [discriminate|reflexivity]|lia].
  - apply mail_room. lia.
  - exact mail_survives.
  - assert (Ed : exists d, d = mail_dd) by (eexists; reflexivity). destruct Ed as (d & Ed). rewrite <- Ed. vm_compute in Ed. subst d. repeat (apply Forall_cons; [unfold byte; lia|]). apply Forall_nil.
  - reflexivity.
  - reflexivity.
  - discriminate.
  - unfold byte. lia.
  - vm_compute. tauto.
  - unfold wf; apply Forall_forall; intros x I; apply repeat_spec in I; subst x; unfold byte; lia.
  - intros b Wb Lb. split; assumption.
  - unfold wf; apply Forall_forall; intros x I; apply repeat_spec in I; subst x; unfold byte; lia.
  - reflexivity.
  - destruct (B (InStr t) false (or_introl eq_refl)) as (q & ko & r & M & oc & Q1 & Q2 & Q3 & Q4 & Q5 & _ & _ & Q6 & _). exists t, q, ko, r, M. repeat (split; [assumption|]). apply Q6.
    destruct P as (p1 & rest & E1 & -> & _ & _ & L). assert (P1 : p1 = repeat 5 11).
    { assert (L1 : length p1 = 11%nat). { clear - L. repeat rewrite zlen_app in L. rewrite (zlen_cons 3) in L. rewrite zlen_app, be_bytes_len in L. unfold zlen in L. rewrite repeat_length in L. cbn [length] in L. lia. }
      apply (f_equal (firstn 11)) in E1. rewrite firstn_app, (firstn_all2 p1), L1, Nat.sub_diag in E1 by (rewrite L1; reflexivity). cbn [firstn] in E1. rewrite app_nil_r in E1. rewrite <- E1. reflexivity. }
    subst p1. split; [vm_compute; split; [discriminate|reflexivity]|lia].
Qed.

Example c105_elgamal_ex now_p : exists o t q ko r M, whole_key same same no_magic true mail_list o /\ serialize_key same Z.log2 no_rec (str "x") (to_public_key now_p o) true (Some OldH) = Ok (InStr t) /\
  read_key same no_magic (InStr t) false = Ok q /\ In ko (keys_in q) /\ key_recipient Z.log2 demo_sha1 demo_sha1 no_enc (repeat 5 25) (ko_pub ko) = Ok r /\
  public_key_encrypt mail_E demo_sha1 Z.log2 no_rec demo_message 3 (Some r) None None (repeat 9 5) (repeat 1 8) true = Ok M /\
  forall x, 0 <= x -> get_message mail_E demo_sha1 no_old demo_H M (ByKey false (key_decrypt demo_inv no_dec mail_elg (SElg x))) = Ok demo_message.
Proof.
  destruct mail_whole as (o & W). exists o.
  destruct (c105_elgamal_anybody_refuted same same no_magic Z.log2 no_rec demo_sha1 demo_sha1 demo_inv no_enc no_dec demo_H mail_E no_old (str "x") OldH now_p mail_list o) with (f := NewH) (sub := true)
    (k := SecKey mail_elg (Some kx_s2k) 9 (repeat 7 16) [1; 2; 3] false true) (pr := mail_p) (g := 3) (y := 81) (size := 21) (ps := repeat 5 25) (m := demo_message)
    (dd := mail_dd) (alg := 3) (bl := 8) (sk := repeat 9 5) (iv := repeat 1 8) as (t & A & B).
  - reflexivity.
  - intros d; split; [reflexivity|unfold wf, demo_sha1; apply Forall_forall; intros x I; apply repeat_spec in I; subst x; unfold byte; lia].
  - exact W.
  - apply mail_pub_ok.
  - exact mail_wf.
  - repeat constructor; cbn; lia.
  - repeat constructor; lia.
  - cbn. auto.
  - repeat (split; [reflexivity|]). vm_compute. reflexivity.
  - split; [vm_compute; split; [discriminate|reflexivity]|lia].
  - split; [change (zlen (repeat 9 5)) with 5; lia|]. split; [reflexivity|]. split; [change (zlen (repeat 5 25)) with 25; lia|]. split; [unfold wf; apply Forall_forall|apply Forall_forall]; intros x I; apply repeat_spec in I; subst x; unfold byte; lia.
  - exact mail_survives.
  - assert (Ed : exists d, d = mail_dd) by (eexists; reflexivity). destruct Ed as (d & Ed). rewrite <- Ed. vm_compute in Ed. subst d. repeat (apply Forall_cons; [unfold byte; lia|]). apply Forall_nil.
  - reflexivity.
  - reflexivity.
  - discriminate.
  - unfold byte. lia.
  - vm_compute. tauto.
  - unfold wf; apply Forall_forall; intros x I; apply repeat_spec in I; subst x; unfold byte; lia.
  - intros b Wb Lb. split; assumption.
  - unfold wf; apply Forall_forall; intros x I; apply repeat_spec in I; subst x; unfold byte; lia.
  - reflexivity.
  - destruct (B (InStr t) false (or_introl eq_refl)) as (q & ko & r & M & oc & Q1 & Q2 & Q3 & Q4 & Q5 & _ & _ & Q6). exists t, q, ko, r, M. repeat (split; [assumption|]). exact Q6.
Qed.
