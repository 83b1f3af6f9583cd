(** C53, C54, C39: keyrings that hold the library's own key objects. *)
From Verif Require Import Base BaseProofs Spec HexProofs Utils Framing SpecFraming FramingProofs Text Armor S2k SessionKeys SessionKeysProofs KeyPackets KeyProofs SigPackets DataPackets UserAttr Packets SpecPackets PacketsProofs TransKey SpecTrans TransRound Keyring SpecRing RingProofs Shortcuts SpecShort ShortProofs P_Short RingKeys.

Section Ring.
Variables (local mktime : Z -> res Z) (magic : bytes -> text) (fl : Z -> Z) (md5 sha1 : bytes -> bytes) (rec : seckey -> res bytes).
Hypothesis Hfl : exact_log fl.
Hypothesis Hsha : forall d, zlen (sha1 d) = 20 /\ wf (sha1 d).

Definition with_format (h : option header_format) (k : tkey) : tkey := match h with Some h => reformat h k | None => k end.
Lemma parts_written ps : Forall (pkt_ok fl rec) ps -> Forall (fun p => as_read p = p) ps -> exists encs, mapM (pkt_bytes fl rec) ps = Ok encs /\ length encs = length ps /\ Forall part_ok (combine ps encs).
Proof.
  induction 1 as [|p ps H _ IH]; intros F; [exists []; repeat split; constructor|]. destruct (IH (Forall_inv_tail F)) as (encs & E & L & P).
  destruct (pkt_ok_back fl rec p Hfl H) as (c & C1 & C2 & C3 & C4). destruct (packet_bytes_conforms _ C3 (fun _ => C2)) as (e & E1 & E2).
  exists (e :: encs). cbn [mapM combine]. unfold pkt_bytes at 1. rewrite C1. cbn [bind]. rewrite E1. cbn [bind]. rewrite E. cbn [bind]. split; [reflexivity|]. split; [cbn [length]; now rewrite L|].
  constructor; [|exact P]. exists (Raw (p_fmt p) (pkt_type p) c). cbn [fst snd]. split; [exact E2|]. rewrite C4. now rewrite (Forall_inv F).
Qed.
Lemma combine_fst {A B} (a : list A) (b : list B) : length b = length a -> map fst (combine a b) = a.
Proof. revert b. induction a as [|x a IH]; intros b L; [reflexivity|]. destruct b as [|y b]; [discriminate L|]. cbn [combine map fst]. rewrite IH by (cbn in L; lia). reflexivity. Qed.
Lemma combine_snd {A B} (a : list A) (b : list B) : length b = length a -> map snd (combine a b) = b.
Proof. revert b. induction a as [|x a IH]; intros b L; destruct b as [|y b]; try discriminate L; [reflexivity|]. cbn [combine map snd]. rewrite IH by (cbn in L; lia). reflexivity. Qed.
Lemma fp40 k f : 4 <= k_version k -> fingerprint fl md5 sha1 k = Ok f -> zlen f = 40.
Proof.
  intros V E. unfold fingerprint in E. replace (k_version k <? 4) with false in E by lia. apply bind_ok in E as (c & _ & E). unfold hexdigest in E. rewrite bytearray_to_hex_all in E by apply Hsha. apply ok_inj in E as <-. rewrite hex_text_len, (proj1 (Hsha _)). reflexivity.
Qed.
Lemma short16 f : zlen f = 40 -> short (slice_from f (-16)) = short f.
Proof.
  intros L. unfold short. assert (S : exists a b, f = a ++ b /\ zlen b = 16 /\ exists b1 b2, b = b1 ++ b2 /\ zlen b2 = 8).
  { exists (firstn 24 f), (skipn 24 f). split; [symmetry; apply firstn_skipn|]. assert (K : zlen (skipn 24 f) = 16) by (unfold zlen in *; rewrite skipn_length; lia). split; [exact K|]. exists (firstn 8 (skipn 24 f)), (skipn 8 (skipn 24 f)). split; [symmetry; apply firstn_skipn|]. unfold zlen in *. rewrite skipn_length. lia. }
  destruct S as (a & b & -> & Lb & b1 & b2 & -> & L2).
  assert (E1 : slice_from (a ++ b1 ++ b2) (-16) = b1 ++ b2) by (change (-16) with (Z.opp 16); apply slice_from_last; lia).
  rewrite E1. change (-8) with (Z.opp 8). rewrite (slice_from_last b1 b2 8) by lia. rewrite app_assoc. now rewrite (slice_from_last (a ++ b1) b2 8) by lia.
Qed.
Lemma key_writes secret l o : whole_key local mktime magic secret l o -> (forall h, Forall (pkt_ok fl rec) (map (refmt h) l)) ->
  exists f ent, key_fingerprint mktime fl md5 sha1 o = Ok f /\ writes fl md5 sha1 (key_object mktime fl md5 sha1 rec o) f ent /\
    forall h, make (from_packets local magic) (ent h) = Ok (with_format h o).
Proof.
  intros (V & N & K & F) P. destruct (round_trust local mktime magic secret l [] ltac:(now rewrite app_nil_r) Logic.I N K) as (o' & F' & T). rewrite app_nil_r in F'. rewrite F in F'. apply ok_inj in F' as <-.
  assert (PI : forall h, Forall (pkt_ok fl rec) (map (in_format h) l)).
  { intros [h|]; [exact (P h)|]. rewrite map_id. apply Forall_forall. intros p I. pose proof (P (p_fmt p)) as Q. rewrite Forall_forall in Q. specialize (Q (refmt (p_fmt p) p)). destruct p as [hf b]. apply Q. exact (in_map (refmt hf) l _ I). }
  assert (AI : forall h, Forall (fun p => as_read p = p) (map (in_format h) l)).
  { intros h. apply Forall_forall. intros q I. apply in_map_iff in I as (p & <- & I). rewrite Forall_forall in K. destruct h as [h|]; cbn [in_format]; [exact (kept_as_read local mktime secret h p (K p I))|]. pose proof (kept_as_read local mktime secret (p_fmt p) p (K p I)) as A. destruct p. exact A. }
  destruct l as [|p0 t]; [discriminate V|].
  assert (HT : pkt_type p0 = key_type secret). { unfold validate_key in V. destruct (pkt_type p0 =? key_type secret) eqn:E; [lia|discriminate V]. }
  assert (KK : exists q, key_fingerprint mktime fl md5 sha1 o = fingerprint fl md5 sha1 q /\ 4 <= k_version q /\ (exists c, pub_content fl q = Ok c) /\ forall h, pkt_key_id fl md5 sha1 (in_format h p0) = key_id fl md5 sha1 q).
  { unfold key_fingerprint. unfold to_packets in T. apply bind_ok in T as (p & T1 & T). assert (p = p0). { repeat (apply bind_ok in T as (? & _ & T)). apply ok_inj in T. congruence. } subst p. rewrite T1. cbn [bind]. pose proof (Forall_inv K) as K0. pose proof (Forall_inv (PI None)) as P0.
    destruct (pkt_ok_back fl rec _ Hfl P0) as (c & C & _). cbn [in_format] in C. unfold kept in K0. unfold pkt_type in HT. destruct (p_body p0) as [| | | |sub s|sub q| |d] eqn:B; try (destruct secret; discriminate HT).
    - exists (s_pub s). split; [reflexivity|]. split; [apply K0|]. split; [cbn [body_content] in C; unfold sec_content in C; apply bind_ok in C as (x & X & _); eauto|]. intros [h|]; unfold pkt_key_id; cbn [in_format refmt p_body]; rewrite B; reflexivity.
    - exists q. split; [reflexivity|]. split; [apply K0|]. split; [cbn [body_content] in C; eauto|]. intros [h|]; unfold pkt_key_id; cbn [in_format refmt p_body]; rewrite B; reflexivity.
    - contradict K0. destruct d; try (intros X; exact X). intros _. destruct secret; discriminate HT. }
  destruct KK as (q & Q1 & Q2 & (c & Q3) & Q4).
  assert (FP : exists f, fingerprint fl md5 sha1 q = Ok f). { unfold fingerprint. replace (k_version q <? 4) with false by lia. rewrite Q3. cbn [bind]. unfold hexdigest. rewrite bytearray_to_hex_all by apply Hsha. eauto. }
  destruct FP as (f & FP). pose proof (fp40 q f Q2 FP) as L40.
  set (encs := fun h => match mapM (pkt_bytes fl rec) (map (in_format h) (p0 :: t)) with Ok e => e | Err _ => [] end).
  set (ent := fun h => Entry (short f) (combine (map (in_format h) (p0 :: t)) (encs h))).
  assert (W : forall h, mapM (pkt_bytes fl rec) (map (in_format h) (p0 :: t)) = Ok (encs h) /\ length (encs h) = length (map (in_format h) (p0 :: t)) /\ Forall part_ok (combine (map (in_format h) (p0 :: t)) (encs h))).
  { intros h. destruct (parts_written _ (PI h) (AI h)) as (e & E1 & E2 & E3). unfold encs. rewrite E1. auto. }
  assert (EP : forall h, e_pkts (ent h) = map (in_format h) (p0 :: t)). { intros h. unfold e_pkts, ent. cbn [e_parts]. apply combine_fst. apply W. }
  assert (TY : forall h p, pkt_type (in_format h p) = pkt_type p) by (intros [h|] p; reflexivity).
  exists f, ent. split; [now rewrite Q1|]. split.
  - split; [cbn [ko_fp key_object]; now rewrite Q1|]. split; [lia|]. intros h. destruct (W h) as (W1 & W2 & W3). split; [|split].
    + cbn [ko_bytes key_object]. unfold key_octets. rewrite T. cbn [bind]. rewrite W1. cbn [bind]. unfold e_bytes, octets, ent. cbn [e_parts]. now rewrite combine_snd.
    + split; [exact W3|]. exists (in_format h p0), (map (in_format h) t), (slice_from f (-16)). split; [exact (EP h)|]. split; [rewrite TY, HT; destruct secret; auto|]. split; [rewrite Q4; unfold key_id; rewrite FP; reflexivity|]. split; [cbn [e_id ent]; symmetry; apply short16; exact L40|].
      apply Forall_forall. intros x I. apply in_map_iff in I as (y & <- & I). rewrite TY. pose proof (accepted_types local mktime secret p0 t V y I) as A. cbn [In] in A. lia.
    + reflexivity.
  - intros h. unfold make. rewrite EP. cbn [map]. rewrite TY, HT.
    assert (NF : filter (fun x => negb (pkt_type x =? 8)) (map (in_format h) t) = map (in_format h) t).
    { clear -K TY. apply Forall_inv_tail in K. induction K as [|x t Hx _ IH]; [reflexivity|]. cbn [map filter]. rewrite TY. assert (pkt_type x <> 8). { unfold kept in Hx. unfold pkt_type. destruct (p_body x) as [| | | |sub s|sub s| |d]; try contradiction; try (cbn; lia); [destruct sub; cbn; lia|destruct sub; cbn; lia|]. destruct d; try contradiction. cbn. lia. } replace (pkt_type x =? 8) with false by lia. cbn [negb]. now rewrite IH. }
    rewrite NF. assert (KT : (key_type secret =? 5) = secret) by (destruct secret; reflexivity). rewrite KT. destruct h as [h|]; cbn [with_format in_format].
    + change (refmt h p0 :: map (in_format (Some h)) t) with (map (refmt h) (p0 :: t)). rewrite from_refmt, F. reflexivity.
    + change (in_format None) with (fun p : pkt => p). rewrite map_id. exact F.
Qed.

(** C53. A key that was read from packets (and keeps everything, C39) can be added to every keyring; it is then found under its fingerprint, as the same
    key with the header format of the keyring, also by a process that opens the file anew, and the keys with other ids are found as before. *)
Theorem c53_key_survives_partial secret l o r es : whole_key local mktime magic secret l o -> (forall h, Forall (pkt_ok fl rec) (map (refmt h) l)) -> rep fl md5 sha1 r es ->
  exists f r', key_fingerprint mktime fl md5 sha1 o = Ok f /\ add fl md5 sha1 r (key_object mktime fl md5 sha1 rec o) = (r', Ok tt) /\
    get tkey (from_packets local magic) r' f = Ok (with_format (r_pref r) o) /\
    (forall f', short f' <> short f -> get tkey (from_packets local magic) r' f' = get tkey (from_packets local magic) r f') /\
    forall s, exists r2, open_ring fl md5 sha1 (r_file r') s false = Ok r2 /\ forall f', get tkey (from_packets local magic) r2 f' = get tkey (from_packets local magic) r' f'.
Proof.
  intros W P R. destruct (key_writes secret l o W P) as (f & ent & Ff & Wr & M). destruct (add_rep fl md5 sha1 r es _ f ent R Wr) as (r' & A & R' & _). exists f, r'. split; [exact Ff|]. split; [exact A|].
  assert (ID : e_id (ent (r_pref r)) = short f) by (destruct Wr as (_ & _ & Wr); apply Wr).
  split; [|split].
  - rewrite (get_rep fl md5 sha1 _ _ _ _ f R'), newest_app. cbn [newest]. rewrite ID, zlist_eqb_refl. apply M.
  - intros f' D. rewrite (get_rep fl md5 sha1 _ _ _ _ f' R'), (get_rep fl md5 sha1 _ _ _ _ f' R), newest_app. cbn [newest]. rewrite ID, (zlist_eqb_neq (short f) (short f')) by congruence. reflexivity.
  - intros s. destruct (open_rep fl md5 sha1 _ s (proj1 (proj2 R'))) as (r2 & O & R2 & _). exists r2. rewrite (proj1 R'). split; [exact O|]. intros f'. now rewrite (get_rep fl md5 sha1 _ _ _ _ f' R2), (get_rep fl md5 sha1 _ _ _ _ f' R').
Qed.

(** Any number of keys with different ids, added in any order: each is then found under its fingerprint, as the same key. *)
Theorem c53_keys_survive_partial (ks : list (text * tkey)) r es : rep fl md5 sha1 r es -> NoDup (map (fun x => short (fst x)) ks) ->
  Forall (fun x => key_fingerprint mktime fl md5 sha1 (snd x) = Ok (fst x) /\ exists secret l, whole_key local mktime magic secret l (snd x) /\ forall h, Forall (pkt_ok fl rec) (map (refmt h) l)) ks ->
  let r' := run fl md5 sha1 r (map (fun x => Add (key_object mktime fl md5 sha1 rec (snd x))) ks) in
  (forall f o, In (f, o) ks -> exists h, get tkey (from_packets local magic) r' f = Ok (with_format h o)) /\
  (forall f', ~ In (short f') (map (fun x => short (fst x)) ks) -> get tkey (from_packets local magic) r' f' = get tkey (from_packets local magic) r f') /\
  exists es', rep fl md5 sha1 r' es'.
Proof.
  intros R N F. cbv zeta. revert r es R. induction ks as [|[f o] ks IH]; intros r es R; [cbn; split; [intros ? ? []|split; [reflexivity|eauto]]|].
  destruct (Forall_inv F) as (Ff & secret & l & W & P). cbn [fst snd] in *. destruct (key_writes secret l o W P) as (f0 & ent & Ff0 & Wr & M). rewrite Ff in Ff0. apply ok_inj in Ff0 as <-.
  destruct (add_rep fl md5 sha1 r es _ f ent R Wr) as (r1 & A & R1 & _). cbn [map] in N. inversion N as [|? ? N1 N2]. subst.
  destruct (IH N2 (Forall_inv_tail F) r1 _ R1) as (I1 & I2 & I3). assert (E : run fl md5 sha1 r (map (fun x => Add (key_object mktime fl md5 sha1 rec (snd x))) ((f, o) :: ks)) = run fl md5 sha1 r1 (map (fun x => Add (key_object mktime fl md5 sha1 rec (snd x))) ks)) by (unfold run; cbn [map fold_left snd]; unfold apply at 2; rewrite A; reflexivity).
  rewrite E. assert (ID : e_id (ent (r_pref r)) = short f) by (destruct Wr as (_ & _ & Wr); apply Wr).
  split; [|split; [|exact I3]].
  - intros f' o' [X|X]; [injection X as <- <-|exact (I1 f' o' X)]. exists (r_pref r). cbn [fst snd] in *. rewrite I2 by exact N1. rewrite (get_rep fl md5 sha1 _ _ _ _ f R1), newest_app. cbn [newest]. rewrite ID, zlist_eqb_refl. apply M.
  - intros f' X. rewrite I2 by (intros J; apply X; now right). assert (D : short f <> short f') by (intros J; apply X; left; exact J). rewrite (get_rep fl md5 sha1 _ _ _ _ f' R1), (get_rep fl md5 sha1 _ _ _ _ f' R), newest_app. cbn [newest]. rewrite ID, (zlist_eqb_neq (short f) (short f') D). reflexivity.
Qed.
End Ring.
Print Assumptions c53_key_survives_partial.
Print Assumptions c53_keys_survive_partial.
(** the conditions are met: a public or a secret key, and a keyring file that is empty or holds two keys *)
Lemma rk_log : exact_log Z.log2. Proof. intros n H. reflexivity. Qed.
Lemma rk_hash : forall d : bytes, zlen ((fun _ : bytes => repeat 7 20) d) = 20 /\ wf ((fun _ : bytes => repeat 7 20) d).
Proof. intros d. split; [reflexivity|]. unfold wf. cbn [repeat]. repeat (apply Forall_cons; [unfold byte; lia|]). apply Forall_nil. Qed.
Example c53_key_ex (secret : bool) : exists o r, whole_key same same no_magic secret (if secret then kx_slist else kx_list) o /\ (forall h, Forall (pkt_ok Z.log2 no_rec) (map (refmt h) (if secret then kx_slist else kx_list))) /\
  rep Z.log2 (fun _ => repeat 7 20) (fun _ => repeat 7 20) r [] /\ key_fingerprint same Z.log2 (fun _ => repeat 7 20) (fun _ => repeat 7 20) o = Ok (concat (repeat [48; 55] 20)) /\
  exists r', add Z.log2 (fun _ => repeat 7 20) (fun _ => repeat 7 20) r (key_object same Z.log2 (fun _ => repeat 7 20) (fun _ => repeat 7 20) no_rec o) = (r', Ok tt) /\
    get tkey (from_packets same no_magic) r' (concat (repeat [48; 55] 20)) = Ok (with_format (r_pref r) o).
Proof.
  destruct (kx_whole secret) as (o & W). destruct (open_rep Z.log2 (fun _ => repeat 7 20) (fun _ => repeat 7 20) [] secret (Forall_nil _)) as (r & _ & R & _). exists o, r. split; [exact W|]. split; [intros h; apply kx_all|]. split; [exact R|].
  destruct (c53_key_survives_partial same same no_magic Z.log2 (fun _ => repeat 7 20) (fun _ => repeat 7 20) no_rec rk_log rk_hash secret _ o r [] W (fun h => kx_all h secret) R) as (f & r' & F & A & G & _).
  assert (Ef : f = concat (repeat [48; 55] 20)).
  { destruct W as (_ & _ & _ & W). destruct secret; vm_compute in W; apply ok_inj in W; subst o; vm_compute in F; apply ok_inj in F; subst f; reflexivity. }
  subst f. split; [exact F|]. exists r'. split; [exact A|exact G].
Qed.
