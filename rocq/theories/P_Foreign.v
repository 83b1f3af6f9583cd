(** C118: signatures and signed messages that another program wrote, from their octets. *)
From Verif Require Import Base BaseProofs Spec SpecUtf8 Utf8Proofs SpecKey SpecFraming SpecSig SpecSigned SpecVerify SpecCert SpecData SpecMessage SpecOnePass SpecForeign Utils UtilsProofs HexProofs CodecProofs Framing FramingProofs Text S2k Armor KeyPackets KeyProofs P_Keys SigPackets SigProofs SigStable P_Sig P_Area Signable SignedProofs KeyOps VerifyProofs SignVerify P_Verify P_Bound P_Grip P_SubValue P_Cert SessionKeys DataPackets DataProofs Packets Message MsgProps Shortcuts ShortProofs SignMessage P_SignMessage P_Message CrlfProofs DemoRsa.

(** ** what of an area is written back *)
Lemma area_wf ts es : rfc_area ts es -> wf (concat es) -> Forall (fun t : triple => wf (snd t)) ts.
Proof.
  induction 1 as [|[[ty c] d] e ts es (T & l & L & ->) _ IH]; intros W; [constructor|]. cbn [concat] in W. rewrite !wf_app in W. destruct W as ((_ & _ & W1) & W2). constructor; [exact W1|apply IH, W2].
Qed.
Lemma sub_unique ty c d e e' s s' c' d' : rfc_sub ty c d e -> rfc_sub ty c' d' e' -> e ++ s = e' ++ s' -> d = d' /\ s = s'.
Proof.
  intros (T & l & L & ->) (T' & l' & L' & ->) E. rewrite <- !app_assoc in E. destruct (rfc_new_length_inj _ _ _ _ _ _ L L' E) as (N & -> & E2). cbn [app] in E2. injection E2 as _ E2.
  assert (Z0 : zlen d = zlen d') by lia. apply app_inj_len in E2; [exact E2|exact Z0].
Qed.
Lemma area_unique ts es : rfc_area ts es -> forall ts' es', rfc_area ts' es' -> map fst ts = map fst ts' -> concat es = concat es' -> ts = ts'.
Proof.
  induction 1 as [|[[ty c] d] e ts es R _ IH]; intros ts' es' A M E; inversion A as [|[[ty' c'] d'] e' ts2 es2 R' A']; subst; [reflexivity|discriminate M|discriminate M|].
  cbn [map fst] in M. injection M as <- <- M. cbn [fst snd] in R, R'. cbn [concat] in E. destruct (sub_unique _ _ _ _ _ _ _ _ _ R R' E) as [<- E2]. f_equal. exact (IH ts2 es2 A' M E2).
Qed.
(** an area all of whose subpackets are kept *)
Lemma area_kept fl ts es : rfc_area ts es -> Forall2 shortest_sub ts es -> wf (concat es) -> Forall (kept_sub fl) ts -> exists hs, mapM (sub_of sig_from_content) ts = Ok hs /\ subs_bytes fl hs = Ok (concat es).
Proof.
  induction 1 as [|[[ty c] d] e ts es R _ IH]; intros Sh W K; [exists []; split; reflexivity|]. inversion Sh as [|? ? ? ? S1 Sh']; subst. cbn [concat] in W. rewrite wf_app in W. destruct W as (We & Ws).
  destruct (IH Sh' Ws (Forall_inv_tail K)) as (hs & M & B). pose proof (Forall_inv K) as K1. unfold kept_sub in K1. cbn [fst snd] in K1, R. pose proof R as (Ht & l & L & Ee). assert (Wd : wf d). { rewrite Ee, !wf_app in We. apply We. }
  destruct (stable_parses fl _ ty d Wd Ht K1) as [b Hb]. pose proof (proj2 (stable_subs fl _ ty d b Wd Ht Hb) K1) as Hc.
  assert (Hm : zlen d < 4294967295). { apply rfc_new_length_max in L. unfold MAX_PACKET_LENGTH in L. lia. }
  destruct (sub_frame_rfc ty c d Ht Hm) as (e' & E1 & E2 & _). assert (e' = e).
  { pose proof (proj2 (sub_frame_inv ty c d e' Ht E1) e R) as Q1. pose proof (S1 e' E2) as Q2. unfold rfc_sub in E2. destruct E2 as (_ & l' & L' & Ee'). subst e e'. rewrite !zlen_app in *.
    f_equal. assert (Lq : zlen l = zlen l') by lia. clear -L L' Lq. inversion L as [n Hn|b0 b1 B0 B1|q Hq Hw]; inversion L' as [n' Hn'|b0' b1' B0' B1'|q' Hq' Hw']; subst; rewrite ?zlen_cons in Lq; change (zlen (@nil Z)) with 0 in Lq; try lia; try reflexivity.
    - unfold byte in *. f_equal; [lia|]. f_equal. lia.
    - f_equal. assert (X : q = q') by (apply be_val_inj; try assumption; lia). now rewrite X. }
  subst e'. exists (Sub ty c b :: hs). cbn [mapM]. unfold sub_of at 1. cbn [fst snd]. rewrite Hb. cbn [bind]. rewrite M. cbn [bind]. split; [reflexivity|]. cbn [subs_bytes]. unfold sub_bytes. rewrite Hc. cbn [bind]. rewrite E1. cbn [bind]. rewrite B. reflexivity.
Qed.
(** one that is not kept *)
Lemma area_altered fl ts es : rfc_area ts es -> wf (concat es) -> ~ Forall (kept_sub fl) ts -> forall hs a, mapM (sub_of sig_from_content) ts = Ok hs -> subs_bytes fl hs = Ok a -> a <> concat es.
Proof.
  intros A W N hs a M B ->. apply N. clear N.
  assert (F : map (fun s => (sub_type s, sub_critical s)) hs = map fst ts) by exact (c34_types sig_from_content ts hs M).
  assert (T : Forall (fun s => 0 <= sub_type s < 128) hs).
  { clear -A F. revert hs F. induction A as [|[[ty c] d] e ts es (T & _) _ IH]; intros hs F; destruct hs as [|s hs]; try discriminate F; constructor; cbn [map fst] in F; injection F as F1 F2 F3; [cbn [fst] in T; lia|apply IH; assumption]. }
  destruct (c34_written_area fl hs (concat es) T B) as (ts' & es' & E & A' & C).
  assert (M' : map fst ts = map fst ts'). { rewrite <- F. clear -C. induction C as [|s t hs ts [Q _] _ IH]; [reflexivity|]. cbn [map]. now rewrite Q, IH. }
  pose proof (area_unique ts es A ts' es' A' M' E) as ->. clear A' M' E F B T. pose proof (area_wf _ _ A W) as Wt. clear W. revert hs M C. induction A as [|[[ty c] d] e ts es (T & _) _ IH]; intros hs M C; [constructor|].
  cbn [mapM] in M. apply bind_ok in M as (x & Hx & M). apply bind_ok in M as (r & Hr & M). apply ok_inj in M. subst hs. inversion C as [|? ? ? ? [_ Q] C']; subst. constructor; [|exact (IH (Forall_inv_tail Wt) r Hr C')].
  unfold sub_of in Hx. cbn [fst snd] in Hx. apply bind_ok in Hx as (b & Hb & Hx). apply ok_inj in Hx. subst x. cbn [sub_body snd] in Q. unfold kept_sub. cbn [fst snd]. cbn [fst snd] in T. exact (proj1 (stable_subs fl _ ty d b (Forall_inv Wt) T Hb) Q).
Qed.

(** ** the issuer *)
Lemma issuer_sub emb d b : wf d -> subbody_from emb 16 d = Ok b -> b = SbIssuer (hex_text d).
Proof.
  intros W E. rewrite issuer_parse in E. destruct (zlen d =? 8) eqn:Z8; cbn [negb] in E; [|discriminate E]. apply bind_ok in E as (k & K & E). apply ok_inj in E. subst b. f_equal.
  pose proof (bytearray_to_hex_at [] d [] 16 W ltac:(lia)) as P. rewrite app_nil_r in P. cbn [app] in P. change (zlen (@nil Z)) with 0 in P. rewrite P in K. apply ok_inj in K. symmetry. exact K.
Qed.
Lemma issuer_read ts hs kid : Forall (fun t : triple => wf (snd t)) ts -> mapM (sub_of sig_from_content) ts = Ok hs ->
  ((exists c, In (Sub 16 c (SbIssuer kid)) hs) <-> exists c id, In (16, c, id) ts /\ kid = hex_text id).
Proof.
  intros W M. split.
  - intros [c I]. apply (mapM_in _ _ _ _ M) in I as (((ty & c') & d) & It & E). unfold sub_of in E. cbn [fst snd] in E. apply bind_ok in E as (b & Eb & E). apply ok_inj in E. injection E as -> -> ->.
    rewrite Forall_forall in W. apply (issuer_sub _ _ _ (W _ It)) in Eb. exists c, d. split; [exact It|]. apply (f_equal (fun x => match x with SbIssuer k => k | _ => kid end)) in Eb. exact Eb.
  - intros (c & id & I & ->). assert (Q : Forall (fun x => exists y, sub_of sig_from_content x = Ok y) ts) by (apply (proj1 (mapM_all (sub_of sig_from_content) ts)); exists hs; exact M). rewrite Forall_forall in Q, W. destruct (Q _ I) as (x & E).
    pose proof E as E0. unfold sub_of in E0. cbn [fst snd] in E0. apply bind_ok in E0 as (b & Eb & E0). apply ok_inj in E0. apply (issuer_sub _ _ _ (W _ I)) in Eb. subst b x. exists c. apply (mapM_in _ _ _ _ M). exists (16, c, id). split; [exact I|exact E].
Qed.

(** ** the theorems *)
(** What is read of the signature: its fields, and its subpackets in order. *)
Theorem c118_fields : forall s data p, sig4_octets s data -> sig_from_content data = Ok p -> exists hs us, p = SigV4 4 (s4_type s) (s4_pk s) (s4_hash s) (s4_left s) (s4_values s) hs us /\
  map (fun x => (sub_type x, sub_critical x)) hs = map fst (s4_hashed s) /\ map (fun x => (sub_type x, sub_critical x)) us = map fst (s4_unhashed s).
Proof.
  intros s data p (es1 & es2 & encs & _ & A1 & A2 & V & R) E. rewrite (c31_read _ _ _ _ _ _ _ _ _ _ _ A1 A2 V R) in E. apply bind_ok in E as (hs & Hh & E). apply bind_ok in E as (us & Hu & E). apply ok_inj in E. exists hs, us.
  split; [symmetry; exact E|]. split; [exact (c34_types _ _ _ Hh)|exact (c34_types _ _ _ Hu)].
Qed.
Print Assumptions c118_fields.

Section Sig.
Variables (fl : Z -> Z) (md5 sha1 : bytes -> bytes) (H : Z -> bytes -> bytes) (oid : Z -> bytes) (inv : Z -> Z -> Z) (elg : Z -> bytes -> list Z -> res bool).
Hypothesis LH : library_hashes H oid.
Hypothesis Sh : forall x, wf (sha1 x) /\ zlen (sha1 x) = 20.

Lemma opened s data v st pk ha h2 vs hs us : sig4_octets s data -> sig_from_content data = Ok (SigV4 v st pk ha h2 vs hs us) ->
  (v, st, pk, ha, h2, vs) = (4, s4_type s, s4_pk s, s4_hash s, s4_left s, s4_values s) /\ mapM (sub_of sig_from_content) (s4_hashed s) = Ok hs /\
  mapM (sub_of sig_from_content) (s4_unhashed s) = Ok us /\ wf (s4_area s) /\ Forall (fun t : triple => wf (snd t)) (s4_hashed s ++ s4_unhashed s) /\ Forall (fun i => 0 <= i) (s4_values s) /\
  byte (s4_type s) /\ byte (s4_pk s).
Proof.
  intros (es1 & es2 & encs & Ea & A1 & A2 & V & R) E. rewrite (c31_read _ _ _ _ _ _ _ _ _ _ _ A1 A2 V R) in E. apply bind_ok in E as (hs' & Hh & E). apply bind_ok in E as (us' & Hu & E). apply ok_inj in E. injection E as <- <- <- <- <- <- <- <-.
  split; [reflexivity|]. split; [exact Hh|]. split; [exact Hu|]. destruct R as (l1 & l2 & -> & _ & _ & _ & _ & _ & W). rewrite !wf_app in W. destruct W as (W0 & _ & W1 & _ & W2 & _ & _).
  split; [rewrite Ea; exact W1|]. split; [apply Forall_app; split; [exact (area_wf _ _ A1 W1)|exact (area_wf _ _ A2 W2)]|]. split.
  - clear -V. induction V as [|i e ms encs Q _ IH]; constructor; [|exact IH]. destruct Q as (l & b & -> & _ & _ & <- & W). rewrite wf_app in W. exact (proj1 (be_val_nonneg b (proj2 W))).
  - split; [exact (Forall_inv (Forall_inv_tail W0))|exact (Forall_inv (Forall_inv_tail (Forall_inv_tail W0)))].
Qed.
Lemma key_read4 kb k : key_body fl kb k -> pub_from_content kb = Ok k /\ obj_key_id fl md5 sha1 k = Ok (hex_text (rfc_key_id sha1 kb)).
Proof.
  intros K. pose proof (key_id_of fl md5 sha1 kb k Sh K) as I. destruct K as (ct & alg & ms & encs & Hct & Hk & F & -> & B).
  destruct (c25_reserialise_iff_canonical fl 4 ct alg None ms encs k [] _ Hct (or_intror (conj (conj (Z.le_refl 4) eq_refl) eq_refl)) Hk (rfcs_readable _ _ F) B (eq_sym (app_nil_r _))) as [R _].
  split; [exact R|]. unfold obj_key_id. destruct (rfc_key_fields _ _ _ _ _ _ Hk) as (-> & _). exact I.
Qed.
Lemma names_iff s hs us id : mapM (sub_of sig_from_content) (s4_hashed s) = Ok hs -> mapM (sub_of sig_from_content) (s4_unhashed s) = Ok us -> Forall (fun t : triple => wf (snd t)) (s4_hashed s ++ s4_unhashed s) -> wf id ->
  names_issuer hs us (hex_text id) <-> names_key s id.
Proof.
  intros Hh Hu W Wi. assert (M : mapM (sub_of sig_from_content) (s4_hashed s ++ s4_unhashed s) = Ok (hs ++ us)) by (apply P_SubValue.mapM_app; assumption).
  unfold names_issuer, names_key. rewrite (issuer_read _ _ (hex_text id) W M). split.
  - intros (c & i & I & E). exists c. rewrite Forall_forall in W. apply hex_text_inj in E; [|exact Wi|exact (W _ I)]. subst i. exact I.
  - intros (c & I). exists c, id. split; [exact I|reflexivity].
Qed.
(** A signature of any program, all of whose hashed subpackets are kept, checked with a key read from its octets: it is accepted if and only if it is valid. *)
Theorem c118_valid_iff_partial : forall k kb s data i c v st pk ha h2 vs hs us,
  key_body fl kb k -> library_numbers fl inv k -> k_alg k <> 20 -> sig4_octets s data -> kept_area fl s -> sig_from_content data = Ok (SigV4 v st pk ha h2 vs hs us) -> covers fl i c ->
  let verified := verify fl md5 sha1 H oid inv elg k (SigObj v st pk ha h2 vs hs us) i = Ok true in
  pub_from_content kb = Ok k /\ (verified -> valid_signature sha1 H oid k kb s c) /\
  (valid_signature sha1 H oid k kb s c -> hash_supported (s4_hash s) = true -> full_size k (s4_values s) -> verified).
Proof.
  intros k kb s data i c v st pk ha h2 vs hs us K LN A20 S4 (Ks & es & Ea & Ar & Shr) E C. cbv zeta. destruct (opened s data v st pk ha h2 vs hs us S4 E) as (F & Hh & Hu & Wa & Wt & Vn & Bt & Bp). injection F as -> -> -> -> -> ->.
  destruct (key_read4 kb k K) as [P I]. rewrite Ea in Wa. destruct (area_kept fl _ _ Ar Shr Wa Ks) as (hs' & Hh' & B). rewrite Hh in Hh'. apply ok_inj in Hh'. subst hs'. rewrite <- Ea in B.
  assert (Wi : wf (rfc_key_id sha1 kb)) by (unfold rfc_key_id; apply skipn_wf, Sh). pose proof (names_iff s hs us _ Hh Hu Wt Wi) as N. split; [exact P|]. split.
  - intros Vf. destruct (c51_accepted_only_if_valid_partial fl md5 sha1 H oid inv elg k (SigObj 4 (s4_type s) (s4_pk s) (s4_hash s) (s4_left s) (s4_values s) hs us) i c LH LN eq_refl A20 Vn C Vf) as (kid & h & X1 & X2 & X3 & X4 & X5 & X6).
    cbn [so_hashed so_unhashed so_pk so_hash so_type so_hash2 so_values] in *. rewrite I in X1. apply ok_inj in X1. subst kid. rewrite B in X4. apply ok_inj in X4. subst h. split; [apply N; exact X2|]. split; [exact X3|]. split; [exact X5|exact X6].
  - intros (X2 & X3 & X5 & X6) Hs Fs. assert (Q : exists ids, KeyOps.issuer_key_ids (SigObj 4 (s4_type s) (s4_pk s) (s4_hash s) (s4_left s) (s4_values s) hs us) = Ok ids).
    { unfold KeyOps.issuer_key_ids. cbn [so_version so_hashed so_unhashed]. change (4 <? 4) with false. cbv iota. apply mapM_all. apply Forall_forall. intros x J. apply filter_In in J as [J T]. apply Z.eqb_eq in T.
      assert (M : mapM (sub_of sig_from_content) (s4_hashed s ++ s4_unhashed s) = Ok (hs ++ us)) by (apply P_SubValue.mapM_app; assumption).
      apply (mapM_in _ _ _ _ M) in J as (((ty & cr) & d) & It & Ex). unfold sub_of in Ex. cbn [fst snd] in Ex. apply bind_ok in Ex as (b & Eb & Ex). apply ok_inj in Ex. subst x. cbn [sub_type] in T. subst ty. rewrite Forall_forall in Wt. pose proof (Wt _ It) as Wd. cbn [snd] in Wd. apply (issuer_sub _ _ _ Wd) in Eb. subst b. eexists. reflexivity. }
    destruct Q as [ids Q]. apply (c51_valid_accepted_partial fl md5 sha1 H oid inv elg k _ i c (hex_text (rfc_key_id sha1 kb)) ids (s4_area s)); cbn [so_version so_hashed so_unhashed so_pk so_hash so_type so_hash2 so_values]; try assumption; try reflexivity. apply N. exact X2.
Qed.
(** A valid RSA signature with a hashed subpacket that is not kept is not accepted, unless two different strings of octets have one digest. *)
Theorem c118_altered_refuted : forall k kb s data i c v st pk ha h2 vs hs us,
  key_body fl kb k -> library_numbers fl inv k -> In (k_alg k) [1; 3] -> sig4_octets s data -> ~ Forall (kept_sub fl) (s4_hashed s) -> sig_from_content data = Ok (SigV4 v st pk ha h2 vs hs us) -> covers fl i c ->
  valid_signature sha1 H oid k kb s c -> verify fl md5 sha1 H oid inv elg k (SigObj v st pk ha h2 vs hs us) i = Ok true ->
  exists area, subs_bytes fl hs = Ok area /\ area <> s4_area s /\ rfc_v4_octets (s4_type s) (s4_pk s) (s4_hash s) area c <> hashed_octets4 s c /\
  H (s4_hash s) (rfc_v4_octets (s4_type s) (s4_pk s) (s4_hash s) area c) = H (s4_hash s) (hashed_octets4 s c).
Proof.
  intros k kb s data i c v st pk ha h2 vs hs us K LN Ar S4 Nk E C (X2 & X3 & X5 & X6) Vf. destruct (opened s data v st pk ha h2 vs hs us S4 E) as (F & Hh & Hu & Wa & Wt & Vn & Bt & Bp). injection F as -> -> -> -> -> ->.
  assert (A20 : k_alg k <> 20) by (cbn [In] in Ar; lia).
  destruct (c51_accepted_only_if_valid_partial fl md5 sha1 H oid inv elg k (SigObj 4 (s4_type s) (s4_pk s) (s4_hash s) (s4_left s) (s4_values s) hs us) i c LH LN eq_refl A20 Vn C Vf) as (kid & h & _ & _ & _ & B & _ & Y6).
  cbn [so_hashed so_unhashed so_pk so_hash so_type so_hash2 so_values] in *. assert (Nh : h <> s4_area s). { destruct S4 as (es1 & es2 & encs & Ea & A1 & _). rewrite Ea in *. exact (area_altered fl _ _ A1 Wa Nk hs h Hh B). }
  exists h. split; [exact B|]. split; [exact Nh|]. split.
  - unfold hashed_octets4, rfc_v4_octets. intros Q. apply app_inv_head in Q. apply app_inj_suffix in Q as [Q _]; [|rewrite !zlen_app, !be_bytes_len; reflexivity]. apply app_inv_head in Q. apply app_inj_len in Q as [_ Q]; [|rewrite !be_bytes_len; reflexivity]. exact (Nh Q).
  - inversion X6 as [n e kb' em sv rest _ Hn He O M P Q|p q g y qb w r0 s0 A' _ _ _ _ _ _ _ _ _ Q]; [|rewrite A' in Ar; cbn [In] in Ar; lia]. rewrite <- Q in Y6. pose proof X6 as X7. rewrite <- Q in X7.
    destruct LH as (Ow & Hw & _). assert (W : forall x, wf (oid (s4_hash s) ++ H (s4_hash s) x)) by (intros x; apply Forall_app; split; [apply Ow|apply Hw]).
    pose proof (rsa_digest oid k _ _ _ _ sv rest rest (W _) (W _) Ar Y6 X7) as D. apply app_inv_head in D. exact D.
Qed.
End Sig.
Print Assumptions c118_valid_iff_partial.
Print Assumptions c118_altered_refuted.

(** ** messages *)
Lemma F2_split {A B} (R : A -> B -> Prop) a b l : Forall2 R (a ++ b) l -> exists x y, l = x ++ y /\ Forall2 R a x /\ Forall2 R b y.
Proof. intros F. apply Forall2_app_inv_l in F as (x & y & Fa & Fb & ->). eauto. Qed.
Lemma version_read d p : wf d -> sig_from_content d = Ok p -> sig_version_ok p.
Proof.
  intros W E. rewrite sig_from_unfold in E by exact W. unfold sig_body in E. apply bind_ok in E as (v & _ & E). destruct ((v =? 2) || (v =? 3)) eqn:V.
  - repeat match type of E with bind _ _ = Ok _ => apply bind_ok in E as (? & _ & E) | (if ?c then _ else _) = Ok _ => destruct c; [discriminate E|] end. apply ok_inj in E. subst p. cbn [sig_version_ok]. lia.
  - destruct (v =? 4) eqn:V4; [|discriminate E]. repeat match type of E with bind _ _ = Ok _ => apply bind_ok in E as (? & _ & E) | (let '(_, _) := ?c in _) = Ok _ => destruct c end. apply ok_inj in E. subst p. cbn [sig_version_ok]. lia.
Qed.
Lemma literal_read f name date c lit x : literal_octets f name date c lit -> document_message f c name date x -> exists d, data_from 11 lit = Ok (PLiteral f name (TInt date) d) /\ forall h, open_message [Pkt h (BData (PLiteral f name (TInt date) d))] = Ok x.
Proof.
  intros (Bf & Sn & Ln & Wc & R) D. change (data_from 11) with literal_from. rewrite (literal_parse f (utf8 name) date c lit Bf (utf8_wf _ Sn) Ln Wc R). rewrite decode_replace_utf8 by exact Sn.
  destruct D as [N1 N2 | s -> Ss -> | -> A].
  - replace (f =? 116) with false by lia. replace (f =? 117) with false by lia. cbn [bind]. eexists. split; [reflexivity|]. intros h. cbn [open_message p_body]. unfold open_plain. cbn. replace (f =? 116) with false by lia. replace (f =? 117) with false by lia. reflexivity.
  - cbn [Z.eqb Pos.eqb]. rewrite decode_utf8 by exact Ss. cbn [bind]. eexists. split; [reflexivity|]. intros h. reflexivity.
  - cbn [Z.eqb Pos.eqb bind]. eexists. split; [reflexivity|]. intros h. reflexivity.
Qed.
Lemma wire_not_armor ps octets : rfc_packets ps octets -> ps <> [] -> is_armor octets = false.
Proof.
  intros R N. destruct R as [|prt p ps enc encs Hp _]; [contradiction|]. destruct (rfc_head _ _ _ Hp) as (b & t & -> & B). apply (not_armor_high b (t ++ encs) B).
Qed.
Lemma wire_packets ps octets l : rfc_packets ps octets -> ps <> [] -> read_packets (InBytes octets) false = Ok l <-> Forall2 (fun r p => pkt_dec r = Ok p) ps l.
Proof.
  intros R N. pose proof (wire_not_armor ps octets R N) as NA. unfold read_packets. cbn [input_armor]. rewrite NA. cbn [bind]. unfold listed. split.
  - intros H. destruct (snd (parse_binary_packet_data pkt_dec octets)) as [e|] eqn:Sn; [discriminate H|]. apply ok_inj in H.
    assert (P : parse_binary_packet_data pkt_dec octets = (l, None)) by (rewrite <- H, <- Sn; apply surjective_pairing).
    unfold parse_binary_packet_data in P. assert (Lf : (length octets < S (length octets))%nat) by lia. apply (parsed_all pkt_dec ps octets R l _ [] Lf) in P. apply mapM_F2 in P. exact P.
  - intros F. assert (M : mapM pkt_dec ps = Ok l). { clear -F. induction F as [|r p ps l D _ IH]; [reflexivity|]. cbn [mapM]. rewrite D. cbn [bind]. now rewrite IH. }
    rewrite (parse_rfc_packets pkt_dec ps octets l R M). reflexivity.
Qed.
(** A signed message from its octets: it is read if the one-pass and signature packets are, and then it is the document with the signatures, in order. *)
Theorem c118_message_read : forall ops literal sigs octets f name date c x, signed_message_octets ops literal sigs octets -> ops <> [] -> literal_octets f name date c literal -> document_message f c name date x -> Forall wf sigs ->
  ((exists m, read_message (InBytes octets) false = Ok m) <-> Forall (fun d => exists p, onepass_from_content d = Ok p) ops /\ Forall (fun d => exists p, sig_from_content d = Ok p) sigs) /\
  forall m, read_message (InBytes octets) false = Ok m -> exists gs, m = MSigned gs (Some x) true /\ Forall2 (fun d g => sig_from_content d = Ok (ms_sig g)) sigs gs.
Proof.
  intros ops literal sigs octets f name date c x (ps & R & E) No L D Ws. destruct (literal_read f name date c literal x L D) as (d & Dl & Ol).
  assert (N : ps <> []) by (intros ->; cbn [map] in E; destruct ops; [contradiction|discriminate E]).
  assert (Split : exists po pl pg, ps = po ++ pl :: pg /\ map (fun r => (ptype r, pcontent r)) po = map (fun d => (4, d)) ops /\ (ptype pl, pcontent pl) = (11, literal) /\ map (fun r => (ptype r, pcontent r)) pg = map (fun d => (2, d)) sigs).
  { apply map_eq_app in E as (po & q & -> & E1 & E2). apply map_eq_app in E2 as (y & pg & -> & E2 & E3). destruct y as [|pl [|? ?]]; try discriminate E2. cbn [map] in E2. exists po, pl, pg. split; [reflexivity|]. split; [exact E1|]. split; [congruence|exact E3]. }
  destruct Split as (po & pl & pg & -> & Eo & El & Eg). clear E.
  assert (Opened : forall l, Forall2 (fun r p => pkt_dec r = Ok p) (po ++ pl :: pg) l -> exists gs, open_message l = Ok (MSigned gs (Some x) true) /\ Forall2 (fun d g => sig_from_content d = Ok (ms_sig g)) sigs gs).
  { intros l F. apply Forall2_app_inv_l in F as (lo & l2 & Fo & F & ->). inversion F as [|? pl' ? lg Fl Fg]; subst. clear F.
    assert (Oo : Forall (fun p => is_ops p = true) lo).
    { clear -Fo Eo. revert ops Eo. induction Fo as [|r p ps l Dr _ IH]; intros ops Eo; [constructor|]. destruct ops as [|o ops]; [discriminate Eo|]. cbn [map] in Eo. injection Eo as T C Eo. constructor; [|exact (IH ops Eo)].
      unfold pkt_dec in Dr. rewrite T in Dr. cbn in Dr. apply bind_ok in Dr as (b & Db & Dr). apply bind_ok in Db as (q & _ & Db). apply ok_inj in Db. apply ok_inj in Dr. subst p b. reflexivity. }
    assert (No' : lo <> []) by (intros ->; inversion Fo; subst; destruct ops; [contradiction|discriminate Eo]).
    assert (Og : Forall tail_ok lg /\ Forall2 (fun d g => sig_from_content d = Ok (ms_sig g)) sigs (msigs (SpecMessage.sigs_of lg))).
    { clear -Fg Eg Ws. revert sigs Eg Ws. induction Fg as [|r p ps l Dr _ IH]; intros sigs Eg Ws; destruct sigs as [|s sigs]; try discriminate Eg; [split; constructor|]. cbn [map] in Eg. injection Eg as T C Eg. destruct (IH sigs Eg (Forall_inv_tail Ws)) as (I1 & I2).
      unfold pkt_dec in Dr. rewrite T, C in Dr. change (body_dec 2 s) with (do q <- sig_from_content s;; Ok (BSig q)) in Dr. apply bind_ok in Dr as (b & Db & Dr). apply bind_ok in Db as (q & Dq & Db). apply ok_inj in Db. apply ok_inj in Dr. subst p b. split.
      - constructor; [|exact I1]. right. exists q. split; [reflexivity|exact (version_read s q (Forall_inv Ws) Dq)].
      - unfold SpecMessage.sigs_of, msigs. cbn [flat_map p_body p_fmt app map fst snd]. constructor; [exact Dq|exact I2]. }
    destruct Og as (Tg & Gg). unfold pkt_dec in Fl. injection El as T C. rewrite T, C in Fl. change (body_dec 11 literal) with (do q <- data_from 11 literal;; Ok (BData q)) in Fl. rewrite Dl in Fl. cbn [bind] in Fl. apply ok_inj in Fl. subst pl'.
    exists (msigs (SpecMessage.sigs_of lg)). split; [|exact Gg]. apply open_signed. split; [reflexivity|]. exists lo, lg. split; [exact No'|]. split; [exact Oo|]. right. eexists. exists x. split; [reflexivity|]. split; [reflexivity|]. split; [discriminate|]. split; [apply Ol|]. split; [reflexivity|]. split; [exact Tg|reflexivity]. }
  unfold read_message. split.
  - split.
    + intros [m H]. apply bind_ok in H as (l & Hl & _). apply (wire_packets _ _ l R N) in Hl. apply Forall2_app_inv_l in Hl as (lo & l2 & Fo & F & ->). inversion F as [|? pl' ? lg Fl Fg]; subst. clear -Fo Fg Eo Eg. split.
      * revert ops Eo. induction Fo as [|r p ps l Dr _ IH]; intros ops Eo; destruct ops as [|o ops]; try discriminate Eo; [constructor|]. cbn [map] in Eo. injection Eo as T C Eo. constructor; [|exact (IH ops Eo)].
        unfold pkt_dec in Dr. rewrite T, C in Dr. change (body_dec 4 o) with (do q <- onepass_from_content o;; Ok (BOnePass q)) in Dr. apply bind_ok in Dr as (b & Db & _). apply bind_ok in Db as (q & Dq & _). eauto.
      * revert sigs Eg. induction Fg as [|r p ps l Dr _ IH]; intros sigs Eg; destruct sigs as [|o sigs]; try discriminate Eg; [constructor|]. cbn [map] in Eg. injection Eg as T C Eg. constructor; [|exact (IH sigs Eg)].
        unfold pkt_dec in Dr. rewrite T, C in Dr. change (body_dec 2 o) with (do q <- sig_from_content o;; Ok (BSig q)) in Dr. apply bind_ok in Dr as (b & Db & _). apply bind_ok in Db as (q & Dq & _). eauto.
    + intros [Fo Fg]. assert (Q : exists l, Forall2 (fun r p => pkt_dec r = Ok p) (po ++ pl :: pg) l).
      { assert (Qo : exists l, Forall2 (fun r p => pkt_dec r = Ok p) po l).
        { clear -Fo Eo. revert po Eo. induction Fo as [|o ops (p & Dp) _ IH]; intros po Eo; destruct po as [|r po]; try discriminate Eo; [exists []; constructor|]. cbn [map] in Eo. injection Eo as T C Eo. destruct (IH po Eo) as (l & Fl).
          eexists (_ :: l). constructor; [|exact Fl]. unfold pkt_dec. rewrite T, C. change (body_dec 4 o) with (do q <- onepass_from_content o;; Ok (BOnePass q)). rewrite Dp. reflexivity. }
        assert (Qg : exists l, Forall2 (fun r p => pkt_dec r = Ok p) pg l).
        { clear -Fg Eg. revert pg Eg. induction Fg as [|o ops (p & Dp) _ IH]; intros po Eo; destruct po as [|r po]; try discriminate Eo; [exists []; constructor|]. cbn [map] in Eo. injection Eo as T C Eo. destruct (IH po Eo) as (l & Fl).
          eexists (_ :: l). constructor; [|exact Fl]. unfold pkt_dec. rewrite T, C. change (body_dec 2 o) with (do q <- sig_from_content o;; Ok (BSig q)). rewrite Dp. reflexivity. }
        destruct Qo as (lo & Qo). destruct Qg as (lg & Qg). eexists (lo ++ _ :: lg). apply Forall2_app; [exact Qo|]. constructor; [|exact Qg]. unfold pkt_dec. injection El as T C. rewrite T, C. change (body_dec 11 literal) with (do q <- data_from 11 literal;; Ok (BData q)). rewrite Dl. reflexivity. }
      destruct Q as (l & F). destruct (Opened l F) as (gs & O & _). eexists. rewrite (proj2 (wire_packets _ _ l R N) F). cbn [bind]. exact O.
  - intros m H. apply bind_ok in H as (l & Hl & H). apply (wire_packets _ _ l R N) in Hl. destruct (Opened l Hl) as (gs & O & G). rewrite O in H. apply ok_inj in H. exists gs. split; [congruence|exact G].
Qed.
Print Assumptions c118_message_read.

Lemma utf8_ascii c : Forall (fun x => 0 <= x < 128) c -> utf8 c = c /\ Forall scalar c.
Proof.
  induction 1 as [|x c B _ [IH1 IH2]]; [split; [reflexivity|constructor]|]. split; [|constructor; [unfold scalar; lia|exact IH2]]. change (utf8 (x :: c)) with (rfc3629 x ++ utf8 c). rewrite IH1. unfold rfc3629. replace (x <=? 127) with true by lia. reflexivity.
Qed.
Lemma document_signable f c name date x st : document_message f c name date x -> rfc_document st c = c -> message_signable st x = Ok c.
Proof.
  intros D C. assert (T : forall t, Forall scalar t -> utf8 t = c -> message_signable st (MText (LText t) name date) = Ok c).
  { intros t F <-. cbn [message_signable]. rewrite (encode_strict_scalar t F). cbn [bind]. f_equal. unfold rfc_document in C. unfold text_signable. destruct (st =? 1) eqn:Q; [|reflexivity]. pose proof (proj2 (crlf_exact (utf8 t)) C) as X. unfold text_signable in X. change (1 =? 1) with true in X. cbv iota in X. congruence. }
  destruct D as [N1 N2|s E F ->|E A]; [reflexivity|apply T; [exact F|reflexivity]|]. destruct (utf8_ascii c A). apply T; assumption.
Qed.
(** Checking the signatures of a message that another program made, with a key of another program. The document's line ends are canonical already if the signature is one of text. *)
Theorem c118_signed_message_partial : forall fl md5 sha1 H oid inv elg k kb ops literal sigs octets f name date c x m,
  library_hashes H oid -> (forall x, wf (sha1 x) /\ zlen (sha1 x) = 20) -> key_body fl kb k -> library_numbers fl inv k -> k_alg k <> 20 ->
  signed_message_octets ops literal sigs octets -> ops <> [] -> literal_octets f name date c literal -> document_message f c name date x -> Forall wf sigs -> read_message (InBytes octets) false = Ok m ->
  (forall bs n data s, verify_message fl md5 sha1 H oid inv elg k m = Ok bs -> nth_error bs n = Some true -> nth_error sigs n = Some data -> sig4_octets s data -> kept_area fl s -> rfc_document (s4_type s) c = c ->
     valid_signature sha1 H oid k kb s (Document (rfc_document (s4_type s) c))) /\
  (Forall (fun data => exists s, sig4_octets s data /\ kept_area fl s /\ rfc_document (s4_type s) c = c /\ valid_signature sha1 H oid k kb s (Document (rfc_document (s4_type s) c)) /\ hash_supported (s4_hash s) = true /\ full_size k (s4_values s)) sigs ->
     verify_message fl md5 sha1 H oid inv elg k m = Ok (map (fun _ => true) sigs)).
Proof.
  intros fl md5 sha1 H oid inv elg k kb ops literal sigs octets f name date c x m LH Sh K LN A20 So No L D Ws R. destruct (c118_message_read ops literal sigs octets f name date c x So No L D Ws) as (_ & Rd). destruct (Rd m R) as (gs & -> & G). clear Rd R So Ws. split.
  - intros bs n data s V B Sn S4 Ka C. cbn [verify_message] in V. apply mapM_F2 in V. revert n gs bs G V B Sn. induction sigs as [|d sigs IH]; intros n gs bs G V B Sn; [destruct n; discriminate Sn|]. inversion G as [|? g ? gs' Gd G']; subst. inversion V as [|? b ? bs' Vg V']; subst. destruct n as [|n]; [|exact (IH n gs' bs' G' V' B Sn)].
    cbn [nth_error] in B, Sn. injection B as ->. injection Sn as ->. destruct (c118_fields s data _ S4 Gd) as (hs & us & Eg & _). rewrite Eg in Vg, Gd. cbn [sig_of_packet so_type] in Vg. rewrite (document_signable f c name date x _ D C) in Vg. cbn [bind] in Vg. rewrite C.
    exact (proj1 (proj2 (c118_valid_iff_partial fl md5 sha1 H oid inv elg LH Sh k kb s data (IBytes c) (Document c) _ _ _ _ _ _ hs us K LN A20 S4 Ka Gd eq_refl)) Vg).
  - intros F. cbn [verify_message]. revert gs G. induction F as [|d sigs (s & S4 & Ka & C & V & Hs & Fs) _ IH]; intros gs G; inversion G as [|? g ? gs' Gd G']; subst; [reflexivity|]. cbn [mapM map]. destruct (c118_fields s d _ S4 Gd) as (hs & us & Eg & _). rewrite Eg in Gd |- *. cbn [sig_of_packet so_type]. rewrite (document_signable f c name date x _ D C). cbn [bind]. rewrite C in V.
    rewrite (proj2 (proj2 (c118_valid_iff_partial fl md5 sha1 H oid inv elg LH Sh k kb s d (IBytes c) (Document c) _ _ _ _ _ _ hs us K LN A20 S4 Ka Gd eq_refl)) V Hs Fs). cbn [bind]. rewrite (IH gs' G'). reflexivity.
Qed.
Print Assumptions c118_signed_message_partial.

(** ** used: a DSA signature by another program on a message with a new format, an old format and a partial length header *)
Definition f_kb := [4; 0; 0; 0; 1; 17; 0; 5; 23; 0; 4; 11; 0; 3; 4; 0; 5; 18].
Definition f_sig := Sig4 0 17 8 [(2, false, [0; 0; 0; 5])] [5; 2; 0; 0; 0; 5] [(16, false, [0; 0; 0; 0; 0; 0; 0; 0])] [128; 7] [1; 2].
Definition f_data := [4; 0; 17; 8; 0; 6; 5; 2; 0; 0; 0; 5; 0; 10; 9; 16; 0; 0; 0; 0; 0; 0; 0; 0; 128; 7; 0; 1; 1; 0; 2; 2].
Definition f_ops := [3; 0; 8; 17; 0; 0; 0; 0; 0; 0; 0; 0; 1].
Definition f_literal := [98; 1; 97; 0; 0; 0; 9; 66].
Definition f_wire := [144; 13] ++ f_ops ++ [203; 8] ++ f_literal ++ [136; 32] ++ f_data.
Lemma f_key : key_body Z.log2 f_kb demo_dsa.
Proof.
  exists 1, 17, [23; 11; 4; 18], [[0; 5; 23]; [0; 4; 11]; [0; 3; 4]; [0; 5; 18]]. split; [lia|]. split; [reflexivity|]. split; [|split; [reflexivity|]].
  - assert (M : forall a b, [0; a; b] = [0; a] ++ [b]) by reflexivity.
    apply Forall2_cons; [|apply Forall2_cons; [|apply Forall2_cons; [|apply Forall2_cons; [|constructor]]]]; [exists [0; 5], [23]|exists [0; 4], [11]|exists [0; 3], [4]|exists [0; 5], [18]]; repeat (split; [reflexivity|]); wfl.
  - repeat (apply Forall_cons; [split; [vm_compute; discriminate|reflexivity]|]). apply Forall_nil.
Qed.
Lemma f_octets : sig4_octets f_sig f_data.
Proof.
  exists [[5; 2; 0; 0; 0; 5]], [[9; 16; 0; 0; 0; 0; 0; 0; 0; 0]], [[0; 1; 1]; [0; 2; 2]]. split; [reflexivity|]. split; [|split; [|split]].
  - constructor; [apply sv_sub; [cbn; lia|reflexivity|reflexivity]|constructor].
  - constructor; [apply sv_sub; [cbn; lia|reflexivity|reflexivity]|constructor].
  - apply Forall2_cons; [|apply Forall2_cons; [|constructor]]; [exists [0; 1], [1]|exists [0; 2], [2]]; repeat (split; [reflexivity|]); wfl.
  - exists [0; 6], [0; 10]. split; [reflexivity|]. repeat (split; [reflexivity|]). apply wfb_spec. reflexivity.
Qed.
Lemma shortest_small t : zlen (snd t) + 1 < 192 -> shortest_sub t ((zlen (snd t) + 1) :: (fst (fst t) + (if snd (fst t) : bool then 128 else 0)) :: snd t).
Proof.
  intros L e (_ & l & R & ->). rewrite !zlen_app, !zlen_cons. pose proof (zlen_nonneg (snd t)) as N. assert (0 < zlen l) by (inversion R; subst; rewrite ?zlen_cons; change (zlen (@nil Z)) with 0; lia). change (zlen (@nil Z)) with 0. lia.
Qed.
Lemma f_kept : kept_area Z.log2 f_sig.
Proof.
  split; [apply Forall_cons; [reflexivity|apply Forall_nil]|]. exists [[5; 2; 0; 0; 0; 5]]. split; [reflexivity|]. split; [constructor; [apply sv_sub; [cbn; lia|reflexivity|reflexivity]|constructor]|].
  constructor; [|constructor]. apply (shortest_small (2, false, [0; 0; 0; 5])). reflexivity.
Qed.
Lemma f_valid : valid_signature demo_sha1 demo_H2 demo_oid demo_dsa f_kb f_sig (Document [66]).
Proof.
  split; [exists false; right; left; reflexivity|]. split; [reflexivity|]. split; [vm_compute; reflexivity|].
  apply (valid_dsa demo_oid demo_dsa 8 _ 23 11 4 18 1 6 1 2); try reflexivity; try lia. split; [vm_compute; split; [discriminate|reflexivity]|lia].
Qed.
Lemma f_octets_message : signed_message_octets [f_ops] f_literal [f_data] f_wire.
Proof.
  exists [Raw OldH 4 f_ops; Raw NewH 11 f_literal; Raw OldH 2 f_data]. split; [|reflexivity]. unfold f_wire.
  assert (Q : forall t b, 0 <= t <= 15 -> zlen b < 256 -> rfc_packet false (Raw OldH t b) ((128 + 4 * t + 0) :: [zlen b] ++ b)).
  { intros t b A B. apply (rp_old t b 0 [zlen b] A). pose proof (zlen_nonneg b) as N. assert (Q : rfc_old_length (be_val [zlen b]) 0 [zlen b]) by (constructor; [reflexivity|apply Forall_cons; [unfold byte; lia|apply Forall_nil]]). replace (be_val [zlen b]) with (zlen b) in Q by (generalize (zlen b); intros x; cbn [be_val]; change (zlen (@nil Z)) with 0; lia). exact Q. }
  apply (rps_cons false (Raw OldH 4 f_ops) _ ([144; 13] ++ f_ops)); [exact (Q 4 f_ops ltac:(lia) eq_refl)|].
  apply (rps_cons false (Raw NewH 11 f_literal) _ ([203; 8] ++ f_literal)); [exact (rp_new 11 f_literal [8] ltac:(lia) (nl_one 8 ltac:(lia)))|].
  rewrite <- (app_nil_r ([136; 32] ++ f_data)). apply (rps_cons false (Raw OldH 2 f_data) [] ([136; 32] ++ f_data)); [exact (Q 2 f_data ltac:(lia) eq_refl)|constructor].
Qed.
Lemma f_literal_octets : literal_octets 98 [97] 9 [66] f_literal.
Proof.
  split; [unfold byte; lia|]. split; [apply Forall_cons; [unfold scalar; lia|apply Forall_nil]|]. split; [vm_compute; discriminate|]. split; [wfl|]. exists [0; 0; 0; 9]. split; [reflexivity|]. split; [reflexivity|]. split; [reflexivity|wfl].
Qed.
Example c118_used : exists m, read_message (InBytes f_wire) false = Ok m /\ verify_message Z.log2 demo_sha1 demo_sha1 demo_H2 demo_oid demo_inv demo_elg demo_dsa m = Ok [true].
Proof.
  assert (D : document_message 98 [66] [97] 9 (MBinary (LBytes [66]) [97] 9)) by (apply dm_binary; lia).
  assert (W : Forall wf [f_data]) by (apply Forall_cons; [apply wfb_spec; reflexivity|apply Forall_nil]).
  assert (N : [f_ops] <> []) by discriminate.
  destruct (c118_message_read _ _ _ _ 98 [97] 9 [66] _ f_octets_message N f_literal_octets D W) as [[_ E] _].
  destruct E as [m M]. { split; (apply Forall_cons; [eexists; vm_compute; reflexivity|apply Forall_nil]). }
  exists m. split; [exact M|].
  assert (Sh : forall x, wf (demo_sha1 x) /\ zlen (demo_sha1 x) = 20) by (intros x; split; [apply wfb_spec; reflexivity|reflexivity]).
  assert (A20 : k_alg demo_dsa <> 20) by discriminate.
  apply (proj2 (c118_signed_message_partial Z.log2 demo_sha1 demo_sha1 demo_H2 demo_oid demo_inv demo_elg demo_dsa f_kb _ _ _ _ 98 [97] 9 [66] _ m demo_hashes2 Sh f_key demo_dsa_numbers A20 f_octets_message N f_literal_octets D W M)).
  apply Forall_cons; [|apply Forall_nil]. exists f_sig. split; [exact f_octets|]. split; [exact f_kept|]. split; [reflexivity|]. split; [exact f_valid|]. split; [reflexivity|]. reflexivity || exact Logic.I.
Qed.

(** and a valid RSA signature with an issuer fingerprint (type 33) in its hashed area, which is refused *)
Definition f_n : Z := demo_n * 7 * 11 * 13.
Definition f_rsa := PubKey 4 1 1 None (Some f_n) (Some 17) None None None None.
Definition f_rsa_kb := [4; 0; 0; 0; 1; 1; 0; 104; 143; 121; 172; 251; 47; 36; 107; 153; 182; 219; 128; 144; 82; 0; 5; 17].
Definition f_value : Z := 6845640878238748914428651906269.
Definition f_rsig := Sig4 0 1 8 [(2, false, [0; 0; 0; 5]); (33, false, [4; 1])] [5; 2; 0; 0; 0; 5; 3; 33; 4; 1] [(16, false, [0; 0; 0; 0; 0; 0; 0; 0])] [161; 7] [f_value].
Definition f_rdata := [4; 0; 1; 8; 0; 10; 5; 2; 0; 0; 0; 5; 3; 33; 4; 1; 0; 10; 9; 16; 0; 0; 0; 0; 0; 0; 0; 0; 161; 7; 0; 103; 86; 103; 117; 106; 60; 25; 245; 179; 245; 102; 174; 36; 221].
Lemma f_rkey : key_body Z.log2 f_rsa_kb f_rsa.
Proof.
  exists 1, 1, [f_n; 17], [0 :: 104 :: firstn 13 (skipn 8 f_rsa_kb); [0; 5; 17]]. split; [lia|]. split; [reflexivity|]. split; [|split; [reflexivity|]].
  - apply Forall2_cons; [|apply Forall2_cons; [|constructor]]; [exists [0; 104], (firstn 13 (skipn 8 f_rsa_kb))|exists [0; 5], [17]]; repeat (split; [reflexivity|]); apply wfb_spec; reflexivity.
  - repeat (apply Forall_cons; [split; [vm_compute; discriminate|reflexivity]|]). apply Forall_nil.
Qed.
Lemma f_roctets : sig4_octets f_rsig f_rdata.
Proof.
  exists [[5; 2; 0; 0; 0; 5]; [3; 33; 4; 1]], [[9; 16; 0; 0; 0; 0; 0; 0; 0; 0]], [skipn 30 f_rdata]. split; [reflexivity|]. split; [|split; [|split]].
  - repeat (constructor; [apply sv_sub; [cbn; lia|reflexivity|reflexivity]|]). constructor.
  - repeat (constructor; [apply sv_sub; [cbn; lia|reflexivity|reflexivity]|]). constructor.
  - apply Forall2_cons; [|constructor]. exists [0; 103], (skipn 32 f_rdata). repeat (split; [reflexivity|]). apply wfb_spec. reflexivity.
  - exists [0; 10], [0; 10]. split; [reflexivity|]. repeat (split; [reflexivity|]). apply wfb_spec. reflexivity.
Qed.
Example c118_altered_used : ~ Forall (kept_sub Z.log2) (s4_hashed f_rsig) /\ valid_signature demo_sha1 demo_H2 demo_oid f_rsa f_rsa_kb f_rsig (Document [66]) /\ full_size f_rsa (s4_values f_rsig) /\
  exists v st pk ha h2 vs hs us, sig_from_content f_rdata = Ok (SigV4 v st pk ha h2 vs hs us) /\
  verify Z.log2 demo_sha1 demo_sha1 demo_H2 demo_oid demo_inv demo_elg f_rsa (SigObj v st pk ha h2 vs hs us) (IBytes [66]) <> Ok true.
Proof.
  split; [|split; [|split]].
  - intros F. apply Forall_inv_tail, Forall_inv in F. unfold kept_sub, stable_sub in F. cbn in F. repeat destruct F as [F|F]; try discriminate F; try contradiction F; try lia.
  - split; [exists false; right; right; left; reflexivity|]. split; [reflexivity|]. split; [vm_compute; reflexivity|].
    apply (valid_rsa demo_oid f_rsa 8 _ f_n 17 13 ([0; 1] ++ repeat 255 8 ++ [0] ++ demo_H2 8 (hashed_octets4 f_rsig (Document [66]))) f_value []); [left; reflexivity|reflexivity|reflexivity|split; [vm_compute; split; [discriminate|reflexivity]|lia]| |].
    + exists (repeat 255 8). split; [reflexivity|]. split; [repeat constructor|]. split; [reflexivity|reflexivity].
    + vm_compute. reflexivity.
  - right. exists 13. split; (split; [vm_compute; split; [discriminate|reflexivity]|lia]).
  - do 8 eexists. split; [vm_compute; reflexivity|]. vm_compute. discriminate.
Qed.
