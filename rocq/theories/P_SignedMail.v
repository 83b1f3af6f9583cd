(** C109: signed, then encrypted. *)
From Verif Require Import Base BaseProofs Spec Utils UtilsProofs Text Utf8 SpecUtf8 Utf8Proofs Framing SpecFraming Armor SpecArmor ArmorProofs ArmorProps S2k SpecS2k Cipher SymCipher SessionKeys SessionKeysProofs KeyPackets SpecKey KeyProofs SigPackets SpecSig DataPackets UserAttr SpecAttr Packets SpecPackets PacketsProofs CfbProofs Message SpecMessage MsgProps TransKey SpecTrans TransRound Shortcuts SpecShort ShortProofs SpecOnePass OnePassProofs P_Packets P_Message P_Short.
From Verif Require Import Compression SpecCompression CompressionProofs SpecNest P_Nest.
From Verif Require Import Signable KeyOps SpecVerify SpecSigned VerifyProofs CrlfProofs DemoRsa P_Keys P_Verify PubMsg SpecPubMsg PubMsgProofs P_PubMsg P_Transparent SignMessage P_SignMessage P_Stranger KeyCrypt SpecKeyCrypt P_Mail.

(** A signed message survives being written and read, so C63, C79, C105 and C108 hold of it. *)
Theorem c109_signed_survives_partial fl rec sigs m p ps : (forall i, 1024 <= i <= 65011712 -> fl i = Z.log2 i) -> plain_packet m = Some p -> pkt_ok fl rec p -> sigs <> [] -> Forall (sig_writable fl rec) sigs ->
  Message.to_packets None (MSigned sigs (Some m) true) = Ok ps -> exists d, survives fl rec (MSigned sigs (Some m) true) d.
Proof.
  intros Hfl Hm Hp N Hs T. destruct (signed_wire fl rec sigs m p ps Hm Hp Hs T) as [A B]. specialize (B N). destruct (wire_round fl rec ps Hfl A) as (encs & E1 & E2 & _). exists (concat encs). split.
  - unfold message_octets. rewrite T. cbn [bind]. rewrite E1. reflexivity.
  - exists (map reread ps). split; [exact E2|]. rewrite open_reread by now right. apply (signed_reopen sigs m p ps Hm N); [|exact T]. eapply Forall_impl; [|exact Hs]. intros g [G [S _]]. split; [exact G|]. cbn [p_body body_ok] in S. inversion S. cbn. lia.
Qed.
Print Assumptions c109_signed_survives_partial.
Lemma sign_survives fl rec md5 sha1 H oid inv elg k sec nonce now prefs m p st hash sm :
  (forall i, 1024 <= i <= 65011712 -> fl i = Z.log2 i) -> library_hashes H oid -> library_numbers fl inv k -> keypair k sec ->
  plain_packet m = Some p -> pkt_ok fl rec p ->
  sign_message fl md5 sha1 H oid inv false k sec nonce now prefs m 4 st hash true = Ok sm ->
  (forall g x, sm = MSigned [g] x true -> sig_writable fl rec g) ->
  (forall g x s, sm = MSigned [g] x true -> sig_of_packet (ms_sig g) = Some s -> Forall (fun v => 0 <= v) (so_values s) /\ (k_alg k = 17 -> Forall (fun v => v <> 0) (so_values s)) /\ full_size k (so_values s)) ->
  (exists g, sm = MSigned [g] (Some m) true) /\ verify_message fl md5 sha1 H oid inv elg k sm = Ok [true] /\ exists d, survives fl rec sm d.
Proof.
  intros Hfl LH LN KP Hm Hp E W V. destruct (c98_sign_read_verify_partial fl rec md5 sha1 H oid inv elg k sec nonce now prefs m p st hash sm Hfl LH LN KP Hm Hp E W V) as (A & ps & encs & B & C & D & _).
  pose proof (c98_chosen_hash fl md5 sha1 H oid inv false k sec nonce now prefs m 4 st hash true sm E) as (_ & g & -> & _). split; [exists g; reflexivity|]. split; [exact A|].
  apply (c109_signed_survives_partial fl rec [g] m p ps Hfl Hm Hp); [discriminate| |exact B]. constructor; [exact (W g _ eq_refl)|constructor].
Qed.
(** C109. Whatever layers of compression and encryption a signed message is wrapped in (C108): the reader who opens them finds the message that was
    signed, in a signed message that the signer's public key accepts. *)
Theorem c109_signed_in_layers_partial z inflate bz2 md5 sha1 H Hc E od fl rec oid inv elg k sec nonce now prefs m p st hash sm ls :
  zlib_ok inflate z -> (forall i, 1024 <= i <= 65011712 -> fl i = Z.log2 i) -> (forall a hl, hash_lengths a = Some hl -> forall d, zlen (Hc a d) = hl) -> (forall d, zlen (sha1 d) = 20 /\ wf (sha1 d)) ->
  library_hashes H oid -> library_numbers fl inv k -> keypair k sec -> plain_packet m = Some p -> pkt_ok fl rec p ->
  sign_message fl md5 sha1 H oid inv false k sec nonce now prefs m 4 st hash true = Ok sm ->
  (forall g x, sm = MSigned [g] x true -> sig_writable fl rec g) ->
  (forall g x s, sm = MSigned [g] x true -> sig_of_packet (ms_sig g) = Some s -> Forall (fun v => 0 <= v) (so_values s) /\ (k_alg k = 17 -> Forall (fun v => v <> 0) (so_values s)) /\ full_size k (so_values s)) ->
  Forall (layer_ok z Hc E fl) ls -> within_size z bz2 Hc E sha1 fl rec ls sm ->
  exists M octets, put_all z bz2 Hc E sha1 fl rec ls sm = Ok M /\ message_octets fl rec M = Ok octets /\ exists received, read_message (InBytes octets) false = Ok received /\
    exists g, take_all z Hc E sha1 od ls received = Ok (MSigned [g] (Some m) true) /\ verify_message fl md5 sha1 H oid inv elg k (MSigned [g] (Some m) true) = Ok [true].
Proof.
  intros Zk Hfl HH Hs LH LN KP Hm Hp Es W V O F. destruct (sign_survives fl rec md5 sha1 H oid inv elg k sec nonce now prefs m p st hash sm Hfl LH LN KP Hm Hp Es W V) as ((g & ->) & Ve & d & Sv).
  destruct (c108_any_depth_partial z inflate bz2 Hc E sha1 od fl rec ls _ d Zk Hfl HH Hs Sv O F) as (M & o & X1 & (X2 & ps & X3 & X4) & X5). exists M, o. split; [exact X1|]. split; [exact X2|]. exists M. split; [rewrite (octets_read fl rec M o ps X2 X3); exact X4|]. exists g. split; [exact X5|exact Ve].
Qed.
Print Assumptions c109_signed_in_layers_partial.

(** C109. The whole exchange. Alice's and Bob's keys are exported as armor and read by the other. Alice signs a message with her primary key and encrypts
    the signed message to Bob's RSA key (primary key or subkey). Bob reads the octets (or any armor of them, C105), opens them with his unlocked secret
    key, and finds the message, signed by the key he read as Alice's: if the encrypted session key needs as many octets as the modulus (C58, C105). *)
Theorem c109_exchange_partial local mktime magic fl rec md5 sha1 inv other_enc other_dec H Hc E od oid elg ver
    ha now_a fa ska rest oa sec nonce now prefs m p st hash sm
    hb now_b lb ob f sub k n e d size pad dd alg bl sk iv :
  (forall i, 1024 <= i <= 65011712 -> fl i = Z.log2 i) -> (forall d, zlen (sha1 d) = 20 /\ wf (sha1 d)) -> no_break ver -> Forall (fun c => 0 <= c < 128) ver ->
  (* Alice *)
  library_hashes H oid -> library_numbers fl inv (s_pub ska) -> keypair (s_pub ska) sec ->
  let la := Pkt fa (BSec false ska) :: rest in
  whole_key local mktime magic true la oa -> Forall (pkt_ok fl rec) (map (refmt ha) (map public_part la)) -> (forall x d, In x (map public_part la) -> body_content fl rec (p_body x) = Ok d -> wf d) ->
  plain_packet m = Some p -> pkt_ok fl rec p ->
  sign_message fl md5 sha1 H oid inv false (s_pub ska) sec nonce now prefs m 4 st hash true = Ok sm ->
  (forall g x, sm = MSigned [g] x true -> sig_writable fl rec g) ->
  (forall g x s, sm = MSigned [g] x true -> sig_of_packet (ms_sig g) = Some s -> Forall (fun v => 0 <= v) (so_values s) /\ (k_alg (s_pub ska) = 17 -> Forall (fun v => v <> 0) (so_values s)) /\ full_size (s_pub ska) (so_values s)) ->
  (* Bob *)
  whole_key local mktime magic true lb ob -> Forall (pkt_ok fl rec) (map (refmt hb) (map public_part lb)) -> (forall x d, In x (map public_part lb) -> body_content fl rec (p_body x) = Ok d -> wf d) ->
  In (Pkt f (BSec sub k)) lb -> rsa_pair (s_pub k) n e d -> octets_of n size -> room fl size pad sk ->
  message_octets fl rec sm = Ok dd -> wf dd -> zlen dd < 2 ^ 32 - 100 ->
  symmetric_cipher_block_lengths alg = Some bl -> alg <> 0 -> byte alg -> In (zlen sk) (cipher_key_sizes alg) -> wf sk -> good_block (E alg sk) bl -> wf iv -> zlen iv = bl ->
  exists ta tb em, serialize_key mktime fl rec ver (to_public_key now_a oa) true (Some ha) = Ok (InStr ta) /\ serialize_key mktime fl rec ver (to_public_key now_b ob) true (Some hb) = Ok (InStr tb) /\
    rfc_pkcs1 size pad (alg :: sk ++ be_bytes 2 (zsum sk mod 65536)) em /\
    exists alice bob ko r M octets, read_key local magic (InStr ta) false = Ok alice /\ read_key local magic (InStr tb) false = Ok bob /\ In ko (keys_in bob) /\
      key_recipient fl md5 sha1 other_enc pad (ko_pub ko) = Ok r /\ public_key_encrypt E sha1 fl rec sm alg (Some r) None None sk iv true = Ok M /\ message_octets fl rec M = Ok octets /\
      read_message (InBytes octets) false = Ok M /\
      (octets_of (be_val em ^ e mod n) size -> exists g, get_message E sha1 od Hc M (ByKey false (key_decrypt inv other_dec (s_pub k) (SRsa d))) = Ok (MSigned [g] (Some m) true) /\
         verify_message fl md5 sha1 H oid inv elg (ko_pub (tk_key alice)) (MSigned [g] (Some m) true) = Ok [true]).
Proof.
  intros Hfl Hs Nb As LH LN KP la Wa Pa Wfa Hm Hp Es Ws Vs Wb Pb Wfb Ik Pair On Rm Ho Wd Ld Hb H0 Ba Hk Wsk HE Wiv Liv.
  destruct (sign_survives fl rec md5 sha1 H oid inv elg (s_pub ska) sec nonce now prefs m p st hash sm Hfl LH LN KP Hm Hp Es Ws Vs) as ((g & Eg) & _ & d' & Sv).
  pose proof (proj1 Sv) as Ho'. rewrite Ho in Ho'. apply ok_inj in Ho'. subst d'.
  destruct (c98_stranger_verifies_partial local mktime magic fl rec ver ha now_a md5 sha1 H oid inv elg fa ska rest oa sec nonce now prefs m p st hash sm Hfl LH LN KP Wa Pa Wfa Nb As Hm Hp Es Ws Vs) as (ta & ps & encs & A1 & A2 & A3 & A4).
  destruct (A4 (InStr ta) false (or_introl eq_refl)) as (qa & Qa & _ & _ & rc & R1 & _ & R2 & _).
  assert (rc = sm). { destruct Sv as (S1 & ps' & S2 & S3). rewrite (octets_read fl rec sm (concat encs) ps') in R1; [congruence| |].
    - unfold message_octets. rewrite A2. cbn [bind]. rewrite A3. reflexivity.
    - unfold message_octets in S1. rewrite A2 in S1. cbn [bind] in S1. rewrite A3 in S1. cbn [bind] in S1. apply ok_inj in S1. congruence. }
  subst rc. destruct (c105_rsa_partial local mktime magic fl rec md5 sha1 inv other_enc other_dec Hc E od ver hb now_b lb ob Hfl Hs Wb Pb Wfb Nb As f sub k n e d size pad sm dd alg bl sk iv Ik Pair On Rm Sv Wd Ld Hb H0 Ba Hk Wsk HE Wiv Liv) as (tb & em & B1 & B2 & B3).
  destruct (B3 (InStr tb) false (or_introl eq_refl)) as (qb & ko & r & M & oc & Q1 & Q2 & Q3 & Q4 & Q5 & Q6 & _ & Q7 & _).
  exists ta, tb, em. split; [exact A1|]. split; [exact B1|]. split; [exact B2|]. exists qa, qb, ko, r, M, oc. split; [exact Qa|]. repeat (split; [assumption|]). split; [now apply Q6|]. intros Sz. exists g. rewrite <- Eg. split; [exact (Q7 Sz)|exact R2].
Qed.
Print Assumptions c109_exchange_partial.
(** the conditions are met: Alice has the DSA key of C98, Bob the RSA key of C105 *)
Definition mail_sm : message := MSigned [MSig NewH demo_signed true] (Some demo_message) true.
Definition mail_sd : bytes := match message_octets Z.log2 no_rec mail_sm with Ok d => d | Err _ => [] end.
Lemma mail_signed_writable g x : mail_sm = MSigned [g] x true -> sig_writable Z.log2 no_rec g.
Proof. intros X. assert (g = MSig NewH demo_signed true) by (unfold mail_sm in X; congruence). subst g. split; [reflexivity|exact demo_signed_ok]. Qed.
Lemma mail_signed_values g x s : mail_sm = MSigned [g] x true -> sig_of_packet (ms_sig g) = Some s -> Forall (fun v => 0 <= v) (so_values s) /\ (k_alg demo_dsa = 17 -> Forall (fun v => v <> 0) (so_values s)) /\ full_size demo_dsa (so_values s).
Proof.
  intros X S. assert (g = MSig NewH demo_signed true) by (unfold mail_sm in X; congruence). subst g. assert (s = SigObj 4 1 17 8 [169; 7] [8; 4] [Sub 16 false (SbIssuer (repeat 48 16)); Sub 2 false (SbTime 5)] []) by (vm_compute in S |- *; congruence). subst s. cbn [so_values].
  split; [repeat constructor; lia|]. split; [intros _; repeat constructor; lia|exact Logic.I].
Qed.
Lemma mail_sd_wf : wf mail_sd.
Proof. assert (Ed : exists d, d = mail_sd) by (eexists; reflexivity). destruct Ed as (d & Ed). rewrite <- Ed. vm_compute in Ed. subst d. repeat (apply Forall_cons; [unfold byte; lia|]). apply Forall_nil. Qed.
Example c109_exchange_ex now_a now_b : exists oa ob ta tb alice bob ko r M, whole_key same same no_magic true st_list oa /\ whole_key same same no_magic true mail_list ob /\
  serialize_key same Z.log2 no_rec (str "x") (to_public_key now_a oa) true (Some OldH) = Ok (InStr ta) /\ serialize_key same Z.log2 no_rec (str "x") (to_public_key now_b ob) true (Some NewH) = Ok (InStr tb) /\
  read_key same no_magic (InStr ta) false = Ok alice /\ read_key same no_magic (InStr tb) false = Ok bob /\ In ko (keys_in bob) /\ key_recipient Z.log2 demo_sha1 demo_sha1 no_enc (repeat 5 25) (ko_pub ko) = Ok r /\
  public_key_encrypt mail_E demo_sha1 Z.log2 no_rec mail_sm 3 (Some r) None None (repeat 9 8) (repeat 1 8) true = Ok M /\
  exists g, get_message mail_E demo_sha1 no_old demo_H M (ByKey false (key_decrypt demo_inv no_dec mail_rsa (SRsa 593))) = Ok (MSigned [g] (Some demo_message) true) /\
    verify_message Z.log2 demo_sha1 demo_sha1 demo_H2 demo_oid demo_inv demo_elg (ko_pub (tk_key alice)) (MSigned [g] (Some demo_message) true) = Ok [true].
Proof.
  destruct st_whole as (oa & Wa). destruct mail_whole as (ob & Wb). exists oa, ob.
  destruct (c109_exchange_partial same same no_magic Z.log2 no_rec demo_sha1 demo_sha1 demo_inv no_enc no_dec demo_H2 demo_H mail_E no_old demo_oid demo_elg (str "x")
    OldH now_a NewH st_key [kx_uid; kx_sig 19] oa (SDsa 3) 7 5 (Ok [8; 2]) demo_message (Pkt NewH (BData (PLiteral 117 (str "a.txt") (TDate 1000) (LText (str "hi" ++ [233]))))) 1 None mail_sm
    NewH now_b mail_list ob NewH false (SecKey mail_rsa (Some kx_s2k) 9 (repeat 7 16) [1; 2; 3] false true) mail_n 17 593 25 (repeat 5 25) mail_sd 3 8 (repeat 9 8) (repeat 1 8)) as (ta & tb & em & A & B & P & alice & bob & ko & r & M & oc & Q1 & Q2 & Q3 & Q4 & Q5 & Q6 & Q7 & Q8).
  - reflexivity.
  - intros d; split; [reflexivity|unfold wf, demo_sha1; apply Forall_forall; intros x I; apply repeat_spec in I; subst x; unfold byte; lia].
  - repeat constructor; cbn; lia.
  - repeat constructor; lia.
  - exact demo_hashes2.
  - exact demo_dsa_numbers.
  - apply (pair_dsa demo_dsa 23 11 4 3); try reflexivity; lia.
  - exact Wa.
  - apply st_pub_ok.
  - exact st_wf.
  - reflexivity.
  - exact mail_text.
  - exact demo_signed_eq.
  - exact mail_signed_writable.
  - exact mail_signed_values.
  - exact Wb.
  - apply mail_pub_ok.
  - exact mail_wf.
  - now left.
  - exact mail_pair.
  - split; [vm_compute; split; [discriminate|reflexivity]|lia].
  - apply mail_room. lia.
  - vm_compute. reflexivity.
  - exact mail_sd_wf.
  - vm_compute. reflexivity.
  - reflexivity.
  - discriminate.
  - unfold byte. lia.
  - vm_compute. tauto.
  - apply nest_wf. lia.
  - intros b Wb' Lb. split; assumption.
  - apply nest_wf. lia.
  - reflexivity.
  - exists ta, tb, alice, bob, ko, r, M. repeat (split; [assumption|]). apply Q8.
    destruct P as (p1 & rest & E1 & -> & _ & _ & L). assert (P1 : p1 = repeat 5 11).
    { assert (L1 : length p1 = 11%nat). { clear - L. repeat rewrite zlen_app in L. rewrite (zlen_cons 3) in L. rewrite zlen_app, be_bytes_len in L. unfold zlen in L. rewrite repeat_length in L. cbn [length] in L. lia. }
      apply (f_equal (firstn 11)) in E1. rewrite firstn_app, (firstn_all2 p1), L1, Nat.sub_diag in E1 by (rewrite L1; reflexivity). cbn [firstn] in E1. rewrite app_nil_r in E1. rewrite <- E1. reflexivity. }
    subst p1. split; [vm_compute; split; [discriminate|reflexivity]|lia].
Qed.
Example c109_layers_ex : exists M octets, put_all demo_zlib (fun _ _ => Ok []) nest_H nest_E demo_sha1 Z.log2 no_rec nest_layers mail_sm = Ok M /\ message_octets Z.log2 no_rec M = Ok octets /\ exists received, read_message (InBytes octets) false = Ok received /\
  exists g, take_all demo_zlib nest_H nest_E demo_sha1 toy_od nest_layers received = Ok (MSigned [g] (Some demo_message) true) /\ verify_message Z.log2 demo_sha1 demo_sha1 demo_H2 demo_oid demo_inv demo_elg demo_dsa (MSigned [g] (Some demo_message) true) = Ok [true].
Proof.
  apply (c109_signed_in_layers_partial demo_zlib demo_inflate (fun _ _ => Ok []) demo_sha1 demo_sha1 demo_H2 nest_H nest_E toy_od Z.log2 no_rec demo_oid demo_inv demo_elg demo_dsa (SDsa 3) 7 5 (Ok [8; 2]) demo_message (Pkt NewH (BData (PLiteral 117 (str "a.txt") (TDate 1000) (LText (str "hi" ++ [233]))))) 1 None mail_sm nest_layers).
  - exact demo_zlib_ok.
  - reflexivity.
  - exact nest_hash.
  - intros d; split; [reflexivity|unfold wf, demo_sha1; apply Forall_forall; intros x I; apply repeat_spec in I; subst x; unfold byte; lia].
  - exact demo_hashes2.
  - exact demo_dsa_numbers.
  - apply (pair_dsa demo_dsa 23 11 4 3); try reflexivity; lia.
  - reflexivity.
  - exact mail_text.
  - exact demo_signed_eq.
  - exact mail_signed_writable.
  - exact mail_signed_values.
  - exact nest_ok.
  - split; [step|step]. split; [step|step]. split; [step|step]. exact Logic.I.
Qed.
