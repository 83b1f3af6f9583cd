(** C98 with C69, C71: someone who has only the exported key and the written message verifies the signature. *)
From Verif Require Import Base BaseProofs Spec Utils Text Utf8 SpecUtf8 Utf8Proofs Framing SpecFraming Armor SpecArmor ArmorProofs ArmorProps S2k SpecS2k SessionKeys SessionKeysProofs KeyPackets SpecKey KeyProofs SigPackets SpecSig DataPackets UserAttr SpecAttr Packets SpecPackets PacketsProofs Message SpecMessage MsgProps TransKey SpecTrans TransRound Shortcuts SpecShort ShortProofs SpecOnePass OnePassProofs P_Packets P_Message P_Short.
From Verif Require Import Signable KeyOps SpecVerify SpecSigned CrlfProofs DemoRsa P_Verify SignMessage P_SignMessage.

Lemma primary_packet local magic secret p l q : from_packets local magic secret (p :: l) = Ok q -> key_from local secret p = Ok (tk_key q).
Proof.
  unfold from_packets. intros H. apply bind_ok in H as (_ & _ & H). apply bind_ok in H as (k & E & H). destruct (span_sigs l) as [s r]. apply bind_ok in H as (sg & _ & H).
  destruct (spans (length r) [13] r) as [us r1]. apply bind_ok in H as (u & _ & H). destruct (spans (length r1) [17] r1) as [ats r2]. apply bind_ok in H as (a & _ & H). destruct (spans (length r2) [14; 7] r2) as [sb r3]. apply bind_ok in H as (b & _ & H). apply ok_inj in H. subst q. exact E.
Qed.
Lemma public_whole local mktime magic l o : whole_key local mktime magic true l o -> exists q, whole_key local mktime magic false (map public_part l) q.
Proof.
  intros (V & N & K & F). destruct (public_copy local mktime magic Z.log2 (fun _ => Ok []) l o (fun _ => None) V N K F) as (q & Q & _). exists q. split; [exact (public_accepted _ _ _ V K)|]. split; [|split; [|exact Q]].
  - intros p I. apply in_map_iff in I as (x & <- & Ix). rewrite Forall_forall in K. destruct (kept_public_type _ _ _ (K x Ix)) as [E _]. rewrite E. pose proof (N x Ix). destruct (pkt_type x =? 5); [lia|]. destruct (pkt_type x =? 7); lia.
  - apply Forall_forall. intros p I. apply in_map_iff in I as (x & <- & Ix). rewrite Forall_forall in K. apply (kept_public_type _ _ _ (K x Ix)).
Qed.

(** C98. The owner of a secret key, read from packets, signs a message; the public copy of the key is exported as armor (in any state of the key), and the message is
    written, in binary or armored. Whoever reads both finds the message signed by that key: the signature verifies with the key that was read. *)
Theorem c98_stranger_verifies_partial local mktime magic fl rec ver h now_p md5 sha1 H oid inv elg f sk rest o sec nonce now prefs m p st hash sm :
  (forall i, 1024 <= i <= 65011712 -> fl i = Z.log2 i) -> library_hashes H oid -> library_numbers fl inv (s_pub sk) -> keypair (s_pub sk) sec ->
  let l := Pkt f (BSec false sk) :: rest in
  whole_key local mktime magic true l o -> Forall (pkt_ok fl rec) (map (refmt h) (map public_part l)) ->
  (forall x d, In x (map public_part l) -> body_content fl rec (p_body x) = Ok d -> wf d) -> no_break ver -> Forall (fun c => 0 <= c < 128) ver ->
  plain_packet m = Some p -> pkt_ok fl rec p ->
  sign_message fl md5 sha1 H oid inv false (s_pub sk) sec nonce now prefs m 4 st hash true = Ok sm ->
  (forall g x, sm = MSigned [g] x true -> sig_writable fl rec g) ->
  (forall g x s, sm = MSigned [g] x true -> sig_of_packet (ms_sig g) = Some s -> Forall (fun v => 0 <= v) (so_values s) /\ (k_alg (s_pub sk) = 17 -> Forall (fun v => v <> 0) (so_values s)) /\ full_size (s_pub sk) (so_values s)) ->
  exists t ps encs, serialize_key mktime fl rec ver (to_public_key now_p o) true (Some h) = Ok (InStr t) /\ Message.to_packets None sm = Ok ps /\ mapM (pkt_bytes fl rec) ps = Ok encs /\
    forall i flag, given_as t i -> exists q, read_key local magic i flag = Ok q /\ tk_secret q = false /\ ko_sec (tk_key q) = None /\
      exists received, read_message (InBytes (concat encs)) false = Ok received /\ received = MSigned (match received with MSigned gs _ _ => gs | _ => [] end) (Some m) true /\
        verify_message fl md5 sha1 H oid inv elg (ko_pub (tk_key q)) received = Ok [true] /\
        forall a, adata a = concat encs -> armor_ok a -> extra_headers a = None -> exists t', armor_str a = Ok t' /\ forall flag, read_message (InStr t') flag = Ok received.
Proof.
  intros Hfl LH LN KP l W P Wf Nb As Hm Hp E Wr V. destruct (public_whole _ _ _ _ _ W) as (q & Wq). pose proof W as (V0 & N0 & K0 & F0).
  destruct (public_copy local mktime magic fl rec l o now_p V0 N0 K0 F0) as (q' & Q' & _ & S). pose proof Wq as (Vq & Nq & Kq & Fq). rewrite Fq in Q'. apply ok_inj in Q' as <-.
  destruct (c69_armored_partial local mktime magic fl rec ver false _ q h Hfl Wq P Wf Nb As) as (t & T1 & T2).
  destruct (c98_sign_read_verify_partial fl rec md5 sha1 H oid inv elg (s_pub sk) sec nonce now prefs m p st hash sm Hfl LH LN KP Hm Hp E Wr V) as (A & ps & encs & B & C & D & G).
  exists t, ps, encs. split; [rewrite S; exact T1|]. split; [exact B|]. split; [exact C|]. intros i flag I. exists (reformat h q). split; [exact (T2 i flag I)|].
  assert (X : key_from local false (public_part (Pkt f (BSec false sk))) = Ok (tk_key q)) by (eapply primary_packet; exact Fq). cbn [public_part p_body p_fmt key_from] in X. unfold key_from_pub in X. apply bind_ok in X as (c & _ & X). apply ok_inj in X.
  split; [|split; [cbn [reformat tk_key]; rewrite <- X; reflexivity|]].
  { cbn [reformat tk_secret]. unfold from_packets in Fq. apply bind_ok in Fq as (_ & _ & Fq). cbn [map] in Fq. apply bind_ok in Fq as (k & _ & Fq). destruct (span_sigs _) as [s r]. apply bind_ok in Fq as (sg & _ & Fq).
    destruct (spans (length r) [13] r) as [us r1]. apply bind_ok in Fq as (u & _ & Fq). destruct (spans (length r1) [17] r1) as [ats r2]. apply bind_ok in Fq as (a & _ & Fq). destruct (spans (length r2) [14; 7] r2) as [sb r3]. apply bind_ok in Fq as (b & _ & Fq). apply ok_inj in Fq. subst q. reflexivity. }
  exists sm. split; [exact D|]. split; [|split; [|exact G]].
  - pose proof (c98_chosen_hash fl md5 sha1 H oid inv false (s_pub sk) sec nonce now prefs m 4 st hash true sm E) as (_ & g & -> & _). reflexivity.
  - replace (ko_pub (tk_key (reformat h q))) with (s_pub sk); [exact A|]. cbn [reformat tk_key]. rewrite <- X. reflexivity.
Qed.
Print Assumptions c98_stranger_verifies_partial.
(** the conditions are met: the DSA key of C98 with a user id and a certification *)
Definition st_key : seckey := SecKey demo_dsa (Some kx_s2k) 9 (repeat 7 16) [1; 2; 3] false true.
Definition st_list : list pkt := [Pkt NewH (BSec false st_key); kx_uid; kx_sig 19].
Lemma st_whole : exists o, whole_key same same no_magic true st_list o.
Proof.
  eexists. split; [vm_compute; reflexivity|]. split; [intros p I; repeat destruct I as [<-|I]; try contradiction; discriminate|]. split; [|vm_compute; reflexivity].
  apply Forall_cons; [|apply Forall_cons; [apply (kx_kept true); cbn; auto|apply Forall_cons; [apply (kx_kept true); cbn; auto|apply Forall_nil]]].
  change (true = true /\ kept_key same same demo_dsa /\ exists x, Some kx_s2k = Some x). split; [reflexivity|]. split; [|eexists; reflexivity]. split; [cbn; lia|split; [reflexivity|eexists; split; reflexivity]].
Qed.
Lemma st_pub_ok h : Forall (pkt_ok Z.log2 no_rec) (map (refmt h) (map public_part st_list)).
Proof.
  cbn [map st_list]. apply Forall_cons; [|apply Forall_cons; [change (public_part kx_uid) with kx_uid; apply kx_ok; cbn; auto|apply Forall_cons; [change (public_part (kx_sig 19)) with (kx_sig 19); apply kx_ok; cbn; auto|apply Forall_nil]]].
  split.
  - cbn [refmt public_part p_body p_fmt body_ok]. exists 4, 1, 17, None, [23; 11; 4; 4 ^ 3 mod 23]. split; [lia|]. split; [right; split; [lia|reflexivity]|]. split; [reflexivity|].
    repeat (apply Forall_cons; [vm_compute; repeat split; congruence|]). apply Forall_nil.
  - intros d H. destruct h; vm_compute in H; apply ok_inj in H; subst d; vm_compute; repeat split; congruence.
Qed.
Lemma st_wf x d : In x (map public_part st_list) -> body_content Z.log2 no_rec (p_body x) = Ok d -> wf d.
Proof. intros I H. cbn [map st_list In] in I. repeat destruct I as [<-|I]; try contradiction; vm_compute in H; apply ok_inj in H; subst d; unfold wf; repeat (apply Forall_cons; [unfold byte; lia|]); apply Forall_nil. Qed.
Example c98_stranger_ex now_p : exists o t encs, whole_key same same no_magic true st_list o /\ serialize_key same Z.log2 no_rec (str "x") (to_public_key now_p o) true (Some OldH) = Ok (InStr t) /\
  (exists q, read_key same no_magic (InStr t) false = Ok q /\ exists received, read_message (InBytes (concat encs)) false = Ok received /\
     verify_message Z.log2 demo_sha1 demo_sha1 demo_H2 demo_oid demo_inv demo_elg (ko_pub (tk_key q)) received = Ok [true]).
Proof.
  destruct st_whole as (o & W). exists o.
  destruct (c98_stranger_verifies_partial same same no_magic Z.log2 no_rec (str "x") OldH now_p demo_sha1 demo_sha1 demo_H2 demo_oid demo_inv demo_elg NewH st_key [kx_uid; kx_sig 19] o (SDsa 3) 7 5 (Ok [8; 2]) demo_message
    (Pkt NewH (BData (PLiteral 117 (str "a.txt") (TDate 1000) (LText (str "hi" ++ [233]))))) 1 None (MSigned [MSig NewH demo_signed true] (Some demo_message) true)) as (t & ps & encs & A & B & C & D).
  - reflexivity.
  - exact demo_hashes2.
  - exact demo_dsa_numbers.
  - apply (pair_dsa demo_dsa 23 11 4 3); try reflexivity; lia.
  - exact W.
  - apply st_pub_ok.
  - exact st_wf.
  - repeat constructor; cbn; lia.
  - repeat constructor; lia.
  - reflexivity.
  - split; cbn [p_body p_fmt].
    + split; [eexists; vm_compute; reflexivity|]. split; [cbn; repeat (apply Forall_cons; [unfold scalar; lia|]); apply Forall_nil|]. split; [reflexivity|]. split; [vm_compute; discriminate|]. split; [lia|]. split; [cbn; repeat (apply Forall_cons; [unfold scalar; lia|]); apply Forall_nil|discriminate].
    + intros d H. vm_compute in H; apply ok_inj in H; subst d; vm_compute; repeat split; discriminate.
  - exact demo_signed_eq.
  - intros g x E. assert (g = MSig NewH demo_signed true) by congruence. subst g. split; [reflexivity|exact demo_signed_ok].
  - intros g x s E S. assert (g = MSig NewH demo_signed true) by congruence. subst g. assert (s = SigObj 4 1 17 8 [169; 7] [8; 4] [Sub 16 false (SbIssuer (repeat 48 16)); Sub 2 false (SbTime 5)] []) by (vm_compute in S |- *; congruence). subst s. cbn [so_values].
    split; [repeat constructor; lia|]. split; [intros _; repeat constructor; lia|exact Logic.I].
  - exists t, encs. split; [exact W|]. split; [exact A|]. destruct (D (InStr t) false (or_introl eq_refl)) as (q & Q & _ & _ & r & R & _ & X & _). exists q. split; [exact Q|]. exists r. split; [exact R|exact X].
Qed.
