(** C80: the octets a packet contributes to a signature's hash (get_content_for_signature_hash). *)
From Verif Require Import Base BaseProofs Spec Utils UtilsProofs Framing Text Utf8 SpecUtf8 Armor S2k SessionKeys KeyPackets SigPackets DataPackets UserAttr Packets Signable SpecSigned KeyProofs SignedProofs PktHash.

(** C80. The octets of a primary key packet followed by those of a user id, user attribute or subkey packet are the ones RFC
    4880 5.2.4 gives for a signature of that version over them. Missing: signature packets (see below) and secret key packets. *)
Theorem c80_user_id_octets_partial : forall fl rec h h' sub k u v c,
  body_content fl rec (BPub sub k) = Ok c ->
  (do a <- pkt_hash_content fl rec (Pkt h (BPub sub k)) v;; do b <- pkt_hash_content fl rec (Pkt h' (BData (PUserId u))) v;; Ok (a ++ b)) =
  Ok (rfc_covered (if v <? 4 then 3 else v) (Uid c (utf8_encode_replace u))).
Proof.
  intros fl rec h h' sub k u v c Hc. unfold pkt_hash_content. cbn [p_body]. rewrite Hc. cbn [bind]. unfold userid_hash_content, rfc_covered. rewrite hash_key_rfc. destruct (v <? 4) eqn:Ev.
  - replace (4 <=? v) with false by lia. reflexivity.
  - replace (4 <=? v) with true by lia. replace (v =? 3) with false by lia. rewrite int_to_4byte_be. reflexivity.
Qed.
Print Assumptions c80_user_id_octets_partial.
Theorem c80_user_attribute_octets_partial : forall fl rec h h' sub k l v c d,
  body_content fl rec (BPub sub k) = Ok c -> attrs_content l = Ok d ->
  (do a <- pkt_hash_content fl rec (Pkt h (BPub sub k)) v;; do b <- pkt_hash_content fl rec (Pkt h' (BAttr l)) v;; Ok (a ++ b)) =
  Ok (rfc_covered (if v <? 4 then 3 else v) (Uattr c d)).
Proof.
  intros fl rec h h' sub k l v c d Hc Hd. unfold pkt_hash_content. cbn [p_body]. rewrite Hc, Hd. cbn [bind]. unfold rfc_covered. rewrite hash_key_rfc. destruct (v <? 4) eqn:Ev.
  - replace (4 <=? v) with false by lia. reflexivity.
  - replace (4 <=? v) with true by lia. replace (v =? 3) with false by lia. rewrite int_to_4byte_be, <- !app_assoc. reflexivity.
Qed.
Print Assumptions c80_user_attribute_octets_partial.
Theorem c80_subkey_octets_partial : forall fl rec h h' s s' k k' v c d,
  body_content fl rec (BPub s k) = Ok c -> body_content fl rec (BPub s' k') = Ok d ->
  (do a <- pkt_hash_content fl rec (Pkt h (BPub s k)) v;; do b <- pkt_hash_content fl rec (Pkt h' (BPub s' k')) v;; Ok (a ++ b)) = Ok (rfc_covered v (Subkey c d)).
Proof. intros fl rec h h' s s' k k' v c d Hc Hd. unfold pkt_hash_content. cbn [p_body]. rewrite Hc, Hd. reflexivity. Qed.
Print Assumptions c80_subkey_octets_partial.
(** so two user ids with the same octets have the same text, when it can be encoded *)
Theorem c80_user_id_determined : forall fl rec h h' u u' v, pkt_hash_content fl rec (Pkt h (BData (PUserId u))) v = pkt_hash_content fl rec (Pkt h' (BData (PUserId u'))) v ->
  utf8_encode_replace u = utf8_encode_replace u'.
Proof.
  intros fl rec h h' u u' v E. unfold pkt_hash_content in E. cbn [p_body] in E. unfold userid_hash_content in E. destruct (4 <=? v).
  - apply ok_inj in E. rewrite (int_to_4byte_be (zlen (utf8_encode_replace u))), (int_to_4byte_be (zlen (utf8_encode_replace u'))) in E. apply app_inj_len in E as [_ E]; [|reflexivity]. apply app_inj_len in E as [_ E]; [exact E|]. rewrite !be_bytes_len. reflexivity.
  - exact (ok_inj _ _ E).
Qed.
Print Assumptions c80_user_id_determined.
(** Refuted: a secret key packet contributes its secret part (encrypted or not), so a signature made over it is not one over
    the public key *)
Theorem c80_secret_key_octets_refuted : forall fl rec h h' sub sub' k v c d, body_content fl rec (BPub sub (s_pub k)) = Ok c -> body_content fl rec (BSec sub' k) = Ok d ->
  exists extra, d = c ++ extra /\ extra <> [] /\ pkt_hash_content fl rec (Pkt h (BSec sub' k)) v = Ok (rfc_hash_key d) /\ pkt_hash_content fl rec (Pkt h (BSec sub' k)) v <> pkt_hash_content fl rec (Pkt h' (BPub sub (s_pub k))) v.
Proof.
  intros fl rec h h' sub sub' k v c d Hc Hd. pose proof Hd as Hd0. cbn [body_content] in Hc, Hd0. unfold sec_content in Hd0. rewrite Hc in Hd0. cbn [bind] in Hd0.
  apply bind_ok in Hd0 as (u & Hu & Hd0). apply bind_ok in Hd0 as (a & Ha & Hd0). apply bind_ok in Hd0 as (e & He & Hd0). apply mk_bytes_inv in Ha as [-> _].
  assert (X : exists extra, extra <> [] /\ d = c ++ extra).
  { injection Hd0 as <-. eexists. split; [|reflexivity]. destruct u; discriminate. }
  destruct X as (extra & Hn & ->). exists extra. split; [reflexivity|]. split; [exact Hn|]. unfold pkt_hash_content. cbn [p_body body_content]. cbn [body_content] in Hd. rewrite Hd, Hc. cbn [bind]. split; [reflexivity|].
  intros E. apply ok_inj in E. rewrite !hash_key_rfc in E. apply rfc_hash_key_inj in E. apply Hn. apply (app_inv_head c). now rewrite app_nil_r.
Qed.
Print Assumptions c80_secret_key_octets_refuted.
(** Refuted: no signature packet of version 4 or later has such octets at all; an older one contributes its type and time, not
    its body, with a two-octet length *)
Theorem c80_signature_octets_refuted : forall fl rec h v st pk ha h2 vs hs us w, wf [v; st; pk; ha] -> pkt_hash_content fl rec (Pkt h (BSig (SigV4 v st pk ha h2 vs hs us))) w = Err AttributeError.
Proof. intros. unfold pkt_hash_content. cbn [p_body sig_hash_content]. now rewrite mk_bytes_wf. Qed.
Print Assumptions c80_signature_octets_refuted.
Theorem c80_v3_signature_octets_refuted : forall fl rec h v st pk ha h2 vs ct kid w, byte st ->
  pkt_hash_content fl rec (Pkt h (BSig (SigV3 v st pk ha h2 vs ct kid))) w = Ok ([0x88; 0; 5; st] ++ be_bytes 4 ct).
Proof.
  intros fl rec h v st pk ha h2 vs ct kid w Hs. unfold pkt_hash_content. cbn [p_body sig_hash_content]. rewrite mk_bytes_wf by (repeat constructor; apply Hs). cbn [bind]. cbv zeta.
  rewrite zlen_app, int_to_4byte_be, be_bytes_len. reflexivity.
Qed.
Print Assumptions c80_v3_signature_octets_refuted.
Example c80_ex : pkt_hash_content Z.log2 (fun _ => Ok []) (Pkt NewH (BData (PUserId [97; 98]))) 4 = Ok [0xB4; 0; 0; 0; 2; 97; 98] /\
  exists c, body_content Z.log2 (fun _ => Ok []) (BPub false (PubKey 4 9 1 None (Some 259) (Some 3) None None None None)) = Ok c.
Proof. split; [vm_compute; reflexivity|]. eexists. vm_compute. reflexivity. Qed.
