(** Theorems added after edits of the model that no theorem noticed (seeded/LOG.jsonl, survey 2): one-pass packets as they are written (C47), a message
    without session keys (C63), truth values (C50). *)
From Verif Require Import Base BaseProofs Spec SpecUtf8 Utils Framing SpecFraming Armor S2k SpecS2k SymCipher SpecCfb CfbProofs SessionKeys SessionKeysProofs KeyPackets KeyProofs DataPackets SigPackets Packets SpecPackets Message SpecMessage MsgEncProofs MsgProps P_Message.
From Verif Require Import SigAttrs SpecAttrs AttrsProofs SpecTight3.

Lemma first_id hs us : forall ids k, mapM (fun x => x) (flat_map issuer_of (hs ++ us)) = Ok ids -> get ids 0 = Ok k ->
  exists before c after, hs ++ us = before ++ Sub 16 c (SbIssuer k) :: after /\ Forall (fun x => sub_type x <> 16) before.
Proof.
  induction (hs ++ us) as [|x l IH]; intros ids k E G.
  - cbn in E. apply ok_inj in E as <-. discriminate G.
  - cbn [flat_map] in E. unfold issuer_of in E at 1. destruct (sub_type x =? 16) eqn:T.
    + cbn [app mapM] in E. apply bind_ok in E as (y & Y & E). apply bind_ok in E as (t & _ & E). apply ok_inj in E as <-.
      destruct x as [ty c b]. cbn [sub_type sub_body] in *. destruct b; try discriminate Y. apply ok_inj in Y as ->. change (get (y :: t) 0) with (Ok y) in G. apply ok_inj in G as <-.
      apply Z.eqb_eq in T. subst ty. exists [], c, l. split; [reflexivity|constructor].
    + cbn [app] in E. destruct (IH ids k E G) as (b & c & a & -> & F). exists (x :: b), c, a. split; [reflexivity|]. constructor; [lia|exact F].
Qed.
Lemma ops_written hf sigs : forall ops, onepass_packets hf sigs = Ok ops -> Forall2 (announces hf) ops sigs /\ flags ops = match sigs with [] => [] | _ :: t => repeat 1 (length t) ++ [0] end.
Proof.
  induction sigs as [|g sigs IH]; intros ops E; cbn [onepass_packets] in E; [apply ok_inj in E as <-; split; [constructor|reflexivity]|].
  apply bind_ok in E as (ids & Ei & E). apply bind_ok in E as (k & Ek & E). destruct (sig_fields (ms_sig g)) as [[st pk] ha] eqn:Sf. apply bind_ok in E as (ps & Ep & E). apply ok_inj in E as <-. destruct (IH ps Ep) as [A B].
  split.
  - constructor; [|exact A]. eexists. split; [reflexivity|]. cbn [op_version op_key_id]. split; [reflexivity|]. split; [unfold ops_matches; rewrite Sf; cbn; auto|].
    unfold issuer_key_ids in Ei. destruct (ms_sig g) as [|v a b c h2 vs hs us]; [discriminate Ei|]. destruct (first_id hs us ids k Ei Ek) as (b0 & c0 & a0 & X & F). exists hs, us, b0, c0, a0. split; [|auto]. repeat eexists.
  - unfold flags in *. cbn [flat_map p_body op_nested]. rewrite B. destruct sigs; reflexivity.
Qed.
Lemma flags_one ps : flags ps = map op_nested (one_passes ps).
Proof. unfold flags, one_passes. induction ps as [|p ps IH]; [reflexivity|]. cbn [flat_map]. rewrite map_app, <- IH. f_equal. destruct (p_body p); reflexivity. Qed.
(** C47. A signed message is written as one one-pass packet for every signature, in their order, with the signature's type, algorithms and first issuer; the
    message; and the signatures. The flag of all of them but the last is 1, of the last 0. *)
Theorem c47_one_pass_written_partial : forall hf sigs m ps, to_packets hf (MSigned sigs (Some m) true) = Ok ps ->
  exists ops body tail, ps = ops ++ body ++ tail /\ Forall2 (announces hf) ops sigs /\ to_packets hf m = Ok body /\
    Forall2 (fun p g => p = Pkt (hdr_or hf (ms_fmt g)) (BSig (ms_sig g))) tail sigs /\ flags ops = match sigs with [] => [] | _ :: t => repeat 1 (length t) ++ [0] end.
Proof.
  intros hf sigs m ps E. cbn [to_packets] in E. apply bind_ok in E as (ops & Eo & E). apply bind_ok in E as (body & Eb & E). apply bind_ok in E as (tail & Et & E). apply ok_inj in E as <-.
  destruct (ops_written hf sigs ops Eo) as [A B]. exists ops, body, tail. split; [reflexivity|]. split; [exact A|]. split; [exact Eb|]. split; [|exact B].
  clear -Et. revert tail Et. induction sigs as [|g sigs IH]; intros tail E; cbn [mapM] in E; [apply ok_inj in E as <-; constructor|]. apply bind_ok in E as (q & Q & E). apply bind_ok in E as (qs & Qs & E). apply ok_inj in E as <-.
  constructor; [|exact (IH qs Qs)]. unfold msig_packet in Q. destruct (ms_sig g); [discriminate Q|]. now apply ok_inj in Q as <-.
Qed.
Print Assumptions c47_one_pass_written_partial.
(** Refuted for every signed message: RFC 4880 5.4 wants the flag to be 0 exactly where another one-pass packet follows, which is the reverse. *)
Theorem c47_nested_flag_refuted : forall hf sigs m ps, sigs <> [] -> to_packets hf (MSigned sigs (Some m) true) = Ok ps ->
  exists ops body tail, ps = ops ++ body ++ tail /\ length ops = length sigs /\ to_packets hf m = Ok body /\ ~ rfc_nested (one_passes ops).
Proof.
  intros hf sigs m ps N E. destruct (c47_one_pass_written_partial hf sigs m ps E) as (ops & body & tail & -> & A & B & _ & F). exists ops, body, tail. split; [reflexivity|]. split; [clear -A; induction A; cbn; congruence|]. split; [exact B|].
  rewrite flags_one in F. destruct sigs as [|g t]; [now elim N|]. destruct (one_passes ops) as [|o os]; [cbn [map] in F; destruct t; discriminate F|]. cbn [map] in F. cbn [rfc_nested]. intros [[X Y] _].
  destruct t as [|g2 t]; cbn [length repeat app] in F; injection F as F0 F1.
  - rewrite F0 in X. apply X; [reflexivity|]. now destruct os.
  - assert (os <> []) by (destruct os; [destruct t; discriminate F1|discriminate]). specialize (Y H). lia.
Qed.
Print Assumptions c47_nested_flag_refuted.
(** a signature without an issuer subpacket cannot be announced, nor one of version 2 or 3 *)
Theorem c47_unannounced_refuted : forall hf f v st pk ha a b c d op sigs m, to_packets hf (MSigned (MSig f (SigV3 v st pk ha a b c d) op :: sigs) m true) = Err AttributeError.
Proof. reflexivity. Qed.
Print Assumptions c47_unannounced_refuted.
Theorem c47_no_issuer_refuted : forall hf f v st pk ha h2 vs hs us op sigs m, Forall (fun x => sub_type x <> 16) (hs ++ us) ->
  to_packets hf (MSigned (MSig f (SigV4 v st pk ha h2 vs hs us) op :: sigs) m true) = Err IndexError.
Proof.
  intros hf f v st pk ha h2 vs hs us op sigs m F. assert (X : flat_map issuer_of (hs ++ us) = []).
  { induction F as [|x l N F IH]; [reflexivity|]. cbn [flat_map]. rewrite IH. unfold issuer_of. now rewrite (proj2 (Z.eqb_neq _ _) N). }
  cbn [to_packets onepass_packets ms_sig issuer_key_ids]. rewrite X. reflexivity.
Qed.
Print Assumptions c47_no_issuer_refuted.
Example c47_one_pass_example : exists ps, to_packets None (MSigned [MSig NewH (ex_sig 0) true; MSig OldH (ex_sig 1) true] (Some ex_literal) true) = Ok ps /\ map pkt_type ps = [4; 4; 11; 2; 2] /\ map p_fmt ps = [NewH; OldH; NewH; NewH; OldH] /\ flags ps = [1; 0].
Proof. eexists. split; [vm_compute; reflexivity|]. split; [reflexivity|]. split; reflexivity. Qed.

(** C63. RFC 4880 5.7: encrypted data before which no session key packet stands is decrypted with IDEA (algorithm 1) under the MD5 (hash 1) of the passphrase. *)
Theorem c63_no_session_key_partial : forall H E sha1 od fl rec m d pass iv v h rest, good_block (E 1 (H 1 pass)) 8 -> zlen (H 1 pass) = 16 -> (forall d, zlen (sha1 d) = 20 /\ wf (sha1 d)) -> wf iv -> zlen iv = 8 -> survives fl rec m d -> wf d ->
  exists e, encdata_new E sha1 iv 1 (Some (H 1 pass)) d true (Some v) = Ok e /\ open_message (Pkt h (BData (PSeipd v (ed_data e))) :: rest) = Ok (MEncrypted [SKDefault] e) /\
    get_message E sha1 od H (MEncrypted [SKDefault] e) (ByPass pass) = Ok m /\
    (forall other, get_message E sha1 od H (MEncrypted [SKDefault] e) (ByPass other) = decrypt_data E sha1 od e 1 (Some (H 1 other))) /\
    (forall l dec, get_message E sha1 od H (MEncrypted [SKDefault] e) (ByKey l dec) = Err TypeError).
Proof.
  intros H E sha1 od fl rec m d pass iv v h rest HE Hk Hs Wi Li Sv Wd. destruct (survives_read fl rec m d Sv) as (D2 & D3).
  assert (Hk' : In (zlen (H 1 pass)) (cipher_key_sizes 1)) by (rewrite Hk; vm_compute; auto).
  destruct (protected_round E od sha1 1 (H 1 pass) 8 iv d (Some v) eq_refl ltac:(lia) Hk' HE Hs Wi Li Wd D2) as (e & A & Ig & Ve & _ & _ & F). exists e. split; [exact A|]. split; [|split; [|split]].
  - apply open_default. destruct e as [x i w]. cbn [ed_data ed_integrity ed_version] in *. subst. reflexivity.
  - cbn [get_message get_message_loop algorithm_and_key]. now rewrite F.
  - intros other. reflexivity.
  - intros l dec. reflexivity.
Qed.
Print Assumptions c63_no_session_key_partial.
Definition toy_md5 (a : Z) (d : bytes) : bytes := firstn 16 (map (fun x => (x + a) mod 256) d ++ repeat 9 16).
Definition mirror (a : Z) (k b : bytes) : bytes := rev b.
Example c63_default_example : good_block (mirror 1 (toy_md5 1 [112; 119])) 8 /\ zlen (toy_md5 1 [112; 119]) = 16 /\
  exists e, encdata_new mirror toy_sha1 (repeat 5 8) 1 (Some (toy_md5 1 [112; 119])) [203; 10; 98; 1; 97; 0; 0; 3; 232; 1; 2; 3] true (Some 1) = Ok e /\
    get_message mirror toy_sha1 toy_od toy_md5 (MEncrypted [SKDefault] e) (ByPass [112; 119]) = Ok ex_literal.
Proof.
  split; [|split; [reflexivity|]]; [|eexists; split; [vm_compute; reflexivity|]; vm_compute; reflexivity].
  intros b W L. unfold mirror. split; [apply Forall_rev; exact W|unfold zlen; rewrite rev_length; exact L].
Qed.

(** C50. A truth value may be assigned as any Python value: what is written is its truth. *)
Lemma truth_spec v : truthy v = false <-> python_false v.
Proof.
  unfold python_false. destruct v as [|z|b|t|l]; cbn [truthy].
  - split; [intros _; now left|reflexivity].
  - split; [intros X; right; left; f_equal; lia|]. intros [X|[X|[X|[X|[X|[]]]]]]; try discriminate X. injection X as <-. reflexivity.
  - split; [intros ->; right; right; now left|]. intros [X|[X|[X|[X|[X|[]]]]]]; try discriminate X. injection X as <-. reflexivity.
  - split; [intros X; right; right; right; left; f_equal; destruct t; [reflexivity|rewrite zlen_cons in X; pose proof (zlen_nonneg t); lia]|]. intros [X|[X|[X|[X|[X|[]]]]]]; try discriminate X. injection X as <-. reflexivity.
  - split; [intros X; right; right; right; right; left; f_equal; destruct l; [reflexivity|rewrite zlen_cons in X; pose proof (zlen_nonneg l); lia]|]. intros [X|[X|[X|[X|[X|[]]]]]]; try discriminate X. injection X as <-. reflexivity.
Qed.
Theorem c50_truth_partial : forall s h u p content v, from_packet s h u -> truth_attribute p content ->
  exists s', set_prop s p v = Ok s' /\ get_prop s' p = Ok v /\ get_subs s' (fst (getter p)) <> [] /\
    forall o, In o (get_subs s' (fst (getter p))) -> exists c b, sub_of o = Ok (Sub (fst (getter p)) c (content b)) /\ (b = false <-> python_false v).
Proof.
  intros s h u p content v (Fh & Fu & ->) T.
  assert (I : In p (single ++ own_flags)) by (destruct T as [[-> _]|[[-> _]|[[-> _]|[-> _]]]]; cbn; auto 20).
  assert (X : exists s', set_prop (sig_obj_of h u) p v = Ok s').
  { unfold set_prop, update_values. destruct (get_subs _ _); [|eexists; reflexivity]. destruct T as [[-> _]|[[-> _]|[[-> _]|[-> _]]]]; eexists; reflexivity. }
  destruct X as (s' & E). exists s'. split; [exact E|]. unfold set_prop in E. rewrite (set_setter p I) in E. split; [exact (update_get _ _ _ _ _ E)|].
  assert (C : forall ty c d r, ty = fst (getter p) -> r = None -> look (snd (getter p)) d = Some v -> exists b, sub_of (SObj ty c d r) = Ok (Sub ty c (content b)) /\ (b = false <-> python_false v)).
  { intros ty c d r -> -> L. exists (truthy v). split; [|apply truth_spec]. destruct T as [[-> ->]|[[-> ->]|[[-> ->]|[-> ->]]]]; cbn [getter fst snd] in *; unfold sub_of, need; cbn [so_type so_rest so_dict so_critical Z.eqb Pos.eqb orb]; rewrite L; reflexivity. }
  destruct (update_cases _ _ _ _ _ E) as [[N ->]|(G & o & No & ->)].
  - rewrite subs_updated, Z.eqb_refl. split; [destruct (get_subs (sig_obj_of h u) (fst (getter p))); [contradiction|discriminate]|].
    intros o Io. apply in_map_iff in Io as (o0 & <- & Io). unfold get_subs in Io. apply filter_In in Io as [Io Ty]. unfold sig_obj_of in Io. cbn [so_hashed so_unhashed] in Io. rewrite <- map_app in Io. apply in_map_iff in Io as (x & <- & Ix).
    assert (Wx : well_classed x) by (apply in_app_or in Ix as [Ix|Ix]; [exact (proj1 (Forall_forall _ _) Fh x Ix)|exact (proj1 (Forall_forall _ _) Fu x Ix)]).
    rewrite obj_type in Ty. unfold set_attr. rewrite obj_type. exists (so_critical (obj_of x)).
    assert (R : so_rest (obj_of x) = None /\ sub_type x = fst (getter p)).
    { split; [|lia]. destruct x as [ty c b]. cbn [sub_type] in Ty. unfold well_classed in Wx. cbn [sub_type sub_body] in Wx. apply Z.eqb_eq in Ty. subst ty.
      destruct T as [[-> _]|[[-> _]|[[-> _]|[-> _]]]]; cbn [getter fst] in *; destruct b; try reflexivity; cbn in Wx; exfalso; try lia; try (apply Wx; auto 30); intuition lia. }
    destruct R as [R Rt]. destruct (C (sub_type x) (so_critical (obj_of x)) (set_key (snd (getter p)) v (so_dict (obj_of x))) (so_rest (obj_of x)) Rt R) as (b & B1 & B2).
    { rewrite look_set. destruct (attr_eq_dec _ _); [reflexivity|congruence]. }
    exists b. rewrite B1, Rt. auto.
  - rewrite (subs_added_only _ o _ (new_type _ _ _ _ No) G). split; [discriminate|]. intros o' [<-|[]]. exists false. destruct T as [[-> ->]|[[-> ->]|[[-> ->]|[-> ->]]]]; cbn [getter fst snd] in *; unfold new_sub in No; cbn in No; apply ok_inj in No as <-; (apply C; reflexivity).
Qed.
Print Assumptions c50_truth_partial.
Example c50_truth_example : from_packet (sig_obj_of [Sub 4 false (SbBool true)] []) [Sub 4 false (SbBool true)] [] /\
  (do s <- set_prop (sig_obj_of [Sub 4 false (SbBool true)] []) P_exportable (VText [110]);; written s) = Ok ([Sub 4 false (SbBool true)], []) /\
  (do s <- set_prop (sig_obj_of [Sub 4 false (SbBool true)] []) P_exportable (VText []);; written s) = Ok ([Sub 4 false (SbBool false)], []).
Proof. split; [|split; reflexivity]. split; [constructor; [cbn; auto|constructor]|]. split; [constructor|reflexivity]. Qed.
