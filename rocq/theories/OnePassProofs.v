(** Lemmas on sequences with one-pass packets, for P_SignMessage.v *)
From Verif Require Import Base BaseProofs Spec Utils Text Framing SpecFraming FramingProofs FramingProps SessionKeys SessionKeysProofs SigPackets DataPackets UserAttr KeyPackets SpecKey KeyProofs S2k Packets SpecPackets PacketsProofs Message SpecMessage SpecOnePass.

Lemma hex_first a b : zlen a = 4 -> firstn 8 (hex_text (a ++ b)) = hex_text a.
Proof.
  intros L. destruct a as [|a0 [|a1 [|a2 [|a3 [|? ?]]]]]; try (cbn in L; lia). reflexivity.
Qed.
Lemma wire_back fl rec p : exact_log fl -> wire_ok fl rec p -> exists c, body_content fl rec (p_body p) = Ok c /\ c <> [] /\ representable (Raw (p_fmt p) (pkt_type p) c) /\
  pkt_dec (Raw (p_fmt p) (pkt_type p) c) = Ok (reread p).
Proof.
  intros Hfl H. destruct p as [h b]. unfold wire_ok in H. cbn [p_body] in H. destruct b as [q|s|q|q|sub k|sub k|l|d].
  4:{ destruct q as [v st ha pk kid n]. destruct H as (Hv & Hs & Hh & Hp & Hn & k & Ek & Wk & Lk). cbn [op_version op_sigtype op_hash op_pk op_nested op_key_id] in *. subst kid.
      cbn [body_content p_body p_fmt pkt_type body_type]. rewrite onepass_content_exact; [|repeat constructor; first [apply Hv|apply Hs|apply Hh|apply Hp|apply Hn]|exact Wk|lia]. rewrite Lk. change (repeat 0 (Z.to_nat (8 - 8))) with (@nil Z). cbn [app].
      assert (S : exists k1 k2, k = k1 ++ k2 /\ zlen k1 = 4 /\ zlen k2 = 4). { exists (firstn 4 k), (skipn 4 k). split; [symmetry; apply firstn_skipn|]. unfold zlen in *. rewrite firstn_length, skipn_length. lia. }
      destruct S as (k1 & k2 & -> & L1 & L2). eexists. split; [reflexivity|]. split; [discriminate|]. split.
      - unfold representable. cbn [hfmt ptype pcontent pkt_type p_body body_type]. rewrite ?zlen_cons, !zlen_app, L1, L2. change (zlen [n]) with 1. unfold pkt_type. cbn [p_body body_type]. destruct h; lia.
      - unfold pkt_dec, body_dec. cbn [hfmt ptype pcontent pkt_type p_body body_type Z.eqb Pos.eqb]. unfold pkt_type. cbn [p_body body_type Z.eqb Pos.eqb]. rewrite <- app_assoc.
        change (v :: st :: ha :: pk :: k1 ++ k2 ++ [n]) with ([v; st; ha; pk] ++ k1 ++ k2 ++ n :: []). apply wf_app in Wk as [W1 W2]. rewrite onepass_exact by assumption. cbn [bind]. cbn [reread]. rewrite hex_first by exact L1. reflexivity. }
  all: destruct (pkt_ok_back fl rec _ Hfl H) as (c & A & B & C & D); exists c; repeat (split; [assumption|]); exact D.
Qed.
Lemma wire_round fl rec ps : exact_log fl -> Forall (wire_ok fl rec) ps ->
  exists encs, mapM (pkt_bytes fl rec) ps = Ok encs /\ parse_binary_packet_data pkt_dec (concat encs) = (map reread ps, None) /\ parse_binary_packet_stream pkt_dec (concat encs) = (map reread ps, None).
Proof.
  intros Hfl H.
  assert (X : exists raws, (forall p, In p raws -> representable p /\ pcontent p <> []) /\ mapM pkt_dec raws = Ok (map reread ps) /\ mapM (pkt_bytes fl rec) ps = mapM packet_bytes raws).
  { induction H as [|p ps Hp _ (raws & I1 & I2 & I3)]; [exists []; repeat split; easy|]. destruct (wire_back fl rec p Hfl Hp) as (c & A & B & C & D).
    exists (Raw (p_fmt p) (pkt_type p) c :: raws). split; [intros q [<- | Hq]; auto|]. split.
    - cbn [mapM map]. rewrite D. cbn [bind]. rewrite I2. reflexivity.
    - cbn [mapM]. rewrite <- I3. unfold pkt_bytes at 1. rewrite A. reflexivity. }
  destruct X as (raws & I1 & I2 & I3). destruct (c10_concat pkt_dec raws _ I1 I2) as (encs & E1 & E2). destruct (c10_stream pkt_dec raws _ I1 I2) as (encs' & E1' & E2'). rewrite E1 in E1'. apply ok_inj in E1' as <-.
  exists encs. rewrite I3. auto.
Qed.
(** a signed message is opened alike: the contents of one-pass packets are not looked at *)
Lemma reread_fmt p : p_fmt (reread p) = p_fmt (as_read p) /\ (is_ops p = false -> reread p = as_read p) /\ (is_ops p = true -> exists x y, p_body (reread p) = BOnePass x /\ p_body (as_read p) = BOnePass y).
Proof. destruct p as [h b]. destruct b as [q|s|q|q|sub k|sub k|l|d]; try (split; [reflexivity|split; [reflexivity|discriminate]]). destruct q as [v st ha pk kid n]. split; [reflexivity|]. split; [discriminate|]. intros _. eexists _, _. split; reflexivity. Qed.
Lemma loop_reread ps : forall op sigs m, signed_loop (map reread ps) op sigs m = signed_loop (map as_read ps) op sigs m.
Proof.
  induction ps as [|p ps IH]; intros op sigs m; [reflexivity|]. cbn [map signed_loop]. destruct (is_ops p) eqn:O.
  - destruct (proj2 (proj2 (reread_fmt p)) O) as (x & y & -> & ->). apply IH.
  - rewrite (proj1 (proj2 (reread_fmt p)) O). destruct (p_body (as_read p)) as [q|s|q|q|sub k|sub k|l|d]; try (destruct m; [reflexivity|]; destruct (open_plain (as_read p) []); cbn [bind]; [apply IH|reflexivity]); [destruct m; [|reflexivity]; destruct (msig_of _ _ _); cbn [bind]; [apply IH|reflexivity]|apply IH].
Qed.
Lemma open_reread ps : (forall p, In p (tl ps) -> is_ops p = false) \/ match ps with p :: _ => is_ops p = true | [] => True end -> open_message (map reread ps) = open_message (map as_read ps).
Proof.
  intros C. destruct ps as [|p ps]; [reflexivity|]. cbn [map open_message]. destruct (is_ops p) eqn:O.
  - destruct (proj2 (proj2 (reread_fmt p)) O) as (x & y & -> & ->). exact (loop_reread (p :: ps) false [] None).
  - destruct C as [C|C]; [|congruence]. cbn [tl] in C. rewrite (proj1 (proj2 (reread_fmt p)) O). assert (E : map reread ps = map as_read ps) by (apply map_ext_in; intros q I; exact (proj1 (proj2 (reread_fmt q)) (C q I))). rewrite E. reflexivity.
Qed.
