(** C50, continued: attributes of signatures that are lists of objects, regular expressions, and the key expiration time. *)
From Coq Require Import String.
From Verif Require Import Base BaseProofs Spec Utils UtilsProofs CodecProofs FramingProofs KeyProofs Text Utf8 DumpSig SigPackets SigProofs SigAttrs SpecAttrs AttrsProofs SigLists SpecLists ListsProofs.
Open Scope Z_scope.

Lemma note_back k : note_of (obj_of (note_sub k)) = Ok k.
Proof. destruct k. reflexivity. Qed.
Lemma obj_note fl k : obj_bytes fl (obj_of (note_sub k)) = note_octets fl k.
Proof. reflexivity. Qed.
Lemma note_forth s h u o k : from_packet s h u -> In o (get_subs s 20) -> note_of o = Ok k -> o = obj_of (note_sub k).
Proof.
  intros (Fh & Fu & ->) I H. unfold get_subs, sig_obj_of in I. cbn [so_hashed so_unhashed] in I. rewrite <- map_app in I. apply filter_In in I as [I T]. apply in_map_iff in I as (x & <- & X). rewrite obj_type in T.
  unfold note_of in H. destruct x as [ty c b]. cbn [sub_type] in T. assert (ty = 20) by lia. subst ty.
  destruct b; cbn [obj_of so_critical so_rest] in H; destruct c; try discriminate H. injection H as <-. reflexivity.
Qed.
(** Assigning the empty list removes every notation and nothing else. *)
Theorem c50_notations_clear : forall fl s h u existing order, from_packet s h u -> get_notations s = Ok existing -> Forall (writable (note_octets fl)) existing -> set_union (note_octets fl) [] existing order ->
  exists s', set_notations fl s [] order = Ok s' /\ get_notations s' = Ok [] /\ others_same 20 s s'.
Proof.
  intros fl s h u existing order P G W U. unfold set_notations. rewrite G. cbn [bind].
  destruct (clear_all notation (note_octets fl) note_sub fl 20 (fun k => eq_refl) note_of s existing order) as (s' & E & N & O); [intros x y _ _ Q _; exact Q|exact G|exact W| |exact U| |].
  - intros k K. rewrite Forall_forall in W. exact (W k K).
  - intros o k I K. now rewrite (note_forth s h u o k P I K).
  - exists s'. split; [exact E|]. split; [|exact O]. unfold get_notations. now rewrite N.
Qed.
Print Assumptions c50_notations_clear.
(** Assigning a list adds its notations (those with the same octets as one that is there count as there). *)
Theorem c50_notations_assign : forall fl s existing new order, get_notations s = Ok existing -> Forall (writable (note_octets fl)) (new ++ existing) -> new <> [] -> set_union (note_octets fl) new existing order ->
  exists s' l, set_notations fl s new order = Ok s' /\ get_notations s' = Ok l /\ incl l (new ++ existing) /\ incl existing l /\ (forall n, In n new -> listed (note_octets fl) n l) /\ (existing = [] -> l = order) /\ others_same 20 s s'.
Proof.
  intros fl s existing new order G W N U. unfold set_notations, get_notations in *. rewrite G. cbn [bind].
  destruct (assign_all notation (note_octets fl) note_sub fl 20 (fun k => eq_refl) note_of s new existing order (fun k _ => note_back k) G W (or_introl N) U) as (s' & l & H). exists s', l. exact H.
Qed.
Print Assumptions c50_notations_assign.
(** Refuted: an assignment does not replace: a notation that was there is there afterwards whatever list is assigned (unless that is empty). *)
Theorem c50_notations_replace_refuted : forall fl s existing new order n, get_notations s = Ok existing -> Forall (writable (note_octets fl)) (new ++ existing) -> new <> [] -> set_union (note_octets fl) new existing order ->
  In n existing -> exists s' l, set_notations fl s new order = Ok s' /\ get_notations s' = Ok l /\ In n l.
Proof.
  intros fl s existing new order n G W N U I. destruct (c50_notations_assign fl s existing new order G W N U) as (s' & l & A & B & _ & C & _). exists s', l. split; [exact A|]. split; [exact B|now apply C].
Qed.
Print Assumptions c50_notations_replace_refuted.
(** Refuted: with one critical notation in the signature, the notations can neither be read nor assigned. *)
Theorem c50_critical_notation_refuted : forall fl s h u x new order, from_packet s h u -> In x (h ++ u) -> sub_type x = 20 -> sub_critical x = true ->
  get_notations s = Err CannotParseCriticalNotation /\ set_notations fl s new order = Err CannotParseCriticalNotation.
Proof.
  intros fl s h u x new order (Fh & Fu & ->) I T C. assert (G : get_notations (sig_obj_of h u) = Err CannotParseCriticalNotation); [|split; [exact G|unfold set_notations; now rewrite G]].
  unfold get_notations, get_subs, sig_obj_of. cbn [so_hashed so_unhashed]. rewrite <- map_app. assert (W : Forall well_classed (h ++ u)) by (apply Forall_app; auto). revert I W. generalize (h ++ u). clear Fh Fu. induction l as [|y l IH]; intros I W; [destruct I|].
  cbn [map filter]. rewrite obj_type. destruct (sub_type y =? 20) eqn:E.
  - cbn [mapM]. pose proof (Forall_inv W) as Wy. destruct y as [ty c b]. cbn [sub_type] in E. assert (ty = 20) by lia. subst ty. unfold well_classed in Wy. cbn [sub_body sub_type] in Wy. destruct b; cbn [In] in Wy; try lia; try tauto. cbn [obj_of note_of so_critical so_rest]. destruct c; [reflexivity|]. cbn [bind].
    destruct I as [<-|I]; [discriminate C|]. rewrite (IH I (Forall_inv_tail W)). reflexivity.
  - destruct I as [->|I]; [lia|]. exact (IH I (Forall_inv_tail W)).
Qed.
Print Assumptions c50_critical_notation_refuted.
(** Reading: the lists hold what the packet holds, in its order, the hashed area first. *)
Lemma read_subs {A} (of : sobj -> res A) (ty : Z) (pick : subpkt -> list A) : (forall x, well_classed x -> sub_type x = ty -> exists k, pick x = [k] /\ of (obj_of x) = Ok k \/ of (obj_of x) = Err CannotParseCriticalNotation) ->
  (forall x, sub_type x <> ty -> pick x = []) -> forall l r, Forall well_classed l -> mapM of (filter (fun o => so_type o =? ty) (map obj_of l)) = Ok r -> r = flat_map pick l.
Proof.
  intros H1 H2. induction l as [|x l IH]; intros r W M; [injection M as <-; reflexivity|]. cbn [map filter flat_map] in *. rewrite obj_type in M. destruct (sub_type x =? ty) eqn:E.
  - cbn [mapM] in M. destruct (H1 x (Forall_inv W) ltac:(lia)) as (k & [[P Q]|Q]); rewrite Q in M; cbn [bind] in M; [|discriminate M]. destruct (mapM of _) as [r'|] eqn:R; [|discriminate M]. cbn [bind] in M. injection M as <-. rewrite P. cbn [app]. f_equal. exact (IH r' (Forall_inv_tail W) eq_refl).
  - rewrite (H2 x) by lia. cbn [app]. exact (IH r (Forall_inv_tail W) M).
Qed.
Theorem c50_revocation_keys_read : forall s h u, from_packet s h u ->
  get_revocation_keys s = Ok (flat_map (fun x => match x with Sub 12 _ (SbRevKey f a b) => [RevKey f a b] | _ => [] end) (h ++ u)).
Proof.
  intros s h u (Fh & Fu & ->). unfold get_revocation_keys, get_subs, sig_obj_of. cbn [so_hashed so_unhashed]. rewrite <- map_app. assert (W : Forall well_classed (h ++ u)) by (apply Forall_app; auto). revert W. generalize (h ++ u). clear.
  induction l as [|x l IH]; intros W; [reflexivity|]. cbn [map filter flat_map]. rewrite obj_type. pose proof (Forall_inv W) as Wx. specialize (IH (Forall_inv_tail W)). destruct x as [ty c b]. cbn [sub_type]. unfold well_classed in Wx. cbn [sub_body sub_type] in Wx. destruct (ty =? 12) eqn:E.
  - assert (ty = 12) by lia. subst ty. destruct b; cbn [In] in Wx; try lia; try tauto. cbn [mapM obj_of rev_of so_rest bind]. rewrite IH. reflexivity.
  - rewrite IH. assert (N : match Sub ty c b with Sub 12 _ (SbRevKey f a b0) => [RevKey f a b0] | _ => [] end = []).
    { destruct b; try (destruct ty as [|q|q]; try reflexivity; repeat (destruct q as [q|q|]; try reflexivity); fail). cbn [In] in Wx. lia. }
    rewrite N. reflexivity.
Qed.
Print Assumptions c50_revocation_keys_read.
Theorem c50_notations_read : forall s h u l, from_packet s h u -> get_notations s = Ok l ->
  l = flat_map (fun x => match x with Sub 20 _ (SbNotation n ns b v) => [Note n ns b v] | _ => [] end) (h ++ u).
Proof.
  intros s h u l (Fh & Fu & ->). unfold get_notations, get_subs, sig_obj_of. cbn [so_hashed so_unhashed]. rewrite <- map_app. apply read_subs; [| |apply Forall_app; auto].
  - intros [ty c b] W T. cbn [sub_type] in T. subst ty. unfold well_classed in W. cbn [sub_body sub_type] in W. destruct b; cbn [In] in W; try lia; try tauto. eexists. destruct c; [right; reflexivity|left; split; reflexivity].
  - intros [ty c b] T. cbn [sub_type] in T. destruct ty as [|q|q]; try reflexivity; repeat (destruct q as [q|q|]; try reflexivity). congruence.
Unshelve. all: exact (Note [] None false []).
Qed.
Print Assumptions c50_notations_read.
Theorem c50_embedded_read : forall s h u l, from_packet s h u -> get_embedded s = Ok l ->
  l = flat_map (fun x => match x with Sub 32 _ (SbEmbedded g) => [Emb true g] | _ => [] end) (h ++ u).
Proof.
  intros s h u l (Fh & Fu & ->). unfold get_embedded, get_subs, sig_obj_of. cbn [so_hashed so_unhashed]. rewrite <- map_app. apply read_subs; [| |apply Forall_app; auto].
  - intros [ty c b] W T. cbn [sub_type] in T. subst ty. unfold well_classed in W. cbn [sub_body sub_type] in W. destruct b; cbn [In] in W; try lia; try tauto. eexists. left. split; reflexivity.
  - intros [ty c b] T. cbn [sub_type] in T. destruct ty as [|q|q]; try reflexivity; repeat (destruct q as [q|q|]; try reflexivity). congruence.
Qed.
Print Assumptions c50_embedded_read.
Example c50_read_ex : get_revocation_keys (sig_obj_of [Sub 12 true (SbRevKey (str "ab") 1 true); Sub 4 false (SbBool true)] [Sub 12 false (SbRevKey (str "cd") 17 false)]) = Ok [RevKey (str "ab") 1 true; RevKey (str "cd") 17 false] /\
  from_packet (sig_obj_of [Sub 12 true (SbRevKey (str "ab") 1 true); Sub 4 false (SbBool true)] [Sub 12 false (SbRevKey (str "cd") 17 false)]) [Sub 12 true (SbRevKey (str "ab") 1 true); Sub 4 false (SbBool true)] [Sub 12 false (SbRevKey (str "cd") 17 false)].
Proof. split; [reflexivity|]. split; [repeat (apply Forall_cons; [cbn; tauto|]); apply Forall_nil|]. split; [repeat (apply Forall_cons; [cbn; tauto|]); apply Forall_nil|reflexivity]. Qed.
(** Refuted: revocation keys can never be assigned: whatever is in the list, hashing its elements fails. *)
Theorem c50_revocation_keys_refuted : forall fl s new order, new <> [] -> exists e, set_revocation_keys fl s new order = Err e /\ (Forall (fun r => zlen (r_fpr r) = 40) new -> get_revocation_keys s = Ok [] -> e = TypeError).
Proof.
  intros fl s new order N. unfold set_revocation_keys. destruct (get_revocation_keys s) as [existing|e] eqn:G; [|exists e; split; [reflexivity|intros _ X; discriminate X]]. cbn [bind]. unfold assign_set. destruct new as [|r new]; [easy|]. cbn [app mapM].
  assert (R : rev_octets fl r = Err (if zlen (r_fpr r) =? 40 then TypeError else AssertionError)) by (unfold rev_octets; destruct (zlen (r_fpr r) =? 40); reflexivity). rewrite R. cbn [bind]. eexists. split; [reflexivity|]. intros F _. pose proof (Forall_inv F) as Q. cbn beta in Q. now replace (zlen (r_fpr r) =? 40) with true by lia.
Qed.
Print Assumptions c50_revocation_keys_refuted.
Theorem c50_no_revocation_keys : forall fl s order, get_revocation_keys s = Ok [] -> set_union (rev_octets fl) [] [] order -> set_revocation_keys fl s [] order = Ok s.
Proof. intros fl s order G (U & _). unfold set_revocation_keys. rewrite G. cbn [bind]. unfold assign_set. cbn. destruct order as [|x t]; [reflexivity|]. destruct (U x (or_introl eq_refl)). Qed.
Print Assumptions c50_no_revocation_keys.

Lemma critical_differs fl a b d : sub_bytes fl (Sub 32 true (SbEmbedded a)) = Ok d -> sub_bytes fl (Sub 32 false (SbEmbedded b)) = Ok d -> False.
Proof.
  assert (H : forall f c d, sub_frame 32 f c = Ok d -> exists l, new_packet_length_to_bytes (zlen c + 1) false = Ok (l, 0) /\ d = l ++ (if f then 160 else 32) :: c /\ zlen l = (if zlen c + 1 <? 192 then 1 else if zlen c + 1 <? 8384 then 2 else 5)).
  { intros f c0 d0. unfold sub_frame. pose proof (zlen_nonneg c0). destruct (Z_le_gt_dec (zlen c0 + 1) 4294967295) as [L|L].
    - destruct (new_length_conforms (zlen c0 + 1) false) as (l & E & _); [unfold MAX_PACKET_LENGTH; lia|]. rewrite E. cbn [bind]. replace (mk_bytes [32 + (if f then 128 else 0)]) with (Ok [if f then 160 else 32]) by (destruct f; reflexivity). cbn [bind app]. intros Q. exists l. split; [reflexivity|]. split; [apply ok_inj in Q; symmetry; exact Q|]. clear Q.
      unfold new_packet_length_to_bytes in E. destruct (zlen c0 + 1 <? 192) eqn:X1; [rewrite mk_bytes_wf in E by (repeat constructor; lia); cbn [bind] in E; injection E as <-; reflexivity|].
      destruct (zlen c0 + 1 <? 8384) eqn:X2.
      + destruct (mk_bytes [Z.shiftr (zlen c0 + 1 - 192) 8 + 192; Z.land (zlen c0 + 1 - 192) 255]) as [r|] eqn:M; [|discriminate E]. cbn [bind] in E. assert (r = l) by congruence. subst r. apply mk_bytes_inv in M as [M _]. rewrite M. reflexivity.
      + destruct (zlen c0 + 1 <=? MAX_PACKET_LENGTH); [|discriminate E]. assert (Q : forall a b : bytes, Ok (a, 0) = Ok (b, 0) -> a = b) by (intros a0 b0 Z; now inversion Z). apply Q in E. rewrite <- E. reflexivity.
    - rewrite c06_rejects by lia. discriminate. }
  unfold sub_bytes. cbn [sub_content]. destruct (sig_content fl a) as [c|]; [|discriminate]. destruct (sig_content fl b) as [c'|]; [|discriminate]. cbn [bind]. intros A B. apply H in A as (l & L1 & D1 & Z1). apply H in B as (l' & L2 & D2 & Z2).
  assert (N : zlen c = zlen c'). { assert (Q : zlen d = zlen d) by reflexivity. rewrite D1 in Q at 1. rewrite D2 in Q. rewrite !zlen_app, !zlen_cons, Z1, Z2 in Q. clear - Q. destruct (zlen c + 1 <? 192) eqn:?, (zlen c + 1 <? 8384) eqn:?, (zlen c' + 1 <? 192) eqn:?, (zlen c' + 1 <? 8384) eqn:?; lia. }
  rewrite N, L2 in L1. assert (Q : forall a b : bytes, Ok (a, 0) = Ok (b, 0) -> a = b) by (intros a0 b0 Z; now inversion Z). apply Q in L1. subst l'. rewrite D1 in D2. apply app_inv_head in D2. injection D2 as D2 _. lia.
Qed.
(** Embedded signatures: the empty list removes those in subpackets that are not critical. [framed] is the packet around the content. *)
Lemma emb_forth s h u o k : from_packet s h u -> (forall x, In x (h ++ u) -> sub_type x = 32 -> sub_critical x = false) -> In o (get_subs s 32) -> emb_of o = Ok k -> o = obj_of (emb_sub k).
Proof.
  intros (Fh & Fu & ->) C I H. unfold get_subs, sig_obj_of in I. cbn [so_hashed so_unhashed] in I. rewrite <- map_app in I. apply filter_In in I as [I T]. apply in_map_iff in I as (x & <- & X). rewrite obj_type in T.
  specialize (C x X). destruct x as [ty c b]. cbn [sub_type sub_critical] in *. assert (ty = 32) by lia. subst ty. rewrite (C eq_refl). unfold emb_of in H. destruct b; cbn [obj_of so_rest] in H; try discriminate H. injection H as <-. reflexivity.
Qed.
Theorem c50_embedded_clear_partial : forall framed fl s h u existing order, from_packet s h u -> get_embedded s = Ok existing -> set_union (emb_octets framed fl) [] existing order ->
  (forall a b c, framed true a = Ok c -> framed true b = Ok c -> a = b) -> Forall (writable (emb_octets framed fl)) existing -> Forall (fun e => writable (sub_bytes fl) (emb_sub e)) existing ->
  (forall x, In x (h ++ u) -> sub_type x = 32 -> sub_critical x = false) ->
  exists s', set_embedded framed fl s [] order = Ok s' /\ get_embedded s' = Ok [] /\ others_same 32 s s'.
Proof.
  intros framed fl s h u existing order P G U Inj W Ws C. unfold set_embedded. rewrite G. cbn [bind].
  assert (T : forall k, In k existing -> b_new k = true). { unfold get_embedded in G. revert G. generalize (get_subs s 32). intros l. clear. revert existing. induction l as [|o l IH]; intros e G k K; cbn [mapM] in G; [injection G as <-; destruct K|]. destruct (emb_of o) as [x|] eqn:E; [|discriminate G]. cbn [bind] in G. destruct (mapM emb_of l) as [q|]; [|discriminate G]. cbn [bind] in G. injection G as <-. destruct K as [<-|K]; [|now apply (IH q)]. unfold emb_of in E. destruct (so_rest o) as [[]|]; try discriminate E. injection E as <-. reflexivity. }
  destruct (clear_all embedded (emb_octets framed fl) emb_sub fl 32 (fun k => eq_refl) emb_of s existing order) as (s' & E & N & O); [|exact G|exact W| |exact U| |exists s'; split; [exact E|]; split; [|exact O]; unfold get_embedded; now rewrite N].
  - intros x y X Y Q [b B]. rewrite B in Q. symmetry in Q. unfold emb_octets in B, Q. rewrite (T x X) in B. rewrite (T y Y) in Q. change (obj_bytes fl (obj_of (emb_sub x))) with (do d <- sig_content fl (b_sig x);; sub_frame 32 false d). change (obj_bytes fl (obj_of (emb_sub y))) with (do d <- sig_content fl (b_sig y);; sub_frame 32 false d).
    destruct (sig_content fl (b_sig x)) as [c|]; [|discriminate B]. destruct (sig_content fl (b_sig y)) as [d|]; [|discriminate Q]. cbn [bind] in *. now rewrite (Inj c d b B Q).
  - intros k K. rewrite Forall_forall in Ws. destruct (Ws k K) as [b B]. exists b. exact B.
  - intros o k I K. now rewrite (emb_forth s h u o k P C I K).
Qed.
Print Assumptions c50_embedded_clear_partial.
(** Assigning embedded signatures (read from packets in the new format) adds them. *)
Theorem c50_embedded_assign_partial : forall framed fl s existing new order, get_embedded s = Ok existing -> Forall (writable (emb_octets framed fl)) (new ++ existing) -> Forall (fun e => b_new e = true) new -> new <> [] -> set_union (emb_octets framed fl) new existing order ->
  exists s' l, set_embedded framed fl s new order = Ok s' /\ get_embedded s' = Ok l /\ incl l (new ++ existing) /\ incl existing l /\ (forall n, In n new -> listed (emb_octets framed fl) n l) /\ (existing = [] -> l = order) /\ others_same 32 s s'.
Proof.
  intros framed fl s existing new order G W F N U. unfold set_embedded, get_embedded in *. rewrite G. cbn [bind].
  destruct (assign_all embedded (emb_octets framed fl) emb_sub fl 32 (fun k => eq_refl) emb_of s new existing order) as (s' & l & H); [|exact G|exact W|now left|exact U|exists s', l; exact H].
  intros k K. rewrite Forall_forall in F. specialize (F k K). destruct k as [n g]. cbn in F |- *. now rewrite F.
Qed.
Print Assumptions c50_embedded_assign_partial.
(** Refuted: a signature in a critical subpacket is not removed by assigning the empty list (the subpacket that is looked for is not critical). *)
Theorem c50_embedded_critical_refuted : forall framed fl s h u existing order g, from_packet s h u -> get_embedded s = Ok existing -> Forall (writable (emb_octets framed fl)) existing -> set_union (emb_octets framed fl) [] existing order ->
  (forall x, In x (h ++ u) -> sub_type x = 32 -> writable (sub_bytes fl) x) -> In (Sub 32 true (SbEmbedded g)) (h ++ u) ->
  exists s' l, set_embedded framed fl s [] order = Ok s' /\ get_embedded s' = Ok l /\ In (Emb true g) l.
Proof.
  intros framed fl s h u existing order g P G W U Wr I. unfold set_embedded. rewrite G. cbn [bind]. unfold assign_set. destruct (mapM_octets embedded (emb_octets framed fl) existing W) as [r R]. cbn [app]. rewrite R. cbn [bind].
  pose proof P as (Fh & Fu & Es). assert (Wc : Forall well_classed (h ++ u)) by (apply Forall_app; auto).
  assert (Sub32 : forall o, In o (get_subs s 32) <-> exists x, In x (h ++ u) /\ sub_type x = 32 /\ o = obj_of x).
  { intros o. rewrite Es. unfold get_subs, sig_obj_of. cbn [so_hashed so_unhashed]. rewrite <- map_app, filter_In, in_map_iff. split.
    - intros ((x & <- & X) & T). rewrite obj_type in T. exists x. split; [exact X|]. split; [lia|reflexivity].
    - intros (x & X & T & ->). split; [exists x; auto|]. rewrite obj_type. lia. }
  assert (Emb32 : forall x, In x (h ++ u) -> sub_type x = 32 -> exists k q, x = Sub 32 k (SbEmbedded q)).
  { intros x X T. rewrite Forall_forall in Wc. specialize (Wc x X). destruct x as [ty k b]. cbn [sub_type] in T. subst ty. unfold well_classed in Wc. cbn [sub_body sub_type] in Wc. destruct b; cbn [In] in Wc; try lia; try tauto. exists k, s0. reflexivity. }
  assert (Ok32 : forall x, In x (h ++ u) -> sub_type x = 32 -> writable (obj_bytes fl) (obj_of x)).
  { intros x X T. destruct (Emb32 x X T) as (k & q & ->). unfold writable. change (obj_bytes fl (obj_of (Sub 32 k (SbEmbedded q)))) with (sub_bytes fl (Sub 32 k (SbEmbedded q))). exact (Wr _ X T). }
  assert (Exist : forall k, In k existing -> b_new k = true /\ exists f, In (Sub 32 f (SbEmbedded (b_sig k))) (h ++ u)).
  { intros k K. unfold get_embedded in G. assert (M : exists o, In o (get_subs s 32) /\ emb_of o = Ok k).
    { revert G. generalize (get_subs s 32). intros l. clear - K. revert existing K. induction l as [|o l IH]; intros e K G; cbn [mapM] in G; [injection G as <-; destruct K|]. destruct (emb_of o) as [x|] eqn:E; [|discriminate G]. cbn [bind] in G. destruct (mapM emb_of l) as [q|]; [|discriminate G]. cbn [bind] in G. injection G as <-. destruct K as [<-|K]; [exists o; split; [now left|exact E]|]. destruct (IH q K eq_refl) as (o' & O1 & O2). exists o'. split; [now right|exact O2]. }
    destruct M as (o & O & M). apply Sub32 in O as (x & X & T & ->). destruct (Emb32 x X T) as (f & q & ->). cbn in M. injection M as <-. cbn [b_new b_sig]. split; [reflexivity|]. exists f. exact X. }
  assert (Nc : forall q f d, sub_bytes fl (Sub 32 f (SbEmbedded q)) = Ok d -> exists b, sub_bytes fl (Sub 32 false (SbEmbedded q)) = Ok b).
  { intros q f d. unfold sub_bytes. cbn [sub_content]. destruct (sig_content fl q) as [e|]; [|discriminate]. cbn [bind]. unfold sub_frame. destruct (new_packet_length_to_bytes (zlen e + 1) false) as [[a b]|]; [|discriminate]. cbn [bind]. intros _. eexists. reflexivity. }
  assert (So : subs_ok embedded emb_sub fl existing).
  { intros k K. destruct (Exist k K) as (_ & f & X). destruct (Ok32 _ X eq_refl) as [d D]. destruct (Nc (b_sig k) f d D) as [b B]. exists b. exact B. }
  assert (Sw : subs_writable fl 32 s) by (unfold subs_writable; rewrite Forall_forall; intros o O; apply Sub32 in O as (x & X & T & ->); now apply Ok32).
  assert (Keep : forall ord t, subs_writable fl 32 t -> incl ord existing -> In (obj_of (Sub 32 true (SbEmbedded g))) (get_subs t 32) -> exists t', assign_objects embedded (emb_octets framed fl) emb_sub fl [] existing ord t = Ok t' /\ In (obj_of (Sub 32 true (SbEmbedded g))) (get_subs t' 32) /\ incl (get_subs t' 32) (get_subs t 32)).
  { induction ord as [|k ord IH]; intros t Wt Ho It; [exists t; split; [reflexivity|]; split; [exact It|apply incl_refl]|]. assert (Wk : writable (emb_octets framed fl) k) by (rewrite Forall_forall in W; apply W, Ho; now left). destruct Wk as [b B]. cbn [assign_objects]. rewrite B. cbn [bind]. destruct (holds_spec embedded (emb_octets framed fl) b existing W) as (x & -> & X). cbn [bind]. replace x with true by (symmetry; apply X; exists k; split; [apply Ho; now left|exact B]).
    destruct (So k (Ho k (or_introl eq_refl))) as [d D]. rewrite (remove_gen fl 32 t (obj_of (emb_sub k)) d eq_refl D Wt). cbn [bind]. destruct (IH (removed fl 32 d t) (writable_removed fl 32 d t Wt)) as (t' & E1 & E2 & E3).
    - intros y Y. apply Ho. now right.
    - rewrite removed_subs. apply filter_In. split; [exact It|]. destruct (stays fl 32 d (obj_of (Sub 32 true (SbEmbedded g)))) eqn:Q; [reflexivity|]. apply stays_false in Q as [_ Q]. exfalso.
      change (sub_bytes fl (Sub 32 true (SbEmbedded g)) = Ok d) in Q. change (sub_bytes fl (Sub 32 false (SbEmbedded (b_sig k))) = Ok d) in D. exact (critical_differs fl _ _ _ Q D).
    - exists t'. split; [exact E1|]. split; [exact E2|]. eapply incl_tran; [exact E3|]. rewrite removed_subs. intros y Y. now apply filter_In in Y. }
  destruct U as (U1 & _). destruct (Keep order s Sw U1) as (s' & E & K & J); [apply Sub32; eexists; split; [exact I|]; split; reflexivity|]. exists s'. assert (R2 : exists l, get_embedded s' = Ok l). { unfold get_embedded. assert (A : forall o, In o (get_subs s' 32) -> exists k, emb_of o = Ok k) by (intros o O; apply J in O; apply Sub32 in O as (x & X & T & ->); destruct (Emb32 x X T) as (f & q & ->); eexists; reflexivity).
    revert A. generalize (get_subs s' 32). induction l as [|o l IH]; intros A; [eexists; reflexivity|]. cbn [mapM]. destruct (A o (or_introl eq_refl)) as [k ->]. destruct IH as [q ->]; [intros x X; apply A; now right|]. eexists. reflexivity. }
  destruct R2 as [l L]. exists l. split; [exact E|]. split; [exact L|]. unfold get_embedded in L. revert K L. generalize (get_subs s' 32). clear. intros m. revert l. induction m as [|o m IH]; intros l K L; [destruct K|]. cbn [mapM] in L. destruct (emb_of o) as [x|] eqn:Q; [|discriminate L]. cbn [bind] in L. destruct (mapM emb_of m) as [q|]; [|discriminate L]. cbn [bind] in L. injection L as <-. destruct K as [->|K]; [cbn in Q; injection Q as <-; now left|right; now apply IH].
Qed.
Print Assumptions c50_embedded_critical_refuted.

(** Regular expressions. *)
Lemma ascii_len p : zlen (ascii_encode_replace p) = zlen p.
Proof. unfold ascii_encode_replace, zlen. now rewrite map_length. Qed.
Lemma regex_obj fl c p : zlen p < 4294967295 -> text_obj fl 6 APattern (SObj 6 c [(APattern, VText p)] None).
Proof.
  intros L. split; [|eauto]. destruct (sub_frame_rfc 6 c (ascii_encode_replace p)) as (enc & E & _); [lia|rewrite ascii_len; lia|]. exists enc. exact E.
Qed.
Lemma regexes_all fl s h u : from_packet s h u -> short_patterns h u -> all_text fl 6 APattern s.
Proof.
  intros (Fh & Fu & ->) I. unfold all_text, get_subs, sig_obj_of. cbn [so_hashed so_unhashed]. rewrite <- map_app. rewrite Forall_forall. intros o Ho. apply filter_In in Ho as [Ho T]. apply in_map_iff in Ho as (x & <- & Hx). rewrite obj_type in T.
  unfold short_patterns in I. rewrite Forall_forall in I. specialize (I x Hx). assert (W : well_classed x). { apply in_app_iff in Hx as [Hx|Hx]; rewrite Forall_forall in *; auto. }
  destruct x as [ty c b]. unfold well_classed in W. cbn [sub_type sub_body] in *. assert (ty = 6) by lia. subst ty. destruct b; cbn [In] in W; try lia; try tauto. now apply regex_obj.
Qed.
Lemma get_regexes_spec compile fl s l : all_text fl 6 APattern s -> get_regexes compile s = Ok l -> l = map (text_of APattern) (get_subs s 6) /\ forall p, In p l -> compile p = Ok tt.
Proof.
  intros A. unfold get_regexes. pose proof (get_texts fl 6 APattern s A) as T. destruct (get_values s 6 APattern) as [v|]; [|discriminate T]. cbn [bind] in *. rewrite T. cbn [bind]. destruct (mapM compile (map (text_of APattern) (get_subs s 6))) as [r|] eqn:M; [|discriminate]. cbn [bind]. intros H. injection H as <-. split; [reflexivity|].
  revert r M. generalize (map (text_of APattern) (get_subs s 6)). induction l as [|p l IH]; intros r M q Q; [destruct Q|]. cbn [mapM] in M. destruct (compile p) as [[]|] eqn:C; [|discriminate M]. cbn [bind] in M. destruct (mapM compile l) as [r'|] eqn:M2; [|discriminate M]. destruct Q as [<-|Q]; [exact C|]. now apply (IH r').
Qed.
Lemma get_regexes_ok compile fl s : all_text fl 6 APattern s -> (forall p, In p (map (text_of APattern) (get_subs s 6)) -> compile p = Ok tt) -> get_regexes compile s = Ok (map (text_of APattern) (get_subs s 6)).
Proof.
  intros A C. unfold get_regexes. pose proof (get_texts fl 6 APattern s A) as T. destruct (get_values s 6 APattern) as [v|]; [|discriminate T]. cbn [bind] in *. rewrite T. cbn [bind]. assert (M : exists r, mapM compile (map (text_of APattern) (get_subs s 6)) = Ok r); [|destruct M as [r ->]; reflexivity].
  revert C. generalize (map (text_of APattern) (get_subs s 6)). induction l as [|p l IH]; intros C; [eexists; reflexivity|]. cbn [mapM]. rewrite (C p) by now left. destruct IH as [r ->]; [intros q Q; apply C; now right|]. eexists. reflexivity.
Qed.
Theorem c50_regexes_clear : forall compile fl s h u existing order, from_packet s h u -> short_patterns h u -> get_regexes compile s = Ok existing -> union_of [] existing order ->
  exists s', set_regexes compile fl s [] order = Ok s' /\ get_regexes compile s' = Ok [] /\ others_same 6 s s'.
Proof.
  intros compile fl s h u existing order P Sh G [_ U]. pose proof (regexes_all fl s h u P Sh) as A. destruct (get_regexes_spec compile fl s existing A G) as [E _]. unfold set_regexes. rewrite G. cbn [bind].
  destruct (clear_texts fl 6 APattern existing order s A) as (s' & H & S & N); [intros k K; apply U in K as [[]|K]; exact K|]. exists s'. split; [exact H|]. split; [|exact (proj1 S)].
  assert (Z : get_subs s' 6 = []). { destruct (get_subs s' 6) as [|o l] eqn:L; [reflexivity|]. exfalso. apply (N o); [now left|]. apply U. right. rewrite E. apply in_map. apply (proj2 S). rewrite L. now left. }
  unfold get_regexes, get_values. rewrite Z. reflexivity.
Qed.
Print Assumptions c50_regexes_clear.
Theorem c50_regexes_assign : forall compile fl s h u existing new order, from_packet s h u -> short_patterns h u -> get_regexes compile s = Ok existing -> new <> [] ->
  Forall (fun p => compile p = Ok tt /\ zlen p < 4294967295) new -> union_of new existing order ->
  exists s' l, set_regexes compile fl s new order = Ok s' /\ get_regexes compile s' = Ok l /\ (forall p, In p l <-> In p new \/ In p existing) /\ (existing = [] -> l = order) /\ others_same 6 s s'.
Proof.
  intros compile fl s h u existing new order P Sh G N F [_ U]. pose proof (regexes_all fl s h u P Sh) as A. destruct (get_regexes_spec compile fl s existing A G) as [E C]. unfold set_regexes. rewrite G. cbn [bind].
  rewrite (add_texts fl 6 APattern (fun k => eq_refl) new existing (or_introl N) order s). set (nw := unlisted existing order). eexists. eexists. split; [reflexivity|].
  assert (Sb : forall t, get_subs (SigObj (so_hashed s ++ map (fun k => SObj 6 false [(APattern, VText k)] None) nw) (so_unhashed s)) t = filter (fun o => so_type o =? t) (so_hashed s) ++ (if t =? 6 then map (fun k => SObj 6 false [(APattern, VText k)] None) nw else []) ++ filter (fun o => so_type o =? t) (so_unhashed s)).
  { intros t. unfold get_subs. cbn [so_hashed so_unhashed]. rewrite !filter_app', <- app_assoc. f_equal. f_equal. destruct (t =? 6) eqn:T.
    - apply filter_id. intros x Hx. apply in_map_iff in Hx as (k & <- & _). cbn [so_type]. lia.
    - clear - T. induction nw as [|k l IH]; [reflexivity|]. cbn [map filter so_type]. replace (6 =? t) with false by lia. exact IH. }
  assert (Nw : forall p, In p nw <-> (In p new /\ ~ In p existing)).
  { intros p. unfold nw, unlisted. rewrite filter_In, U. destruct (existsb (zlist_eqb p) existing) eqn:X; cbn [negb].
    - apply existsb_exists in X as (y & Y & Q). apply zlist_eqb_spec in Q. subst y. intuition congruence.
    - assert (~ In p existing). { intros Y. assert (existsb (zlist_eqb p) existing = true) by (apply existsb_exists; exists p; split; [exact Y|apply zlist_eqb_refl]). congruence. } intuition. }
  set (s' := SigObj _ _). assert (T : map (text_of APattern) (get_subs s' 6) = map (text_of APattern) (filter (fun o => so_type o =? 6) (so_hashed s)) ++ nw ++ map (text_of APattern) (filter (fun o => so_type o =? 6) (so_unhashed s))).
  { unfold s'. rewrite Sb, Z.eqb_refl, !map_app, map_map. f_equal. f_equal. unfold text_of. cbn. apply map_id. }
  assert (X : existing = map (text_of APattern) (filter (fun o => so_type o =? 6) (so_hashed s)) ++ map (text_of APattern) (filter (fun o => so_type o =? 6) (so_unhashed s))) by (rewrite E; unfold get_subs; now rewrite filter_app', map_app).
  assert (In3 : forall p, In p (map (text_of APattern) (get_subs s' 6)) <-> In p new \/ In p existing).
  { intros p. assert (Xe : In p existing <-> In p (map (text_of APattern) (filter (fun o => so_type o =? 6) (so_hashed s))) \/ In p (map (text_of APattern) (filter (fun o => so_type o =? 6) (so_unhashed s)))) by (rewrite X, in_app_iff; reflexivity). rewrite T, !in_app_iff, Nw, Xe. destruct (in_dec (list_eq_dec Z.eq_dec) p existing) as [D|D]; rewrite Xe in D; tauto. }
  split; [apply (get_regexes_ok compile fl)|split; [exact In3|split]].
  - unfold all_text. unfold s'. rewrite Sb, Z.eqb_refl. unfold all_text, get_subs in A. rewrite filter_app', Forall_app in A. rewrite !Forall_app. split; [apply A|]. split; [|apply A]. rewrite Forall_forall. intros o O. apply in_map_iff in O as (k & <- & K). apply Nw in K as [K _]. rewrite Forall_forall in F. apply regex_obj. now apply F.
  - intros p Q. apply In3 in Q as [Q|Q]; [rewrite Forall_forall in F; now apply F|now apply C].
  - intros Ze. etransitivity; [exact T|]. rewrite Ze in X. symmetry in X. apply app_eq_nil in X as [-> ->]. cbn [app]. rewrite app_nil_r. unfold nw, unlisted. rewrite Ze. apply filter_id. reflexivity.
  - split; [|reflexivity]. unfold s'. cbn [so_hashed]. rewrite filter_app'. assert (Q : filter (fun o => negb (so_type o =? 6)) (map (fun k => SObj 6 false [(APattern, VText k)] None) nw) = []) by (clear; induction nw as [|k l IH]; [reflexivity|exact IH]). rewrite Q. apply app_nil_r.
Qed.
Print Assumptions c50_regexes_assign.
(** Refuted: assigning does not replace. *)
Theorem c50_regexes_replace_refuted : forall compile fl s h u existing new order p, from_packet s h u -> short_patterns h u -> get_regexes compile s = Ok existing -> new <> [] ->
  Forall (fun p => compile p = Ok tt /\ zlen p < 4294967295) new -> union_of new existing order -> In p existing ->
  exists s' l, set_regexes compile fl s new order = Ok s' /\ get_regexes compile s' = Ok l /\ In p l.
Proof.
  intros compile fl s h u existing new order p P Sh G N F U I. destruct (c50_regexes_assign compile fl s h u existing new order P Sh G N F U) as (s' & l & A & B & C & _). exists s', l. split; [exact A|]. split; [exact B|]. apply C. now right.
Qed.
Print Assumptions c50_regexes_replace_refuted.

(** The key expiration time (microseconds): what is assigned is read back to the second, if it is at least a second after the key was made. *)
Theorem c50_key_expiration_partial : forall created s t, created + 1000000 <= t ->
  exists s', set_key_expiration (Ok created) s t = Ok s' /\ get_key_expiration (Ok created) s' = Ok (At (t - (t - created) mod 1000000)) /\ forall ty, ty <> 9 -> get_subs s' ty = get_subs s ty.
Proof.
  intros created s t H. unfold set_key_expiration. cbn [bind]. set (n := (t - created) / 1000000). assert (Hn : 1 <= n) by (apply Z.div_le_lower_bound; lia). pose proof (Z.div_mod (t - created) 1000000 ltac:(lia)) as D. fold n in D.
  destruct (update_values s 9 ATime (VInt n)) as [s'|e] eqn:E.
  - exists s'. split; [reflexivity|]. split; [|intros ty N; exact (update_other_type _ _ _ _ _ ty E N)]. unfold get_key_expiration. rewrite (update_get _ _ _ _ _ E). cbn [bind truthy negb as_int]. replace (n =? 0) with false by lia. cbn [negb bind]. f_equal. f_equal. lia.
  - exfalso. unfold update_values in E. destruct (get_subs s 9); [|discriminate E]. unfold add_values in E. cbn in E. discriminate E.
Qed.
Print Assumptions c50_key_expiration_partial.
(** Refuted: an expiration within the first second is stored as 0: the key never expires. And without a target there is no assignment. *)
Theorem c50_key_expiration_zero_refuted : forall created s t e, (created <= t < created + 1000000 -> exists s', set_key_expiration (Ok created) s t = Ok s' /\ get_key_expiration (Ok created) s' = Ok Zero) /\
  set_key_expiration (Err e) s t = Err e.
Proof.
  intros created s t e. split; [|reflexivity]. intros H. unfold set_key_expiration. cbn [bind]. replace ((t - created) / 1000000) with 0 by (symmetry; apply Z.div_small; lia). destruct (update_values s 9 ATime (VInt 0)) as [s'|x] eqn:E.
  - exists s'. split; [reflexivity|]. unfold get_key_expiration. rewrite (update_get _ _ _ _ _ E). reflexivity.
  - exfalso. unfold update_values in E. destruct (get_subs s 9); [|discriminate E]. unfold add_values in E. cbn in E. discriminate E.
Qed.
Print Assumptions c50_key_expiration_zero_refuted.
(** Examples: the hypotheses are met. *)
Definition n1 := Note (str "rating") (Some (str "example.org")) true (str "good").
Definition n2 := Note (str "note") None true (str "x").
Definition nx_h : list subpkt := [Sub 2 false (SbTime 5); note_sub n1; Sub 6 false (SbRegex (str "a+"))].
Definition nx_s : sigobj := sig_obj_of nx_h [Sub 32 false (SbEmbedded (SigV4 4 24 1 8 [1; 2] [] [] []))].
Example c50_notations_example : from_packet nx_s nx_h [Sub 32 false (SbEmbedded (SigV4 4 24 1 8 [1; 2] [] [] []))] /\ get_notations nx_s = Ok [n1] /\ Forall (writable (note_octets (fun _ => 0))) ([n2] ++ [n1]) /\
  (do s <- set_notations (fun _ => 0) nx_s [n2] [n2; n1];; get_notations s) = Ok [n1; n2] /\ (do s <- set_notations (fun _ => 0) nx_s [] [n1];; get_notations s) = Ok [] /\
  get_embedded nx_s = Ok [Emb true (SigV4 4 24 1 8 [1; 2] [] [] [])].
Proof.
  split; [split; [repeat constructor; cbn; tauto|]; split; [repeat constructor|reflexivity]|]. split; [reflexivity|]. split; [repeat constructor; unfold writable; eexists; vm_compute; reflexivity|]. split; [vm_compute; reflexivity|]. split; [vm_compute; reflexivity|reflexivity].
Qed.
Example c50_regexes_example : get_regexes (fun _ => Ok tt) nx_s = Ok [str "a+"] /\ (do s <- set_regexes (fun _ => Ok tt) (fun _ => 0) nx_s [str "b"] [str "b"; str "a+"];; get_regexes (fun _ => Ok tt) s) = Ok [str "a+"; str "b"].
Proof. split; [reflexivity|vm_compute; reflexivity]. Qed.
