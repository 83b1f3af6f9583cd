(** C50: signature attributes that are stored in subpackets. *)
From Verif Require Import Base BaseProofs Spec Text SigPackets SigAttrs SpecAttrs AttrsProofs IssuerProofs.

(** Assigning a proper value succeeds and reading returns it, for every signature object. *)
Theorem c50_set_get s p v : In p (single ++ own_flags) -> proper p v -> exists s', set_prop s p v = Ok s' /\ get_prop s' p = Ok v.
Proof.
  intros I P. destruct (set_succeeds s p v I P) as (s' & E). exists s'. split; [exact E|]. unfold set_prop in E. rewrite (set_setter p I) in E. exact (update_get _ _ _ _ _ E).
Qed.
Print Assumptions c50_set_get.
Definition ex_h : list subpkt := [Sub 2 false (SbTime 100); Sub 27 false (SbFlags true false false false false false false); Sub 16 true (SbIssuer (hex_text [1; 2; 3; 4; 5; 6; 7; 8]))].
Definition ex_u : list subpkt := [Sub 16 false (SbIssuer (hex_text [8; 7; 6; 5; 4; 3; 2; 1])); Sub 5 false (SbTrust 1 60)].
Definition ex_s : sigobj := sig_obj_of ex_h ex_u.
Example c50_example_from : from_packet ex_s ex_h ex_u.
Proof. split; [repeat constructor; cbn; tauto|]. split; [repeat constructor; cbn; tauto|reflexivity]. Qed.
Example c50_set_get_example : exists s', set_prop ex_s P_policy_uri (VText [104; 116]) = Ok s' /\ get_prop ex_s P_policy_uri = Ok VNone /\ get_prop s' P_policy_uri = Ok (VText [104; 116]) /\ In P_policy_uri (single ++ own_flags) /\ proper P_policy_uri (VText [104; 116]).
Proof. eexists. split; [reflexivity|]. split; [reflexivity|]. split; [reflexivity|]. split; [cbn; tauto|]. exists [104; 116]. reflexivity. Qed.

(** No other attribute changes; missing: when a flag is assigned and the signature has no flags yet, the other flags change (refuted below). *)
Theorem c50_other_attributes_partial s p v s' : In p (single ++ own_flags) -> set_prop s p v = Ok s' ->
  (forall q, In q (single ++ own_flags) -> q <> p -> (In p own_flags -> In q own_flags -> exists w, get_prop s p = Ok w /\ w <> VNone) -> get_prop s' q = get_prop s q) /\
  (forall q, In q [P_trust_amount; P_trust_depth; P_revocation_code] -> get_prop s' q = get_prop s q) /\
  get_issuer_key_ids s' = get_issuer_key_ids s /\
  (forall local, get_creation_time local s' = get_creation_time local s /\ get_expiration_time local s' = get_expiration_time local s).
Proof.
  intros I E. unfold set_prop in E. rewrite (set_setter p I) in E.
  assert (O : forall ty, ty <> fst (getter p) -> get_subs s' ty = get_subs s ty) by (intros ty N; exact (update_other_type _ _ _ _ _ ty E N)).
  assert (NT : ~ In (fst (getter p)) [2; 3; 5; 16; 29]).
  { unfold single, own_flags in I. cbn [app In] in I. repeat destruct I as [<-|I]; cbn [getter fst In]; try lia; try contradiction. }
  cbn [In] in NT. split; [|split; [|split]].
  - intros q Iq Nq Fl. unfold get_prop. destruct (Z.eq_dec (fst (getter q)) (fst (getter p))) as [T|T].
    + assert (snd (getter q) <> snd (getter p)) as Na. { intros A. apply Nq, prop_slots; [|exact Iq|exact I]. destruct (getter q), (getter p). cbn [fst snd] in *. congruence. }
      assert (T27 : fst (getter p) = 27 -> In p own_flags). { unfold single, own_flags in *. cbn [app In] in I. repeat destruct I as [<-|I]; cbn [getter fst In]; try discriminate; try tauto. }
      assert (Q27 : fst (getter q) = 27 -> In q own_flags). { unfold single, own_flags in *. cbn [app In] in Iq. repeat destruct Iq as [<-|Iq]; cbn [getter fst In]; try discriminate; try tauto. }
      destruct (Z.eq_dec (fst (getter p)) 27) as [E27|N27].
      * rewrite T. apply (update_same_type _ _ _ _ _ _ E Na). destruct (Fl (T27 E27) (Q27 ltac:(congruence))) as (w & W & Nw). intros G. unfold get_prop, get_value in W. rewrite G in W. congruence.
      * exfalso. apply N27. clear -T Na I Iq. unfold single, own_flags in *. cbn [app In] in I, Iq. repeat destruct I as [<-|I]; cbn [getter fst snd] in *; try reflexivity;
          repeat destruct Iq as [<-|Iq]; cbn [getter fst snd] in *; try discriminate T; try congruence; contradiction.
    + unfold get_value. now rewrite (O _ T).
  - intros q Iq. cbn [In] in Iq. unfold get_prop, get_value. rewrite O; [reflexivity|]. repeat destruct Iq as [<-|Iq]; cbn [getter fst]; try lia; try contradiction.
  - unfold get_issuer_key_ids, get_values. rewrite O by lia. reflexivity.
  - intros local. assert (C : get_creation_time local s' = get_creation_time local s) by (unfold get_creation_time, get_value; rewrite O by lia; reflexivity). split; [exact C|].
    unfold get_expiration_time. rewrite C. unfold get_value. rewrite O by lia. reflexivity.
Qed.
Print Assumptions c50_other_attributes_partial.
Example c50_other_example : exists s', set_prop ex_s P_sign (VBool true) = Ok s' /\ get_prop ex_s P_sign = Ok (VBool false) /\ get_prop s' P_sign = Ok (VBool true) /\ get_prop s' P_certify = Ok (VBool true) /\ get_prop s' P_auth = Ok (VBool false).
Proof. eexists. split; [reflexivity|]. repeat split. Qed.

(** The assignment reaches the packet that is written: reading that packet gives the value, in a signature that came from a packet. *)
Theorem c50_survives_packet s h u p v : from_packet s h u -> In p (single ++ own_flags) -> proper p v ->
  exists s' h' u', set_prop s p v = Ok s' /\ written s' = Ok (h', u') /\ s' = sig_obj_of h' u' /\ get_prop (sig_obj_of h' u') p = Ok v.
Proof.
  intros F I P. destruct (c50_set_get s p v I P) as (s' & E & G). destruct (set_written h u s p v s' F I P E) as (h' & u' & (_ & _ & K) & W). exists s', h', u'. split; [exact E|]. split; [exact W|]. split; [exact K|]. now rewrite <- K.
Qed.
Print Assumptions c50_survives_packet.

(** Refuted: assigning one flag of a signature without flags turns every other flag on. *)
Theorem c50_flags_granted_refuted s p q v s' : In p own_flags -> In q own_flags -> q <> p -> get_prop s p = Ok VNone -> get_subs s 27 = [] -> set_prop s p v = Ok s' ->
  get_prop s q = Ok VNone /\ get_prop s' q = Ok (VBool true).
Proof.
  intros I J N G0 G E. destruct (flag_slot p I) as [Ep Ip]. destruct (flag_slot q J) as [Eq Iq]. assert (A : snd (getter q) <> snd (getter p)).
  { intros A. apply N, prop_slots; [congruence|apply in_app_iff; now right|apply in_app_iff; now right]. }
  unfold set_prop in E. rewrite (set_setter p) in E by (apply in_app_iff; now right). unfold get_prop. rewrite Ep in E. rewrite Eq. cbn [fst] in *. split; [unfold get_value; rewrite G; reflexivity|].
  exact (update_new_flags _ _ _ _ _ G E A Iq).
Qed.
Print Assumptions c50_flags_granted_refuted.
Example c50_flags_example : exists s', set_prop (SigObj [] []) P_certify (VBool false) = Ok s' /\ get_prop s' P_certify = Ok (VBool false) /\ get_prop s' P_sign = Ok (VBool true) /\ get_prop s' P_auth = Ok (VBool true).
Proof. eexists. split; [reflexivity|]. repeat split. Qed.

(** Refuted: [revocable] is the exportable attribute: a revocable subpacket is not read, and assigning it changes exportable. *)
Theorem c50_revocable_refuted s v s' : set_prop s P_revocable v = Ok s' ->
  get_prop s P_revocable = get_prop s P_exportable /\ get_prop s' P_exportable = Ok v /\ get_subs s' 7 = get_subs s 7.
Proof.
  intros E. split; [reflexivity|]. split; [exact (update_get _ _ _ _ _ E)|]. apply (update_other_type _ _ _ _ _ 7 E). cbn. lia.
Qed.
Print Assumptions c50_revocable_refuted.
Example c50_revocable_example : get_prop (sig_obj_of [Sub 7 true (SbBool false)] []) P_revocable = Ok VNone /\
  exists s', set_prop (sig_obj_of [Sub 4 false (SbBool true)] []) P_revocable (VBool false) = Ok s' /\ get_prop s' P_exportable = Ok (VBool false).
Proof. split; [reflexivity|]. eexists. split; reflexivity. Qed.

(** Refuted: the trust amount and depth of a signature from a packet cannot be read, cannot be assigned when absent, and assigning them when
    present does not change the packet; the same for the revocation reason. *)
Theorem c50_trust_refuted s h u p v : from_packet s h u -> In p [P_trust_amount; P_trust_depth; P_revocation_reason] ->
  (has_sub h u 5 -> get_prop s p = Err AttributeError /\ exists s', set_prop s p v = Ok s' /\ written s' = Ok (h, u)) /\
  (~ has_sub h u 5 -> get_prop s p = Ok VNone /\ set_prop s p v = Err TypeError).
Proof.
  intros (Fh & Fu & ->) I.
  assert (G : fst (getter p) = 5 /\ fst (setter p) = 5 /\ (snd (getter p) <> ADepth /\ snd (getter p) <> AAmount) /\ (snd (setter p) = ATrustAmount \/ snd (setter p) = ATrustDepth)).
  { cbn [In] in I. repeat destruct I as [<-|I]; try contradiction; cbn; intuition congruence. }
  destruct G as (G1 & G2 & [G3 G4] & G5). unfold get_prop, set_prop. rewrite G1, G2.
  assert (T : forall x, well_classed x -> sub_type x = 5 -> exists c d a, x = Sub 5 c (SbTrust d a)).
  { intros [ty c b] W E. cbn [sub_type] in E. subst ty. unfold well_classed in W. cbn [sub_type sub_body In] in W. destruct b; try (exfalso; cbn in W; lia). exists c, depth, amount. reflexivity. }
  assert (Sb : get_subs (sig_obj_of h u) 5 = map obj_of (filter (fun x => sub_type x =? 5) (h ++ u))).
  { unfold get_subs, sig_obj_of. cbn [so_hashed so_unhashed]. rewrite <- map_app. induction (h ++ u) as [|x l IH]; [reflexivity|]. cbn [map filter]. rewrite obj_type, IH. destruct (sub_type x =? 5); reflexivity. }
  assert (M : forall l, Forall well_classed l -> mapM sub_of (map (fun o => if so_type o =? 5 then set_attr (snd (setter p)) v o else o) (map obj_of l)) = Ok l).
  { induction l as [|x l IH]; [reflexivity|]. intros F. cbn [map mapM]. rewrite obj_type, (IH (Forall_inv_tail F)). destruct (sub_type x =? 5) eqn:E.
    - destruct (T x (Forall_inv F)) as (c & d & a & ->); [lia|]. destruct G5 as [-> | ->]; reflexivity.
    - rewrite (sub_of_obj x (Forall_inv F)). reflexivity. }
  unfold get_value, update_values. rewrite Sb. split.
  - intros (x & Hx & E). destruct (filter (fun x => sub_type x =? 5) (h ++ u)) as [|y l] eqn:Q.
    + exfalso. assert (Z : In x (filter (fun x => sub_type x =? 5) (h ++ u))) by (apply filter_In; split; [exact Hx|lia]). rewrite Q in Z. exact Z.
    + assert (Y : In y (filter (fun x => sub_type x =? 5) (h ++ u))) by (rewrite Q; now left). apply filter_In in Y as [Y1 Y2]. cbn beta in Y2.
      assert (Wy : well_classed y) by (apply in_app_iff in Y1 as [Y1|Y1]; rewrite Forall_forall in *; auto).
      destruct (T y Wy ltac:(lia)) as (c & d & a & ->). cbn [map]. split.
      * cbn [obj_of]. unfold need. cbn [so_dict look]. destruct (attr_eq_dec (snd (getter p)) ADepth); [contradiction|]. destruct (attr_eq_dec (snd (getter p)) AAmount); [contradiction|]. reflexivity.
      * eexists. split; [reflexivity|]. unfold written, sig_obj_of. cbn [so_hashed so_unhashed]. rewrite (M h Fh). cbn [bind]. rewrite (M u Fu). reflexivity.
  - intros N. destruct (filter (fun x => sub_type x =? 5) (h ++ u)) as [|y l] eqn:Q.
    + cbn [map]. split; [reflexivity|]. unfold add_values, new_sub. cbn [Z.eqb Pos.eqb orb]. reflexivity.
    + exfalso. assert (Y : In y (filter (fun x => sub_type x =? 5) (h ++ u))) by (rewrite Q; now left). apply filter_In in Y as [Y1 Y2]. apply N. exists y. split; [exact Y1|]. cbn beta in Y2. lia.
Qed.
Print Assumptions c50_trust_refuted.
Example c50_trust_example : has_sub ex_h ex_u 5 /\ ~ has_sub ex_h [] 5.
Proof. split; [exists (Sub 5 false (SbTrust 1 60)); split; [cbn; tauto|reflexivity]|]. intros (x & H & E). cbn in H. repeat destruct H as [<-|H]; try discriminate E; try contradiction. Qed.

(** Refuted: the revocation code cannot be assigned unless there is one already, and a reason that is there reads as None. *)
Theorem c50_revocation_refuted s v : (get_subs s 29 = [] -> set_prop s P_revocation_code v = Err TypeError) /\
  (get_subs s 5 = [] -> get_prop s P_revocation_reason = Ok VNone).
Proof. split; intros G; [unfold set_prop, update_values|unfold get_prop, get_value]; cbn [setter getter fst snd]; rewrite G; reflexivity. Qed.
Print Assumptions c50_revocation_refuted.
Example c50_revocation_example : get_prop (sig_obj_of [Sub 29 false (SbReason 1 [111; 108; 100])] []) P_revocation_reason = Ok VNone /\ get_prop (sig_obj_of [Sub 29 false (SbReason 1 [111; 108; 100])] []) P_revocation_code = Ok (VInt 1).
Proof. split; reflexivity. Qed.

(** Refuted: None does not clear. The attribute reads None, but the subpacket stays: a truth value is written as false, a text or a preference
    list cannot be written any more. *)
Theorem c50_none_refuted s p s' : In p (single ++ own_flags) -> set_prop s p VNone = Ok s' ->
  get_prop s' p = Ok VNone /\ get_subs s' (fst (getter p)) <> [].
Proof.
  intros I E. unfold set_prop in E. rewrite (set_setter p I) in E. split; [exact (update_get _ _ _ _ _ E)|].
  destruct (update_cases _ _ _ _ _ E) as [[N ->]|(G & o & No & ->)].
  - rewrite subs_updated, Z.eqb_refl. destruct (get_subs s (fst (getter p))); [contradiction|]. discriminate.
  - rewrite (subs_added_only s o _ (new_type _ _ _ _ No) G). discriminate.
Qed.
Print Assumptions c50_none_refuted.
Example c50_none_example : (do s <- set_prop (sig_obj_of [Sub 4 false (SbBool true)] []) P_exportable VNone;; written s) = Ok ([Sub 4 false (SbBool false)], []) /\
  (do s <- set_prop (sig_obj_of [Sub 26 false (SbUri [104])] []) P_policy_uri VNone;; written s) = Err AttributeError.
Proof. split; reflexivity. Qed.

(** Issuer key ids: the empty list clears them, whatever order the set is enumerated in, and nothing else changes. *)
Theorem c50_issuer_clear fl s h u existing order : from_packet s h u -> Forall issuers_ok (h ++ u) -> get_issuer_key_ids s = Ok existing -> union_of [] existing order ->
  exists s', set_issuer_key_ids fl s [] order = Ok s' /\ get_issuer_key_ids s' = Ok [] /\ forall ty, ty <> 16 -> get_subs s' ty = get_subs s ty.
Proof.
  intros F I G [_ U]. apply (clear_issuers fl s order existing (from_packet_good s h u F I) G). intros k. rewrite (U k). cbn. tauto.
Qed.
Print Assumptions c50_issuer_clear.
(** A list that is not empty is added to the ones already there: as a set they are the union. So from none the assignment is right ... *)
Theorem c50_issuer_assign fl s h u new existing order : from_packet s h u -> Forall issuers_ok (h ++ u) -> get_issuer_key_ids s = Ok existing -> Forall key_id_text new ->
  new <> [] -> union_of new existing order ->
  exists s' l, set_issuer_key_ids fl s new order = Ok s' /\ get_issuer_key_ids s' = Ok l /\ (forall k, In k l <-> In k new \/ In k existing) /\ (existing = [] -> l = order) /\
  forall ty, ty <> 16 -> get_subs s' ty = get_subs s ty.
Proof. intros F I G K N U. exact (add_issuers fl s new order existing (from_packet_good s h u F I) G (or_introl N) U K). Qed.
Print Assumptions c50_issuer_assign.
(** ... and refuted otherwise: a key id that was there before and is not in the list stays. *)
Theorem c50_issuer_replace_refuted fl s h u new existing order k : from_packet s h u -> Forall issuers_ok (h ++ u) -> get_issuer_key_ids s = Ok existing -> Forall key_id_text new ->
  new <> [] -> union_of new existing order -> In k existing -> ~ In k new ->
  exists s' l, set_issuer_key_ids fl s new order = Ok s' /\ get_issuer_key_ids s' = Ok l /\ In k l.
Proof.
  intros F I G K N U Hk _. destruct (c50_issuer_assign fl s h u new existing order F I G K N U) as (s' & l & A & B & C & _). exists s', l. split; [exact A|]. split; [exact B|]. apply C. now right.
Qed.
Print Assumptions c50_issuer_replace_refuted.
Example c50_issuer_example : Forall issuers_ok (ex_h ++ ex_u) /\ get_issuer_key_ids ex_s = Ok [hex_text [1; 2; 3; 4; 5; 6; 7; 8]; hex_text [8; 7; 6; 5; 4; 3; 2; 1]] /\
  (do s <- set_issuer_key_ids (fun _ => 0) ex_s [] [hex_text [8; 7; 6; 5; 4; 3; 2; 1]; hex_text [1; 2; 3; 4; 5; 6; 7; 8]];; get_issuer_key_ids s) = Ok [] /\
  (do s <- set_issuer_key_ids (fun _ => 0) ex_s [hex_text [9; 9; 9; 9; 9; 9; 9; 9]] [hex_text [8; 7; 6; 5; 4; 3; 2; 1]; hex_text [9; 9; 9; 9; 9; 9; 9; 9]; hex_text [1; 2; 3; 4; 5; 6; 7; 8]];; get_issuer_key_ids s) =
    Ok [hex_text [1; 2; 3; 4; 5; 6; 7; 8]; hex_text [9; 9; 9; 9; 9; 9; 9; 9]; hex_text [8; 7; 6; 5; 4; 3; 2; 1]].
Proof.
  split; [repeat constructor; cbn; try exact I; [exists [1; 2; 3; 4; 5; 6; 7; 8]|exists [8; 7; 6; 5; 4; 3; 2; 1]]; (split; [repeat constructor; lia|]; split; reflexivity)|].
  split; [reflexivity|]. split; vm_compute; reflexivity.
Qed.

(** The expiration time: a time after the creation time, in whole seconds, reads back; an earlier one is refused; the creation time stays. *)
Theorem c50_expiration local s c n : get_creation_time local s = Ok c ->
  (0 < n -> exists s', set_expiration_time local s (Some (c + n * 1000000)) = Ok s' /\ get_expiration_time local s' = Ok (Some (c + n * 1000000)) /\ get_creation_time local s' = Ok c) /\
  (forall dt, dt < c -> set_expiration_time local s (Some dt) = Err ValueError).
Proof.
  intros C. split.
  - intros Hn. unfold set_expiration_time. rewrite C. cbn [bind]. replace (c + n * 1000000 <? c) with false by lia. replace ((c + n * 1000000 - c) / 1000000) with n.
    2:{ replace (c + n * 1000000 - c) with (n * 1000000) by lia. rewrite Z.div_mul by lia. reflexivity. }
    assert (exists s', update_values s 3 ATime (VInt n) = Ok s') as (s' & E). { unfold update_values. destruct (get_subs s 3); eexists; reflexivity. }
    assert (C' : get_creation_time local s' = Ok c). { rewrite <- C. unfold get_creation_time, get_value. rewrite (update_other_type _ _ _ _ _ 2 E) by lia. reflexivity. }
    exists s'. split; [exact E|]. split; [|exact C']. unfold get_expiration_time. rewrite (update_get _ _ _ _ _ E). cbn [bind truthy as_int]. replace (negb (negb (n =? 0))) with false by lia. rewrite C'. reflexivity.
  - intros dt L. unfold set_expiration_time. rewrite C. cbn [bind]. replace (dt <? c) with true by lia. reflexivity.
Qed.
Print Assumptions c50_expiration.
Example c50_expiration_example : get_creation_time (fun t => Ok (t * 1000000)) ex_s = Ok 100000000.
Proof. reflexivity. Qed.
(** Refuted: None leaves the expiration time as it was. *)
Theorem c50_expiration_none_refuted local s : set_expiration_time local s None = Ok s.
Proof. reflexivity. Qed.
Print Assumptions c50_expiration_none_refuted.
Example c50_expiration_none_example : (do s <- set_expiration_time (fun t => Ok (t * 1000000)) (sig_obj_of [Sub 2 false (SbTime 100); Sub 3 false (SbTime 60)] []) None;; get_expiration_time (fun t => Ok (t * 1000000)) s) = Ok (Some 160000000).
Proof. reflexivity. Qed.
(** Refuted: assigning the creation time always fails. *)
Theorem c50_creation_time_refuted s dt : set_creation_time s dt = Err AttributeError.
Proof. reflexivity. Qed.
Print Assumptions c50_creation_time_refuted.
