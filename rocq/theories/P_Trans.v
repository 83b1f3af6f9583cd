(** C38, C39: transferable keys. *)
From Verif Require Import Base BaseProofs Utils Framing Text Armor S2k SessionKeys KeyPackets SigPackets DataPackets UserAttr Packets TransKey SpecTrans TransProofs TransRound.

Definition ex_pub (v : Z) (e : option Z) : pubkey := PubKey v 1000 1 e (Some 3233) (Some 17) None None None None.
Definition ex_key : pkt := Pkt NewH (BPub false (ex_pub 4 None)).
Definition ex_subkey : pkt := Pkt NewH (BPub true (ex_pub 4 None)).
Definition ex_uid (c : Z) : pkt := Pkt NewH (BData (PUserId [c])).
Definition ex_attr (l : list attr) : pkt := Pkt NewH (BAttr l).
Definition ex_trust : pkt := Pkt NewH (BData (PTrust 1 None)).
Definition ex_sig (t : Z) : pkt := Pkt NewH (BSig (SigV4 4 t 1 8 [0; 0] [5] [] [])).
Definition ex_list : list pkt := [ex_key; ex_sig 31; ex_uid 65; ex_sig 19; ex_sig 16; ex_uid 66; ex_attr [AImage 1 16 (Some 1) [7]]; ex_sig 19; ex_subkey; ex_sig 24].

(** ** C38 *)
(** The lists accepted are exactly those of the language of SpecTrans.well_formed. *)
Theorem c38_accepts_iff secret l : validate_key secret l = Ok tt <-> well_formed secret l.
Proof. split; [apply accepted_well_formed|apply well_formed_accepted]. Qed.
Print Assumptions c38_accepts_iff.
Example c38_accepts_iff_ex : validate_key false (ex_list ++ [ex_trust]) = Ok tt /\ validate_key false [ex_key; ex_attr []; ex_uid 65] = Err InvalidKeyPacketOrder /\ validate_key false [ex_uid 65] = Err InvalidKeyPacketOrder /\
  validate_key false [ex_key; ex_uid 65; ex_sig 24] = Err InvalidKeyPacketOrder /\ validate_key false [ex_key; ex_sig 19] = Err InvalidKeyPacketOrder.
Proof. repeat split. Qed.

(** Every list of RFC 4880 11.1 without subkey revocations is accepted. Missing: lists with subkey revocations, and trust packets. *)
Lemma concat_flat f (us : list (list pkt)) : (forall u, In u us -> flat [f u] = u) -> flat (map f us) = concat us.
Proof. induction us as [|u us IH]; intros H; [reflexivity|]. cbn [map concat]. change (flat (f u :: map f us)) with (flat ([f u] ++ map f us)). rewrite flat_app, IH by (intros; apply H; now right). now rewrite (H u (or_introl eq_refl)). Qed.
Definition grouped (u : list pkt) : pkt * sgs := match u with p :: ss => (p, map (fun s => (s, [])) ss) | [] => (ex_key, []) end.
Lemma flat_plain ss : flat_sgs (map (fun s => (s, [])) ss) = ss.
Proof. induction ss as [|s ss IH]; [reflexivity|]. unfold flat_sgs in *. cbn [map flat_map fst snd app]. now rewrite IH. Qed.
Lemma grouped_flat p ss : flat [grouped (p :: ss)] = p :: ss.
Proof. unfold grouped. now rewrite flat_one, flat_plain. Qed.
Lemma grouped_types t us : Forall (fun u => exists p cs, u = p :: cs /\ pkt_type p = t) us -> map (fun g => pkt_type (fst g)) (map grouped us) = repeat t (length us).
Proof. induction 1 as [|u us (p & cs & -> & T) F IH]; [reflexivity|]. cbn [map length repeat grouped fst]. now rewrite IH, T. Qed.
Theorem c38_rfc_partial secret l : rfc_key secret l -> (forall p, In p l -> pkt_type p = 2 -> sig_ty p <> 40) -> validate_key secret l = Ok tt.
Proof.
  intros (k & ss & us & uas & subs & v & -> & Tk & Hv & Fs & _ & Fu & Fa & Fb & V) N. apply well_formed_accepted. pose proof (kt_st secret) as KS.
  exists k, (map (fun s => (s, [])) ss), (map grouped us ++ map grouped uas ++ map grouped subs), (length us), (length uas), (length subs), v.
  assert (Ok1 : forall (s : pkt) t tys, allowed secret t = tys -> pkt_type s = 2 -> In (sig_ty s) tys -> sig_with (allowed secret t) (s, [])). { intros s t tys <- T I. repeat split; cbn [fst snd]; auto. }
  assert (S40 : Forall (fun u => exists p s, u = [p; s] /\ pkt_type p = subkey_type secret /\ pkt_type s = 2 /\ sig_ty s = 24) subs).
  { apply Forall_forall. intros u Iu. rewrite Forall_forall in Fb. destruct (Fb u Iu) as (p & s & rs & Eu & T & T2 & T3 & [->|(r & -> & R1 & R2)]); [exists p, s; auto|]. exfalso. apply (N r); auto. right. rewrite !in_app_iff. right. right. right. apply in_concat. exists u. split; [exact Iu|]. rewrite Eu. cbn. auto. }
  split; [|split; [exact Tk|split; [exact Hv|split; [|split; [|split; [|split]]]]]].
  - change (flat ((k, map (fun s => (s, [])) ss) :: ?g)) with ((k :: flat_sgs (map (fun s => (s, [])) ss)) ++ flat g). rewrite flat_plain, !flat_app. cbn [app]. do 2 f_equal.
    rewrite !concat_flat; [reflexivity| | |]; intros u Iu.
    + rewrite Forall_forall in S40. destruct (S40 u Iu) as (p & s & -> & _). apply grouped_flat.
    + rewrite Forall_forall in Fa. destruct (Fa u Iu) as (p & cs & -> & _). apply grouped_flat.
    + rewrite Forall_forall in Fu. destruct (Fu u Iu) as (p & cs & -> & _). apply grouped_flat.
  - rewrite !map_app. rewrite (grouped_types 13), (grouped_types 17), (grouped_types (subkey_type secret)); [reflexivity| | |]; eapply Forall_impl.
    2: exact S40. 3: exact Fa. 4: exact Fu. all: cbn beta. + intros u (p & s & -> & T & _). eauto. + intros u (p & cs & -> & T & _). eauto. + intros u (p & cs & -> & T & _). eauto.
  - constructor.
    + unfold group_ok. cbn [fst snd]. rewrite Tk. apply Forall_map. eapply Forall_impl; [|exact Fs]. intros s [T I]. exact (Ok1 s _ _ (allowed_kt secret) T I).
    + rewrite !Forall_app. split; [|split]; apply Forall_map; eapply Forall_impl. 2: exact Fu. 3: exact Fa. 4: exact S40. all: cbn beta.
      * intros u (p & cs & -> & T & F). unfold group_ok, grouped. cbn [fst snd]. rewrite T. apply Forall_map. eapply Forall_impl; [|exact F]. intros s [T' I]. exact (Ok1 s _ _ (allowed_uid secret 13 (or_introl eq_refl)) T' I).
      * intros u (p & cs & -> & T & F). unfold group_ok, grouped. cbn [fst snd]. rewrite T. apply Forall_map. eapply Forall_impl; [|exact F]. intros s [T' I]. exact (Ok1 s _ _ (allowed_uid secret 17 (or_intror eq_refl)) T' I).
      * intros u (p & s & -> & T & T2 & T3). unfold group_ok, grouped. cbn [fst snd map]. rewrite T. constructor; [|constructor]. apply (Ok1 s _ _ (allowed_st secret) T2). left. now symmetry.
  - intros a x b Q _. apply Forall_forall. intros y Iy. assert (I : In y (map (fun s : pkt => (s, @nil pkt)) ss)) by (rewrite Q; apply in_app_iff; now left). apply in_map_iff in I as (s & <- & _). reflexivity.
  - intros g Ig Tg. rewrite !in_app_iff in Ig. destruct Ig as [Ig|[Ig|Ig]]; apply in_map_iff in Ig as (u & <- & Iu).
    + exfalso. rewrite Forall_forall in Fu. destruct (Fu u Iu) as (p & cs & -> & T & _). cbn [grouped fst] in Tg. destruct KS as [[_ S]|[_ S]]; lia.
    + exfalso. rewrite Forall_forall in Fa. destruct (Fa u Iu) as (p & cs & -> & T & _). cbn [grouped fst] in Tg. destruct KS as [[_ S]|[_ S]]; lia.
    + rewrite Forall_forall in S40. destruct (S40 u Iu) as (p & s & -> & _). discriminate.
  - intros C. apply V. intros ->. apply C. reflexivity.
Qed.
Print Assumptions c38_rfc_partial.
Ltac sigl := repeat (apply Forall_cons || apply Forall_nil); (split; [reflexivity|]); cbn; tauto.
Example c38_rfc_ex : rfc_key false ex_list /\ (forall p, In p ex_list -> pkt_type p = 2 -> sig_ty p <> 40) /\ validate_key false ex_list = Ok tt.
Proof.
  split; [|split; [|reflexivity]].
  - exists ex_key, [ex_sig 31], [[ex_uid 65; ex_sig 19; ex_sig 16]; [ex_uid 66]], [[ex_attr [AImage 1 16 (Some 1) [7]]; ex_sig 19]], [[ex_subkey; ex_sig 24]], 4.
    split; [reflexivity|]. split; [reflexivity|]. split; [reflexivity|]. split; [sigl|]. split; [discriminate|].
    split; [repeat (apply Forall_cons || apply Forall_nil); do 2 eexists; (split; [reflexivity|]); (split; [reflexivity|]); sigl|].
    split; [repeat (apply Forall_cons || apply Forall_nil); do 2 eexists; (split; [reflexivity|]); (split; [reflexivity|]); sigl|].
    split; [constructor; [exists ex_subkey, (ex_sig 24), []; repeat split; now left|constructor]|lia].
  - intros p I _. cbn in I. repeat destruct I as [<-|I]; try contradiction; discriminate.
Qed.

(** A list with a subkey revocation signature is never accepted. *)
Theorem c38_subkey_revocation_refuted secret l p : In p l -> pkt_type p = 2 -> sig_ty p = 40 -> validate_key secret l <> Ok tt.
Proof.
  intros I T2 T40 H. destruct (accepted_well_formed _ _ H) as (k & ss & gs & a & b & c & v & -> & Tk & Hv & Ts & F & _). unfold flat in I. apply in_flat_map in I as (g & Ig & I). pose proof (kt_st secret) as KS.
  assert (Tg : In (pkt_type (fst g)) [key_type secret; 13; 17; subkey_type secret]).
  { destruct Ig as [<-|Ig]; [cbn [fst]; rewrite Tk; now left|]. assert (J : In (pkt_type (fst g)) (repeat 13 a ++ repeat 17 b ++ repeat (subkey_type secret) c)) by (rewrite <- Ts; exact (in_map (fun g : pkt * sgs => pkt_type (fst g)) _ _ Ig)). rewrite !in_app_iff in J. destruct J as [J|[J|J]]; apply repeat_spec in J; rewrite J; cbn; auto. }
  destruct I as [<-|I]; [rewrite T2 in Tg; cbn in Tg; destruct KS as [[K S]|[K S]]; lia|]. rewrite Forall_forall in F. pose proof (F g Ig) as G. unfold group_ok in G. destruct (flat_sgs_types _ _ _ G I) as [[_ A]|A]; [|lia]. rewrite T40 in A.
  destruct Tg as [T|[T|[T|[T|[]]]]]; rewrite <- T in A; [rewrite allowed_kt in A|rewrite allowed_uid in A by auto|rewrite allowed_uid in A by auto|rewrite allowed_st in A]; cbn in A; lia.
Qed.
Print Assumptions c38_subkey_revocation_refuted.
Example c38_subkey_revocation_ex : rfc_key false [ex_key; ex_uid 65; ex_subkey; ex_sig 24; ex_sig 40] /\ validate_key false [ex_key; ex_uid 65; ex_subkey; ex_sig 24; ex_sig 40] = Err InvalidKeyPacketOrder.
Proof.
  split; [|reflexivity]. exists ex_key, [], [[ex_uid 65]], [], [[ex_subkey; ex_sig 24; ex_sig 40]], 4. split; [reflexivity|]. split; [reflexivity|]. split; [reflexivity|]. split; [constructor|]. split; [discriminate|].
  split; [constructor; [do 2 eexists; (split; [reflexivity|]); (split; [reflexivity|]); constructor|constructor]|]. split; [constructor|].
  split; [constructor; [exists ex_subkey, (ex_sig 24), [ex_sig 40]; repeat split; right; eexists; repeat split|constructor]|lia].
Qed.

(** A key without any user id is accepted. *)
Theorem c38_no_user_id_refuted secret k v : pkt_type k = key_type secret -> key_version k = Ok v -> validate_key secret [k] = Ok tt /\ ~ rfc_key secret [k].
Proof.
  intros T V. split.
  - apply well_formed_accepted. exists k, [], [], 0%nat, 0%nat, 0%nat, v. split; [reflexivity|]. split; [exact T|]. split; [exact V|]. split; [reflexivity|]. split; [constructor; [constructor|constructor]|]. split; [|split; [intros g []|congruence]]. intros a x b Q. destruct a; discriminate Q.
  - intros (k' & ss & us & uas & subs & v' & E & _ & _ & _ & N & Fu & _). destruct us as [|u us]; [congruence|]. destruct (Forall_inv Fu) as (p & cs & -> & _). injection E as _ E. destruct ss; discriminate E.
Qed.
Print Assumptions c38_no_user_id_refuted.
Example c38_no_user_id_ex : pkt_type ex_key = key_type false /\ key_version ex_key = Ok 4 /\ validate_key false [ex_key] = Ok tt.
Proof. repeat split. Qed.

(** A subkey at the end of an accepted list does not give the documented exceptions but an IndexError, as does the empty list. *)
Lemma step_none secret v pre x n : step secret v pre x None = Ok tt -> step secret v pre x n = Ok tt.
Proof.
  unfold step. intros H. destruct (pkt_type x =? key_type secret); [exact H|]. destruct (pkt_type x =? 2); [exact H|]. destruct (pkt_type x =? 13); [exact H|]. destruct (pkt_type x =? 17); [exact H|].
  destruct ((pkt_type x =? 14) || (pkt_type x =? 7)); [destruct (v <? 4); discriminate H|exact H].
Qed.
Lemma vf_snoc secret v s l : forall pre, validate_from secret v pre l = Ok tt -> validate_from secret v pre (l ++ [s]) = step secret v (pre ++ l) s None.
Proof.
  induction l as [|x l IH]; intros pre H.
  - cbn [app validate_from hd_error]. rewrite app_nil_r. destruct (step secret v pre s None) as [[]|e]; reflexivity.
  - cbn [app validate_from] in *. apply bind_ok in H as ([] & Hs & H). assert (E : step secret v pre x (hd_error (l ++ [s])) = Ok tt) by (destruct l; [apply step_none; exact Hs|exact Hs]). rewrite E. cbn [bind]. rewrite (IH _ H), <- app_assoc. reflexivity.
Qed.
Theorem c38_trailing_subkey secret l s k r v : l = k :: r -> validate_key secret l = Ok tt -> key_version k = Ok v -> 4 <= v -> pkt_type s = subkey_type secret ->
  validate_key secret (l ++ [s]) = Err IndexError /\ validate_key secret [] = Err IndexError.
Proof.
  intros -> H Hv V T. split; [|reflexivity]. change ((k :: r) ++ [s]) with (k :: r ++ [s]). unfold validate_key in *. destruct (negb (pkt_type k =? key_type secret)); [discriminate H|]. rewrite Hv in *. cbn [bind] in *.
  change (k :: r ++ [s]) with ((k :: r) ++ [s]). rewrite (vf_snoc _ _ _ _ _ H). unfold step. rewrite T. replace (v <? 4) with false by lia. destruct secret; reflexivity.
Qed.
Print Assumptions c38_trailing_subkey.
Example c38_trailing_subkey_ex : validate_key false ex_list = Ok tt /\ validate_key false (ex_list ++ [ex_subkey]) = Err IndexError.
Proof. split; reflexivity. Qed.

(** ** C39 *)
(** Packets that keep everything come back unchanged, in order. Missing: trust packets, version 3 keys and signatures, other attributes. *)
Theorem c39_round_trip_partial local mktime magic secret l : validate_key secret l = Ok tt -> (forall p, In p l -> pkt_type p <> 12) -> Forall (kept local mktime secret) l ->
  exists o, from_packets local magic secret l = Ok o /\ to_packets mktime o = Ok l.
Proof. intros V N K. destruct (round_trust local mktime magic secret l []) as (o & H1 & H2); auto; [now rewrite app_nil_r|]. rewrite app_nil_r in H1. eauto. Qed.
Print Assumptions c39_round_trip_partial.
Lemma ex_kept : Forall (kept (fun t => Ok t) (fun t => Ok t) false) ex_list.
Proof.
  assert (K : kept_key (fun t => Ok t) (fun t => Ok t) (ex_pub 4 None)). { split; [cbn; lia|]. split; [reflexivity|]. eexists. split; reflexivity. }
  unfold ex_list. repeat apply Forall_cons; try apply Forall_nil; cbn; try lia; auto; eexists; reflexivity.
Qed.
Example c39_round_trip_ex : validate_key false ex_list = Ok tt /\ (forall p, In p ex_list -> pkt_type p <> 12) /\ Forall (kept (fun t => Ok t) (fun t => Ok t) false) ex_list.
Proof. split; [reflexivity|]. split; [|exact ex_kept]. intros p I. cbn in I. repeat destruct I as [<-|I]; try contradiction; discriminate. Qed.

(** What stands after the first trust packet is lost, user ids and subkeys included. *)
Theorem c39_trust_refuted local mktime magic secret l t r : validate_key secret (l ++ t :: r) = Ok tt -> pkt_type t = 12 -> (forall p, In p l -> pkt_type p <> 12) -> Forall (kept local mktime secret) l ->
  exists o, from_packets local magic secret (l ++ t :: r) = Ok o /\ to_packets mktime o = Ok l.
Proof. intros V T N K. exact (round_trust local mktime magic secret l (t :: r) V T N K). Qed.
Print Assumptions c39_trust_refuted.
Example c39_trust_ex : (do o <- from_packets (fun t => Ok t) (fun _ => []) false [ex_key; ex_uid 65; ex_sig 19; ex_trust; ex_uid 66; ex_sig 19; ex_subkey; ex_sig 24];; to_packets (fun t => Ok t) o) = Ok [ex_key; ex_uid 65; ex_sig 19].
Proof. reflexivity. Qed.

(** A version 3 key loses its lifetime, and can then not be written. *)
Theorem c39_version3_key_refuted local mktime magic f v ct alg e n x p q g y d ct' : is_v23 v = true -> local ct = Ok d -> mktime d = Ok ct' ->
  let key := Pkt f (BPub false (PubKey v ct alg e n x p q g y)) in let back := Pkt f (BPub false (PubKey v ct' alg None n x p q g y)) in
  (do o <- from_packets local magic false [key];; to_packets mktime o) = Ok [back] /\ forall fl rec, pkt_bytes fl rec back = Err TypeError.
Proof.
  intros V L M key back. assert (V4 : (v <? 4) = true) by (unfold is_v23 in V; lia). split.
  - assert (A : validate_key false [key] = Ok tt) by reflexivity. unfold from_packets. rewrite A. cbn [bind key_from key p_body p_fmt]. unfold key_from_pub. cbn [k_ctime k_version k_exp]. rewrite L. cbn [bind]. rewrite V4. cbn [span_sigs mapM bind length spans to_packets tk_key tk_sigs tk_uids tk_attrs tk_subs concat app].
    unfold to_packets. cbn [tk_key tk_sigs tk_uids tk_attrs tk_subs mapM bind concat app]. unfold key_to. cbn [ko_created ko_pub ko_expires ko_sec ko_fmt k_version]. rewrite M. cbn [bind]. rewrite V4, V. reflexivity.
  - intros fl rec. unfold pkt_bytes, back. cbn [p_body body_content]. unfold pub_content. cbn [k_version k_exp]. rewrite V. assert (B : mk_bytes [v] = Ok [v]) by (unfold is_v23 in V; assert (v = 2 \/ v = 3) as [->| ->] by lia; reflexivity). rewrite B. reflexivity.
Qed.
Print Assumptions c39_version3_key_refuted.
Example c39_version3_key_ex : is_v23 3 = true /\ (do o <- from_packets (fun t => Ok t) (fun _ => []) false [Pkt OldH (BPub false (ex_pub 3 (Some 30)))];; to_packets (fun t => Ok t) o) = Ok [Pkt OldH (BPub false (ex_pub 3 None))].
Proof. split; reflexivity. Qed.

(** A key with a version 3 signature is read, but can never be written back. *)
Theorem c39_version3_sig_refuted local mktime magic secret l s o v t pk h h2 vs ct kid : (forall q, In q l -> pkt_type q <> 12) -> In s l -> p_body s = BSig (SigV3 v t pk h h2 vs ct kid) ->
  from_packets local magic secret l = Ok o -> forall r, to_packets mktime o <> Ok r.
Proof. intros N I E H. apply (old_never local mktime magic secret l s o N I); [|exact H]. do 8 eexists. exact E. Qed.
Print Assumptions c39_version3_sig_refuted.
Definition ex_sig3 (t : Z) : pkt := Pkt NewH (BSig (SigV3 3 t 1 8 [0; 0] [5] 1000 [])).
Example c39_version3_sig_ex : (exists o, from_packets (fun t => Ok t) (fun _ => []) false [ex_key; ex_uid 65; ex_sig3 16] = Ok o) /\ (do o <- from_packets (fun t => Ok t) (fun _ => []) false [ex_key; ex_uid 65; ex_sig3 16];; to_packets (fun t => Ok t) o) = Err TypeError.
Proof. split; [eexists; reflexivity|reflexivity]. Qed.

(** An image in another format than JPEG comes back with image format 101 and a header of 16 octets; any other attribute cannot be read. *)
Theorem c39_attribute_refuted local mktime magic f hv hl fmt d sub k r c ct : r = ex_attr [AImage hv hl (Some fmt) d] -> fmt <> 1 -> magic (slice d 0 1024) = [105; 109; 97; 103; 101; 47] ++ sub -> slice_from (magic (slice d 0 1024)) (-5) <> [47; 106; 112; 101; 103] ->
  4 <= k_version k -> local (k_ctime k) = Ok c -> mktime c = Ok ct ->
  (exists o k', from_packets local magic false [Pkt f (BPub false k); r] = Ok o /\ to_packets mktime o = Ok [Pkt f (BPub false k'); ex_attr [AImage 1 16 (Some 101) d]]) /\
  forall ty, from_packets local magic false [Pkt f (BPub false k); ex_attr [AUnknown ty]] = Err AttributeError.
Proof.
  intros -> N M Mj V L T. set (kp := Pkt f (BPub false k)).
  assert (A : forall a, validate_key false [kp; ex_attr a] = Ok tt) by reflexivity. unfold from_packets. setoid_rewrite A. cbn [bind key_from kp p_body p_fmt]. unfold key_from_pub. rewrite L. cbn [bind].
  split; [|reflexivity]. set (e := if k_version k <? 4 then None else _). do 2 eexists. split.
  - cbn. assert (It : item_from magic (AImage hv hl (Some fmt) d) = Ok (magic (slice d 0 1024), d)). { unfold item_from. destruct fmt as [|[?|?|]|?]; try reflexivity. congruence. }
    unfold with_sigs, attr_from. cbn [fst snd p_body ex_attr mapM bind]. rewrite It. cbn [bind p_fmt]. reflexivity.
  - unfold to_packets. cbn [tk_key tk_sigs tk_uids tk_attrs tk_subs mapM bind concat app]. unfold key_to. cbn [ko_created ko_pub ko_expires ko_sec ko_fmt]. rewrite T. cbn [bind]. replace (k_version k <? 4) with false by lia. cbn [andb bind].
    unfold emit, attr_to. cbn [fst snd mapM bind]. unfold item_to. cbn [fst snd]. rewrite (zlist_eqb_neq _ _ Mj). rewrite M.
    replace (slice ([105; 109; 97; 103; 101; 47] ++ sub) 0 6) with [105; 109; 97; 103; 101; 47]; [reflexivity|]. symmetry. apply (slice_app' [] [105; 109; 97; 103; 101; 47] sub); reflexivity.
Qed.
Print Assumptions c39_attribute_refuted.
Definition ex_png : text := [105; 109; 97; 103; 101; 47; 112; 110; 103].
Example c39_attribute_ex : (do o <- from_packets (fun t => Ok t) (fun _ => ex_png) false [ex_key; ex_attr [AImage 1 16 (Some 100) [1]]];; to_packets (fun t => Ok t) o) = Ok [ex_key; ex_attr [AImage 1 16 (Some 101) [1]]].
Proof. reflexivity. Qed.
