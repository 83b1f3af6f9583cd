(** Proofs: transferable keys as objects and back. *)
From Verif Require Import Base BaseProofs Utils Framing Text Armor S2k SessionKeys KeyPackets SigPackets DataPackets UserAttr Packets TransKey SpecTrans TransProofs.

Lemma vf_prefix secret v u : forall pre w, validate_from secret v pre (u ++ w) = Ok tt -> (forall u' x, u = u' ++ [x] -> pkt_type x <> 14 /\ pkt_type x <> 7) -> validate_from secret v pre u = Ok tt.
Proof.
  induction u as [|x u IH]; intros pre w H L; [reflexivity|]. cbn [app validate_from] in *. apply bind_ok in H as (r & Hs & Hr). destruct r.
  assert (S : step secret v pre x (hd_error u) = Ok tt).
  { destruct u as [|y u]; [|exact Hs]. destruct (L [] x eq_refl) as [L1 L2]. unfold step in *. replace ((pkt_type x =? 14) || (pkt_type x =? 7)) with false in * by lia. exact Hs. }
  rewrite S. cbn [bind]. apply (IH _ w Hr). intros u' y Q. apply (L (x :: u')). now rewrite Q.
Qed.
(** what stands before a trust packet is itself a transferable key *)
Lemma before_trust secret pre t rest : validate_key secret (pre ++ t :: rest) = Ok tt -> pkt_type t = 12 -> (forall p, In p pre -> pkt_type p <> 12) -> validate_key secret pre = Ok tt.
Proof.
  intros H T N. destruct pre as [|k pre].
  { exfalso. cbn [app] in H. unfold validate_key in H. destruct (kt_st secret) as [[K _]|[K _]]; rewrite K, T in H; discriminate H. }
  cbn [app] in H. unfold validate_key in *. destruct (negb (pkt_type k =? key_type secret)); [discriminate H|]. apply bind_ok in H as (v & Hv & H). rewrite Hv. cbn [bind].
  change (k :: pre ++ t :: rest) with ((k :: pre) ++ t :: rest) in H. apply (vf_prefix _ _ _ _ _ H). intros u' x Q.
  assert (St : step secret v (k :: pre) t (hd_error rest) = Ok tt).
  { clear Q Hv N. revert H. generalize (k :: pre). intros l. replace l with ([] ++ l) at 2 by reflexivity. generalize (@nil pkt). induction l as [|y l IH]; intros p0 H; cbn [app validate_from] in H; apply bind_ok in H as (r & Hs & Hr); destruct r.
    - now rewrite app_nil_r.
    - specialize (IH _ Hr). rewrite <- app_assoc in IH. exact IH. }
  unfold step in St. rewrite T in St. replace (12 =? key_type secret) with false in St by (destruct (kt_st secret) as [[K _]|[K _]]; rewrite K; reflexivity).
  change (12 =? 2) with false in St. change (12 =? 13) with false in St. change (12 =? 17) with false in St. change ((12 =? 14) || (12 =? 7)) with false in St. change (12 =? 12) with true in St. cbn iota in St.
  rewrite Q in St. rewrite before_none in St; [|apply N; rewrite Q; apply in_app_iff; right; now left]. apply check_ok in St. lia.
Qed.

(** ** the loops *)
Definition stop (tys : list Z) (r : list pkt) : Prop := match r with [] => True | p :: _ => pkt_type p <> 2 /\ ~ In (pkt_type p) tys end.
Lemma span_sigs_app ss : forall r, Forall (fun p => pkt_type p = 2) ss -> stop [] r -> span_sigs (ss ++ r) = (ss, r).
Proof.
  induction ss as [|s ss IH]; intros r F S; cbn [app].
  - destruct r as [|p r]; [reflexivity|]. destruct S as [S _]. cbn [span_sigs]. replace (pkt_type p =? 2) with false by lia. reflexivity.
  - cbn [span_sigs]. replace (pkt_type s =? 2) with true by (pose proof (Forall_inv F) as Y; cbn beta in Y; lia). now rewrite (IH r (Forall_inv_tail F) S).
Qed.
Definition plain (g : pkt * sgs) : Prop := Forall (fun x => pkt_type (fst x) = 2 /\ snd x = []) (snd g).
Lemma plain_flat g : plain g -> Forall (fun p => pkt_type p = 2) (flat_sgs (snd g)).
Proof.
  intros F. apply Forall_forall. intros p I. unfold flat_sgs in I. apply in_flat_map in I as (x & Hx & I). unfold plain in F. rewrite Forall_forall in F. destruct (F x Hx) as [E1 E2]. rewrite E2 in I. destruct I as [<-|[]]. exact E1.
Qed.
Definition both (g : pkt * sgs) : pkt * list pkt := (fst g, flat_sgs (snd g)).
Lemma spans_flat tys gs : forall fuel r, Forall plain gs -> Forall (fun g => In (pkt_type (fst g)) tys /\ pkt_type (fst g) <> 2) gs -> stop tys r -> (length gs <= fuel)%nat ->
  spans fuel tys (flat gs ++ r) = (map both gs, r).
Proof.
  induction gs as [|[p ss] gs IH]; intros fuel r F T S L.
  - cbn [flat flat_map app map]. destruct fuel as [|f]; [reflexivity|]. destruct r as [|q r]; [reflexivity|]. cbn [spans]. destruct S as [_ S]. apply is_one_false in S. now rewrite S.
  - destruct fuel as [|f]; [cbn in L; lia|]. change (flat ((p, ss) :: gs)) with ((p :: flat_sgs ss) ++ flat gs). rewrite <- app_assoc. cbn [app spans].
    destruct (Forall_inv T) as [Tp _]. cbn [fst] in Tp. apply is_one_spec in Tp. rewrite Tp. rewrite span_sigs_app.
    + rewrite IH; [reflexivity|exact (Forall_inv_tail F)|exact (Forall_inv_tail T)|exact S|cbn in L; lia].
    + exact (plain_flat _ (Forall_inv F)).
    + destruct gs as [|[q qs] gs]; [cbn [flat flat_map app]; destruct r; [exact I|split; [apply S|intros []]]|]. cbn [flat flat_map app fst snd stop]. pose proof (Forall_inv_tail T) as T'. destruct (Forall_inv T') as [_ N]. split; [exact N|intros []].
Qed.
Lemma flat_length gs : (length gs <= length (flat gs))%nat.
Proof. induction gs as [|[p ss] gs IH]; [reflexivity|]. change (flat ((p, ss) :: gs)) with ((p :: flat_sgs ss) ++ flat gs). rewrite app_length. cbn [length]. lia. Qed.
(** ** each kind of packet *)
Section Conv.
Variables (local mktime : Z -> res Z) (magic : bytes -> text).
Lemma mapM_pair {A B C} (f : A -> res B) (g : B -> res C) (l : list A) (h : A -> C) : (forall a, In a l -> exists b, f a = Ok b /\ g b = Ok (h a)) -> exists r, mapM f l = Ok r /\ mapM g r = Ok (map h l).
Proof.
  induction l as [|a l IH]; intros H; [exists []; auto|]. destruct (H a (or_introl eq_refl)) as (b & E1 & E2). destruct IH as (r & E3 & E4); [intros x Hx; apply H; now right|]. exists (b :: r). cbn [mapM map]. rewrite E1, E2. cbn [bind]. rewrite E3, E4. auto.
Qed.
Lemma sig_round secret p : pkt_type p = 2 -> kept local mktime secret p -> exists s, sig_from local p = Ok s /\ sig_to s = Ok p.
Proof.
  intros T K. destruct p as [f b]. unfold pkt_type, kept in *. cbn [p_body] in *. destruct b as [| |?| |[|] ?|[|] ?| |[]]; cbn [body_type data_type] in T; try discriminate T; try contradiction.
  destruct s as [|ver t pk h h2 vs hs us]; [contradiction|]. unfold sig_from. cbn [p_body p_fmt]. replace (4 <=? ver) with true by lia. eexists. split; [reflexivity|]. reflexivity.
Qed.
Lemma sigs_round secret l : Forall (fun p => pkt_type p = 2) l -> Forall (kept local mktime secret) l -> exists s, mapM (sig_from local) l = Ok s /\ mapM sig_to s = Ok l.
Proof.
  intros T K. destruct (mapM_pair (sig_from local) sig_to l (fun p => p)) as (r & E1 & E2).
  - intros p I. rewrite Forall_forall in T, K. exact (sig_round secret p (T p I) (K p I)).
  - rewrite map_id in E2. eauto.
Qed.
Lemma group_round {A} (f : pkt -> res A) (g : A -> res pkt) secret gs : Forall plain gs -> (forall x p, In x gs -> In p (flat [x]) -> kept local mktime secret p) -> (forall x, In x gs -> exists a, f (fst x) = Ok a /\ g a = Ok (fst x)) ->
  exists r, mapM (with_sigs local f) (map both gs) = Ok r /\ exists ps, mapM (emit g) r = Ok ps /\ concat ps = flat gs.
Proof.
  intros P K H. destruct (mapM_pair (with_sigs local f) (emit g) (map both gs) (fun x => fst x :: snd x)) as (r & E1 & E2).
  - intros y I. apply in_map_iff in I as (x & <- & Ix). destruct (H x Ix) as (a & A1 & A2). rewrite Forall_forall in P. unfold with_sigs, both, emit. cbn [fst snd]. rewrite A1. cbn [bind].
    destruct (sigs_round secret (flat_sgs (snd x)) (plain_flat _ (P x Ix))) as (s & S1 & S2). { apply Forall_forall. intros p Ip. apply (K x p Ix). destruct x as [q qs]. rewrite flat_one. now right. }
    rewrite S1. cbn [bind]. eexists. split; [reflexivity|]. cbn [fst snd]. rewrite A2. cbn [bind]. rewrite S2. reflexivity.
  - exists r. split; [exact E1|]. eexists. split; [exact E2|]. rewrite map_map. clear. induction gs as [|[p ss] gs IH]; [reflexivity|]. cbn [map concat]. rewrite IH. reflexivity.
Qed.
Lemma uid_round secret p : pkt_type p = 13 -> kept local mktime secret p -> exists a, uid_from p = Ok a /\ uid_to a = Ok p.
Proof.
  intros T K. destruct p as [f b]. unfold pkt_type, kept in *. cbn [p_body] in *. destruct b as [| |?| |[|] ?|[|] ?| |[]]; cbn [body_type data_type] in T; try discriminate T; try contradiction.
  eexists. split; [reflexivity|]. reflexivity.
Qed.
Lemma attr_round secret p : pkt_type p = 17 -> kept local mktime secret p -> exists a, attr_from magic p = Ok a /\ attr_to a = Ok p.
Proof.
  intros T K. destruct p as [f b]. unfold pkt_type, kept in *. cbn [p_body] in *. destruct b as [| |?| |[|] ?|[|] ?|l|[]]; cbn [body_type data_type] in T; try discriminate T; try contradiction.
  destruct (mapM_pair (item_from magic) item_to l (fun a => a)) as (r & E1 & E2). { intros a I. rewrite Forall_forall in K. destruct (K a I) as (d & ->). eexists. split; [reflexivity|]. reflexivity. }
  rewrite map_id in E2. unfold attr_from, attr_to. cbn [p_body p_fmt]. rewrite E1. cbn [bind]. eexists. split; [reflexivity|]. cbn [fst snd]. rewrite E2. reflexivity.
Qed.
Lemma key_round secret (sub : bool) p : pkt_type p = (if sub then subkey_type secret else key_type secret) -> kept local mktime secret p -> exists a, key_from local secret p = Ok a /\ key_to mktime sub a = Ok p.
Proof.
  intros T K. destruct p as [f b]. unfold pkt_type, kept in *. cbn [p_body] in *.
  assert (KP : forall k, kept_key local mktime k -> forall sec, exists a, key_from_pub local f k sec = Ok a /\ key_to mktime sub a = match sec with None => Ok (Pkt f (BPub sub k)) | Some s => match s_s2k s with None => Err ValueError | Some _ => Ok (Pkt f (BSec sub (SecKey k (s_s2k s) (s_sym s) (s_iv s) (s_enc s) (s_checksum s) (s_hash s)))) end end).
  { intros k (V & X & d & L1 & L2) sec. unfold key_from_pub. rewrite L1. cbn [bind]. eexists. split; [reflexivity|]. unfold key_to. cbn [ko_created ko_pub ko_sec ko_fmt]. rewrite L2. cbn [bind]. replace (k_version k <? 4) with false by lia. cbn [andb bind].
    destruct k. cbn [KeyPackets.k_exp KeyPackets.k_ctime KeyPackets.k_version KeyPackets.k_alg KeyPackets.k_n KeyPackets.k_e KeyPackets.k_p KeyPackets.k_q KeyPackets.k_g KeyPackets.k_y] in *. subst. reflexivity. }
  destruct b as [| | | |s k|s k|l|d]; try (destruct secret, sub; cbn in T; discriminate T).
  - destruct K as (-> & KK & s2 & S2). destruct (KP _ KK (Some k)) as (a & A1 & A2). exists a. unfold key_from. cbn [p_body p_fmt]. split; [exact A1|]. rewrite A2, S2. destruct s, sub; try discriminate T; destruct k; cbn in *; subst; reflexivity.
  - destruct K as (-> & KK). destruct (KP _ KK None) as (a & A1 & A2). exists a. unfold key_from. cbn [p_body p_fmt]. split; [exact A1|]. rewrite A2. destruct s, sub; try discriminate T; reflexivity.
  - destruct d; try contradiction; destruct secret, sub; cbn in T; discriminate T.
Qed.
Lemma from_shape secret k ss gA gB gC r : validate_key secret (flat ((k, ss) :: gA ++ gB ++ gC) ++ r) = Ok tt ->
  Forall plain ((k, ss) :: gA ++ gB ++ gC) -> Forall (fun g => pkt_type (fst g) = 13) gA -> Forall (fun g => pkt_type (fst g) = 17) gB -> Forall (fun g => pkt_type (fst g) = subkey_type secret) gC ->
  match r with [] => True | t :: _ => pkt_type t = 12 end ->
  from_packets local magic secret (flat ((k, ss) :: gA ++ gB ++ gC) ++ r) =
    (do k <- key_from local secret k;; do sigs <- mapM (sig_from local) (flat_sgs ss);; do uids <- mapM (with_sigs local uid_from) (map both gA);; do attrs <- mapM (with_sigs local (attr_from magic)) (map both gB);;
     do subs <- mapM (with_sigs local (key_from local secret)) (map both gC);; Ok (TKey secret k sigs uids attrs subs)).
Proof.
  intros V P TA TB TC R. pose proof (kt_st secret) as KS. unfold from_packets. rewrite V. cbn [bind].
  change (flat ((k, ss) :: gA ++ gB ++ gC) ++ r) with (k :: (flat_sgs ss ++ flat (gA ++ gB ++ gC)) ++ r). cbn iota.
  assert (PA : Forall plain gA /\ Forall plain gB /\ Forall plain gC). { pose proof (Forall_inv_tail P) as P'. apply Forall_app in P' as [PA P']. apply Forall_app in P' as [PB PC]. auto. } destruct PA as (PA & PB & PC).
  assert (StR : forall tys, ~ In 12 tys -> stop tys r). { intros tys N. destruct r as [|t r0]; [exact I|]. split; [lia|now rewrite R]. }
  assert (StC : forall tys, ~ In 12 tys -> ~ In (subkey_type secret) tys -> stop tys (flat gC ++ r)).
  { intros tys N1 N2. destruct gC as [|[q qs] gC']; [exact (StR tys N1)|]. cbn [flat flat_map app fst snd stop]. pose proof (Forall_inv TC) as Tq. cbn [fst] in Tq. rewrite Tq. split; [destruct KS as [[_ S]|[_ S]]; lia|exact N2]. }
  assert (StB : forall tys, ~ In 12 tys -> ~ In (subkey_type secret) tys -> ~ In 17 tys -> stop tys (flat gB ++ flat gC ++ r)).
  { intros tys N1 N2 N3. destruct gB as [|[q qs] gB']; [exact (StC tys N1 N2)|]. cbn [flat flat_map app fst snd stop]. pose proof (Forall_inv TB) as Tq. cbn [fst] in Tq. rewrite Tq. split; [lia|exact N3]. }
  assert (StA : stop [] (flat gA ++ flat gB ++ flat gC ++ r)).
  { destruct gA as [|[q qs] gA']; [apply StB; intros []|]. cbn [flat flat_map app fst snd stop]. pose proof (Forall_inv TA) as Tq. cbn [fst] in Tq. rewrite Tq. split; [lia|intros []]. }
  rewrite !flat_app, <- !app_assoc. destruct (key_from local secret k) as [ko|e]; [|reflexivity]. cbn [bind]. rewrite span_sigs_app; [|exact (plain_flat _ (Forall_inv P))|exact StA].
  destruct (mapM (sig_from local) (flat_sgs ss)) as [so|e]; [|reflexivity]. cbn [bind]. rewrite spans_flat; [|exact PA| | |].
  2:{ eapply Forall_impl; [|exact TA]. intros g E. cbn beta in E. rewrite E. split; [now left|lia]. }
  2:{ apply StB; cbn; destruct KS as [[_ S]|[_ S]]; lia. }
  2:{ rewrite app_length. pose proof (flat_length gA). lia. }
  destruct (mapM (with_sigs local uid_from) (map both gA)) as [ua|e]; [|reflexivity]. cbn [bind]. rewrite spans_flat; [|exact PB| | |].
  2:{ eapply Forall_impl; [|exact TB]. intros g E. cbn beta in E. rewrite E. split; [now left|lia]. }
  2:{ apply StC; cbn; destruct KS as [[_ S]|[_ S]]; lia. }
  2:{ rewrite app_length. pose proof (flat_length gB). lia. }
  destruct (mapM (with_sigs local (attr_from magic)) (map both gB)) as [va|e]; [|reflexivity]. cbn [bind]. rewrite spans_flat; [reflexivity|exact PC| | |].
  - eapply Forall_impl; [|exact TC]. intros g E. cbn beta in E. rewrite E. cbn. destruct KS as [[_ S]|[_ S]]; lia.
  - apply StR. cbn. lia.
  - rewrite app_length. pose proof (flat_length gC). lia.
Qed.
Lemma from_groups secret k ss gA gB gC r : validate_key secret (flat ((k, ss) :: gA ++ gB ++ gC) ++ r) = Ok tt -> pkt_type k = key_type secret ->
  Forall plain ((k, ss) :: gA ++ gB ++ gC) -> Forall (fun g => pkt_type (fst g) = 13) gA -> Forall (fun g => pkt_type (fst g) = 17) gB -> Forall (fun g => pkt_type (fst g) = subkey_type secret) gC ->
  match r with [] => True | t :: _ => pkt_type t = 12 end -> Forall (kept local mktime secret) (flat ((k, ss) :: gA ++ gB ++ gC)) ->
  exists o, from_packets local magic secret (flat ((k, ss) :: gA ++ gB ++ gC) ++ r) = Ok o /\ to_packets mktime o = Ok (flat ((k, ss) :: gA ++ gB ++ gC)).
Proof.
  intros V Tk P TA TB TC R K. rewrite (from_shape secret k ss gA gB gC r V P TA TB TC R).
  assert (PA : Forall plain gA /\ Forall plain gB /\ Forall plain gC). { pose proof (Forall_inv_tail P) as P'. apply Forall_app in P' as [PA P']. apply Forall_app in P' as [PB PC]. auto. } destruct PA as (PA & PB & PC).
  assert (Kall : forall x p, In x ((k, ss) :: gA ++ gB ++ gC) -> In p (flat [x]) -> kept local mktime secret p).
  { intros x p Ix Ip. rewrite Forall_forall in K. apply K. unfold flat in *. apply in_flat_map in Ip as (y & [<-|[]] & Ip). apply in_flat_map. eauto. }
  assert (Kfst : forall x, In x ((k, ss) :: gA ++ gB ++ gC) -> kept local mktime secret (fst x)). { intros x Ix. apply (Kall x _ Ix). destruct x as [q qs]. rewrite flat_one. now left. }
  destruct (key_round secret false k Tk (Kfst (k, ss) (or_introl eq_refl))) as (ko & K1 & K2). rewrite K1. cbn [bind].
  assert (IA : forall x, In x gA -> In x ((k, ss) :: gA ++ gB ++ gC)) by (intros; right; apply in_app_iff; auto).
  assert (IB : forall x, In x gB -> In x ((k, ss) :: gA ++ gB ++ gC)) by (intros; right; rewrite !in_app_iff; auto).
  assert (IC : forall x, In x gC -> In x ((k, ss) :: gA ++ gB ++ gC)) by (intros; right; rewrite !in_app_iff; auto).
  destruct (sigs_round secret (flat_sgs ss)) as (so & S1 & S2). { exact (plain_flat _ (Forall_inv P)). } { apply Forall_forall. intros p Ip. apply (Kall (k, ss)); [now left|]. rewrite flat_one. now right. }
  rewrite S1. cbn [bind].
  destruct (group_round uid_from uid_to secret gA PA) as (ua & U1 & up & U2 & U3). { intros x p Ix. apply Kall. auto. } { intros x Ix. rewrite Forall_forall in TA. apply (uid_round secret); [exact (TA x Ix)|apply Kfst; auto]. }
  rewrite U1. cbn [bind].
  destruct (group_round (attr_from magic) attr_to secret gB PB) as (va & V1 & vp & V2 & V3). { intros x p Ix. apply Kall. auto. } { intros x Ix. rewrite Forall_forall in TB. apply (attr_round secret); [exact (TB x Ix)|apply Kfst; auto]. }
  rewrite V1. cbn [bind].
  destruct (group_round (key_from local secret) (key_to mktime true) secret gC PC) as (wa & W1 & wp & W2 & W3). { intros x p Ix. apply Kall. auto. } { intros x Ix. rewrite Forall_forall in TC. apply (key_round secret); [exact (TC x Ix)|apply Kfst; auto]. }
  rewrite W1. cbn [bind]. eexists. split; [reflexivity|]. unfold to_packets. cbn [tk_key tk_sigs tk_uids tk_attrs tk_subs]. rewrite K2, S2, U2, V2, W2. cbn [bind]. rewrite U3, V3, W3.
  change (flat ((k, ss) :: gA ++ gB ++ gC)) with ((k :: flat_sgs ss) ++ flat (gA ++ gB ++ gC)). rewrite !flat_app. cbn [app]. reflexivity.
Qed.
(** version 3 signatures cannot be written back *)
Lemma mapM_some {A B} (f : A -> res B) l r a : mapM f l = Ok r -> In a l -> exists b, f a = Ok b /\ In b r.
Proof.
  revert r. induction l as [|x l IH]; intros r H I; [destruct I|]. cbn [mapM] in H. apply bind_ok in H as (b & Hb & H). apply bind_ok in H as (bs & Hbs & H). injection H as <-. destruct I as [<-|I]; [exists b; split; [exact Hb|now left]|].
  destruct (IH _ Hbs I) as (c & Hc & Ic). exists c. split; [exact Hc|now right].
Qed.
Definition old (p : pkt) : Prop := exists v t pk h h2 vs ct kid, p_body p = BSig (SigV3 v t pk h h2 vs ct kid).
Lemma old_stuck p l so r : old p -> In p l -> mapM (sig_from local) l = Ok so -> mapM sig_to so <> Ok r.
Proof.
  intros (v & t & pk & h & h2 & vs & ct & kid & E) I H Hr. destruct (mapM_some _ _ _ _ H I) as (o & Ho & Io). unfold sig_from in Ho. rewrite E in Ho. destruct ((v =? 2) || (v =? 3)); [|discriminate Ho]. apply bind_ok in Ho as (d & _ & Ho). injection Ho as <-.
  destruct (mapM_some _ _ _ _ Hr Io) as (q & Hq & _). discriminate Hq.
Qed.
Lemma old_group {A} (f : pkt -> res A) (g : A -> res pkt) p gs os ps : old p -> (exists x, In x gs /\ In p (flat_sgs (snd x))) -> mapM (with_sigs local f) (map both gs) = Ok os -> mapM (emit g) os <> Ok ps.
Proof.
  intros O (x & Ix & Ip) H Hr. destruct (mapM_some _ _ _ (both x) H (in_map both _ _ Ix)) as (o & Ho & Io). unfold with_sigs in Ho. apply bind_ok in Ho as (a & _ & Ho). apply bind_ok in Ho as (s & Hs & Ho). injection Ho as <-.
  destruct (mapM_some _ _ _ _ Hr Io) as (q & Hq & _). unfold emit in Hq. cbn [fst snd] in Hq. apply bind_ok in Hq as (pp & _ & Hq). apply bind_ok in Hq as (r & Hr' & _). exact (old_stuck p _ _ _ O Ip Hs Hr').
Qed.
Lemma split_types st a b c : forall gs : list (pkt * sgs), map (fun g => pkt_type (fst g)) gs = repeat 13 a ++ repeat 17 b ++ repeat st c -> exists gA gB gC, gs = gA ++ gB ++ gC /\
  Forall (fun g => pkt_type (fst g) = 13) gA /\ Forall (fun g => pkt_type (fst g) = 17) gB /\ Forall (fun g => pkt_type (fst g) = st) gC.
Proof.
  intros gs E. apply map_eq_app in E as (gA & r & -> & EA & E). apply map_eq_app in E as (gB & gC & -> & EB & EC). exists gA, gB, gC. split; [reflexivity|].
  assert (G : forall t n (l : list (pkt * sgs)), map (fun g => pkt_type (fst g)) l = repeat t n -> Forall (fun g => pkt_type (fst g) = t) l).
  { intros t n l Q. apply Forall_forall. intros g I. apply (repeat_spec n). rewrite <- Q. exact (in_map (fun g : pkt * sgs => pkt_type (fst g)) _ _ I). }
  split; [exact (G _ _ _ EA)|]. split; [exact (G _ _ _ EB)|exact (G _ _ _ EC)].
Qed.
(** the packets before the first trust packet survive; the others are lost *)
Lemma round_trust secret l r : validate_key secret (l ++ r) = Ok tt -> match r with [] => True | t :: _ => pkt_type t = 12 end -> (forall p, In p l -> pkt_type p <> 12) -> Forall (kept local mktime secret) l ->
  exists o, from_packets local magic secret (l ++ r) = Ok o /\ to_packets mktime o = Ok l.
Proof.
  intros V R N K. assert (VL : validate_key secret l = Ok tt). { destruct r as [|t r]; [now rewrite app_nil_r in V|]. exact (before_trust _ _ _ _ V R N). }
  destruct (accepted_well_formed _ _ VL) as (k & ss & gs & a & b & c & v & -> & Tk & Hv & Ts & F & D & B & _). destruct (split_types _ _ _ _ _ Ts) as (gA & gB & gC & -> & TA & TB & TC).
  apply from_groups; auto. apply Forall_forall. intros g Ig. unfold plain. apply Forall_forall. intros x Ix. rewrite Forall_forall in F. pose proof (F g Ig) as G. unfold group_ok in G. rewrite Forall_forall in G. destruct (G x Ix) as (X1 & X2 & X3). split; [exact X1|].
  assert (Y : forall p, In p (snd x) -> In p (flat ((k, ss) :: gA ++ gB ++ gC))). { intros p Ip. unfold flat. apply in_flat_map. exists g. split; [exact Ig|]. right. unfold flat_sgs. apply in_flat_map. exists x. split; [exact Ix|now right]. }
  destruct (snd x) as [|t ts]; [reflexivity|]. exfalso. apply (N t); [apply Y; now left|exact (Forall_inv X3)].
Qed.
Lemma plain_groups secret l k ss gs : l = flat ((k, ss) :: gs) -> Forall (group_ok secret) ((k, ss) :: gs) -> (forall p, In p l -> pkt_type p <> 12) -> Forall plain ((k, ss) :: gs).
Proof.
  intros -> F N. apply Forall_forall. intros g Ig. unfold plain. apply Forall_forall. intros x Ix. rewrite Forall_forall in F. pose proof (F g Ig) as G. unfold group_ok in G. rewrite Forall_forall in G. destruct (G x Ix) as (X1 & X2 & X3). split; [exact X1|].
  assert (Y : forall p, In p (snd x) -> In p (flat ((k, ss) :: gs))). { intros p Ip. unfold flat. apply in_flat_map. exists g. split; [exact Ig|]. right. unfold flat_sgs. apply in_flat_map. exists x. split; [exact Ix|now right]. }
  destruct (snd x) as [|t ts]; [reflexivity|]. exfalso. apply (N t); [apply Y; now left|exact (Forall_inv X3)].
Qed.
Lemma old_never secret l p o : (forall q, In q l -> pkt_type q <> 12) -> In p l -> old p -> from_packets local magic secret l = Ok o -> forall r, to_packets mktime o <> Ok r.
Proof.
  intros N I O H r Hr. assert (V : validate_key secret l = Ok tt). { unfold from_packets in H. apply bind_ok in H as ([] & Hv & _). exact Hv. }
  destruct (accepted_well_formed _ _ V) as (k & ss & gs & a & b & c & v & E & Tk & Hv & Ts & F & D & B & _). destruct (split_types _ _ _ _ _ Ts) as (gA & gB & gC & -> & TA & TB & TC).
  pose proof (plain_groups _ _ _ _ _ E F N) as P. rewrite E in H, V. rewrite <- (app_nil_r (flat _)) in H, V. rewrite (from_shape secret k ss gA gB gC [] V P TA TB TC Logic.I) in H.
  apply bind_ok in H as (ko & H1 & H). apply bind_ok in H as (so & H2 & H). apply bind_ok in H as (uo & H3 & H). apply bind_ok in H as (ao & H4 & H). apply bind_ok in H as (bo & H5 & H). injection H as <-.
  unfold to_packets in Hr. cbn [tk_key tk_sigs tk_uids tk_attrs tk_subs] in Hr. apply bind_ok in Hr as (kp & _ & Hr). apply bind_ok in Hr as (sp & R2 & Hr). apply bind_ok in Hr as (up & R3 & Hr). apply bind_ok in Hr as (ap & R4 & Hr). apply bind_ok in Hr as (bp & R5 & _).
  rewrite E in I. unfold flat in I. apply in_flat_map in I as (g & Ig & I). destruct I as [<-|I].
  - (* an anchor is not a signature *)
    assert (T2 : pkt_type (fst g) = 2) by (destruct O as (? & ? & ? & ? & ? & ? & ? & ? & O); unfold pkt_type; now rewrite O).
    destruct Ig as [<-|Ig]; [cbn [fst] in T2; rewrite Tk in T2; destruct secret; discriminate T2|]. rewrite !in_app_iff in Ig. rewrite Forall_forall in TA, TB, TC. destruct Ig as [Ig|[Ig|Ig]]; [rewrite (TA g Ig) in T2; discriminate T2|rewrite (TB g Ig) in T2; discriminate T2|rewrite (TC g Ig) in T2; destruct secret; discriminate T2].
  - destruct Ig as [<-|Ig]; [exact (old_stuck _ _ _ _ O I H2 R2)|]. rewrite !in_app_iff in Ig. destruct Ig as [Ig|[Ig|Ig]].
    + exact (old_group _ _ _ _ _ _ O (ex_intro _ g (conj Ig I)) H3 R3).
    + exact (old_group _ _ _ _ _ _ O (ex_intro _ g (conj Ig I)) H4 R4).
    + exact (old_group _ _ _ _ _ _ O (ex_intro _ g (conj Ig I)) H5 R5).
Qed.
End Conv.
