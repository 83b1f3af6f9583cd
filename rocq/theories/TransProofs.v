(** Proofs: the packet lists accepted as transferable keys. *)
From Verif Require Import Base BaseProofs Utils Framing Text Armor S2k SessionKeys KeyPackets SigPackets DataPackets UserAttr Packets TransKey SpecTrans.

Lemma is_one_spec t l : is_one t l = true <-> In t l.
Proof. unfold is_one. rewrite existsb_exists. split; [intros (x & Hx & E); replace t with x by lia; exact Hx|]. intros H. exists t. split; [exact H|lia]. Qed.
Lemma is_one_false t l : is_one t l = false <-> ~ In t l.
Proof. rewrite <- is_one_spec. destruct (is_one t l); split; intros; congruence. Qed.
Lemma only_spec l pre : only l pre = true <-> forall p, In p pre -> In (pkt_type p) l.
Proof. unfold only. rewrite forallb_forall. split; intros H p Hp; specialize (H p Hp); now apply is_one_spec. Qed.
Lemma check_ok b e u : check b e = Ok u -> b = true.
Proof. unfold check. destruct b; [reflexivity|discriminate]. Qed.
Lemma check_true b e : b = true -> check b e = Ok tt.
Proof. intros ->. reflexivity. Qed.
Lemma flat_sgs_app a b : flat_sgs (a ++ b) = flat_sgs a ++ flat_sgs b.
Proof. apply flat_map_app. Qed.
Lemma flat_app a b : flat (a ++ b) = flat a ++ flat b.
Proof. apply flat_map_app. Qed.
Lemma flat_one p ss : flat [(p, ss)] = p :: flat_sgs ss.
Proof. unfold flat. cbn [flat_map fst snd app]. now rewrite app_nil_r. Qed.
Lemma flat_snoc gs p ss : flat (gs ++ [(p, ss)]) = flat gs ++ p :: flat_sgs ss.
Proof. now rewrite flat_app, flat_one. Qed.
Lemma flat_sgs_types tys ss p : Forall (sig_with tys) ss -> In p (flat_sgs ss) -> (pkt_type p = 2 /\ In (sig_ty p) tys) \/ pkt_type p = 12.
Proof.
  intros F I. unfold flat_sgs in I. apply in_flat_map in I as (x & Hx & I). rewrite Forall_forall in F. destruct (F x Hx) as (A & B & C). destruct I as [<-|I]; [auto|]. right. rewrite Forall_forall in C. auto.
Qed.
(** looking back from the end of a group *)
Definition nonsig (p : pkt) : bool := negb (is_one (pkt_type p) [2; 12]).
Lemma filter_strip l : filter nonsig (strip_trust l) = filter nonsig l.
Proof.
  induction l as [|p l IH]; [reflexivity|]. cbn [strip_trust]. destruct (pkt_type p =? 12) eqn:E; [|reflexivity]. rewrite IH. cbn [filter]. unfold nonsig at 2. replace (is_one (pkt_type p) [2; 12]) with true; [reflexivity|].
  symmetry. apply is_one_spec. right. left. lia.
Qed.
Lemma filter_rev' {A} (f : A -> bool) l : filter f (rev l) = rev (filter f l).
Proof. induction l as [|x l IH]; [reflexivity|]. cbn [rev]. rewrite filter_app, IH. cbn [filter]. destruct (f x); cbn [rev]; [reflexivity|now rewrite app_nil_r]. Qed.
Lemma nonsig_flat tys ss : Forall (sig_with tys) ss -> filter nonsig (flat_sgs ss) = [].
Proof.
  intros F. assert (K : forall p, In p (flat_sgs ss) -> nonsig p = false). { intros p I. unfold nonsig. destruct (flat_sgs_types _ _ _ F I) as [[E _]|E]; rewrite E; reflexivity. }
  induction (flat_sgs ss) as [|p l IH]; [reflexivity|]. cbn [filter]. rewrite (K p (or_introl eq_refl)). apply IH. intros q Hq. apply K. now right.
Qed.
Lemma anchor_of tys X p ss : Forall (sig_with tys) ss -> nonsig p = true -> exists r, filter nonsig (before (X ++ p :: flat_sgs ss)) = p :: r.
Proof.
  intros F N. unfold before. rewrite filter_strip, filter_rev', filter_app. cbn [filter]. rewrite N, (nonsig_flat tys ss F). rewrite rev_app_distr. cbn [rev app]. eauto.
Qed.
Lemma strip_all l r : Forall (fun t => pkt_type t = 12) l -> strip_trust (l ++ r) = strip_trust r.
Proof. induction 1 as [|p l E F IH]; [reflexivity|]. cbn [app strip_trust]. replace (pkt_type p =? 12) with true by lia. exact IH. Qed.
Lemma before_none X p : pkt_type p <> 12 -> before (X ++ [p]) = p :: rev X.
Proof. intros N. unfold before. rewrite rev_app_distr. cbn [rev app strip_trust]. replace (pkt_type p =? 12) with false by lia. reflexivity. Qed.
Lemma before_sig tys X ss s ts : Forall (sig_with tys) (ss ++ [(s, ts)]) -> exists r, before (X ++ flat_sgs (ss ++ [(s, ts)])) = s :: r.
Proof.
  intros F. apply Forall_app in F as [_ F]. destruct (Forall_inv F) as (A & _ & C). cbn [fst snd] in *. rewrite flat_sgs_app. unfold flat_sgs at 2. cbn [flat_map fst snd]. rewrite app_nil_r.
  unfold before. rewrite app_assoc, rev_app_distr. cbn [rev]. rewrite <- app_assoc. rewrite strip_all; [|apply Forall_rev; exact C]. cbn [app strip_trust]. replace (pkt_type s =? 12) with false by lia. eauto.
Qed.

Section V.
Variables (secret : bool) (v : Z).
Let kt := key_type secret.
Let st := subkey_type secret.
Lemma kt_st : (kt = 5 /\ st = 7) \/ (kt = 6 /\ st = 14).
Proof. unfold kt, st. destruct secret; cbn; auto. Qed.
(** the state after a prefix *)
Record pfx (pre : list pkt) (gs : list (pkt * sgs)) (k : pkt) (ss0 : sgs) (tl : list (pkt * sgs)) (a b c : nat) : Prop := {
  px_pre : pre = flat gs; px_gs : gs = (k, ss0) :: tl; px_key : pkt_type k = kt;
  px_types : map (fun g => pkt_type (fst g)) tl = repeat 13 a ++ repeat 17 b ++ repeat st c;
  px_ok : Forall (group_ok secret) gs; px_direct : direct_first ss0;
  px_subs : forall pr g po, tl = pr ++ g :: po -> pkt_type (fst g) = st -> po <> [] -> snd g <> [];
  px_v : c <> 0%nat -> 4 <= v }.
Lemma types_in pre gs k ss0 tl a b c : pfx pre gs k ss0 tl a b c -> forall p, In p pre -> pkt_type p = kt \/ pkt_type p = 2 \/ pkt_type p = 12 \/ (pkt_type p = 13 /\ a <> 0%nat) \/ (pkt_type p = 17 /\ b <> 0%nat) \/ (pkt_type p = st /\ c <> 0%nat).
Proof.
  intros [E1 E2 Ek Et Eo _ _ _] p I. subst pre. unfold flat in I. apply in_flat_map in I as (g & Hg & I). destruct I as [<-|I].
  - rewrite E2 in Hg. destruct Hg as [<-|Hg]; [left; exact Ek|]. assert (T : In (pkt_type (fst g)) (repeat 13 a ++ repeat 17 b ++ repeat st c)) by (rewrite <- Et; exact (in_map (fun g : pkt * sgs => pkt_type (fst g)) _ _ Hg)).
    apply in_app_iff in T as [T|T]; [apply repeat_spec in T as T'; destruct a; [destruct T|]; intuition congruence|]. apply in_app_iff in T as [T|T]; apply repeat_spec in T as T'; [destruct b; [destruct T|]|destruct c; [destruct T|]]; intuition congruence.
  - rewrite Forall_forall in Eo. pose proof (Eo g Hg) as O. unfold group_ok in O. destruct (flat_sgs_types _ _ _ O I) as [[T _]|T]; auto.
Qed.
Lemma anchors_in pre gs k ss0 tl a b c : pfx pre gs k ss0 tl a b c -> (b <> 0%nat -> exists p, In p pre /\ pkt_type p = 17) /\ (c <> 0%nat -> exists p, In p pre /\ pkt_type p = st) /\ (tl <> [] -> exists p, In p pre /\ (pkt_type p = 13 \/ pkt_type p = 17 \/ pkt_type p = st)).
Proof.
  intros [E1 E2 Ek Et Eo _ _ _]. assert (G : forall t, In t (repeat 13 a ++ repeat 17 b ++ repeat st c) -> exists p, In p pre /\ pkt_type p = t).
  { intros t I. rewrite <- Et in I. apply in_map_iff in I as (g & <- & Hg). exists (fst g). split; [|reflexivity]. subst pre gs. unfold flat. apply in_flat_map. exists g. split; [now right|now left]. }
  repeat split.
  - intros N. apply G. rewrite !in_app_iff. right. left. destruct b; [congruence|]. now left.
  - intros N. apply G. rewrite !in_app_iff. right. right. destruct c; [congruence|]. now left.
  - intros N. destruct tl as [|g tl]; [congruence|]. cbn [map] in Et. destruct (G (pkt_type (fst g))) as (p & Hp & T); [rewrite <- Et; now left|]. exists p. split; [exact Hp|].
    assert (I : In (pkt_type (fst g)) (repeat 13 a ++ repeat 17 b ++ repeat st c)) by (rewrite <- Et; now left). rewrite !in_app_iff in I. destruct I as [I|[I|I]]; apply repeat_spec in I; rewrite T; auto.
Qed.
(** the last group *)
Lemma last_group {A} (g : A) tl : exists pre' x, g :: tl = pre' ++ [x].
Proof. destruct (exists_last (l := g :: tl)) as (p & x & E); [discriminate|]. eauto. Qed.
Lemma group_types pre gs k ss0 tl a b c p ss pre' : pfx pre gs k ss0 tl a b c -> gs = pre' ++ [(p, ss)] -> Forall (sig_with (allowed secret (pkt_type p))) ss /\ nonsig p = true /\ (pkt_type p = kt \/ pkt_type p = 13 \/ pkt_type p = 17 \/ pkt_type p = st).
Proof.
  intros [E1 E2 Ek Et Eo _ _ _] E. assert (O : group_ok secret (p, ss)) by (rewrite Forall_forall in Eo; apply Eo; rewrite E; apply in_app_iff; right; now left). split; [exact O|].
  assert (T : pkt_type p = kt \/ pkt_type p = 13 \/ pkt_type p = 17 \/ pkt_type p = st).
  { rewrite E2 in E. assert (I : In (p, ss) ((k, ss0) :: tl)) by (rewrite E; apply in_app_iff; right; now left). destruct I as [I|I]; [injection I as <- <-; now left|]. right.
    assert (J : In (pkt_type p) (repeat 13 a ++ repeat 17 b ++ repeat st c)) by (rewrite <- Et; apply (in_map (fun g : pkt * sgs => pkt_type (fst g)) _ _ I)). rewrite !in_app_iff in J. destruct J as [J|[J|J]]; apply repeat_spec in J; auto. }
  split; [|exact T]. unfold nonsig. destruct kt_st as [[K S]|[K S]]; destruct T as [T|[T|[T|T]]]; rewrite T; rewrite ?K, ?S; reflexivity.
Qed.
(** adding a signature, or a trust packet, to the last group *)
Lemma grow pre gs k ss0 tl a b c pre' p ss ss' x : pfx pre gs k ss0 tl a b c -> gs = pre' ++ [(p, ss)] -> flat_sgs ss' = flat_sgs ss ++ [x] -> Forall (sig_with (allowed secret (pkt_type p))) ss' -> ss' <> [] ->
  (tl = [] -> direct_first ss') -> exists ss0' tl', pfx (pre ++ [x]) (pre' ++ [(p, ss')]) k ss0' tl' a b c /\ (forall g pr, tl' = pr ++ [g] -> snd g <> []).
Proof.
  intros P E Fl F' Ns D. destruct P as [E1 E2 Ek Et Eo Ed Es Ev].
  assert (Fx : flat gs ++ [x] = flat (pre' ++ [(p, ss')])). { rewrite E, !flat_snoc, Fl, <- app_assoc. reflexivity. }
  destruct pre' as [|g0 pre'].
  - cbn [app] in *. assert (Q : tl = [] /\ p = k /\ ss = ss0). { rewrite E2 in E. injection E as -> -> ->. auto. } destruct Q as (-> & -> & ->). exists ss', []. split.
    + constructor; auto. now rewrite E1.
    + intros g pr Q. destruct pr; discriminate Q.
  - assert (Q : g0 = (k, ss0) /\ tl = pre' ++ [(p, ss)]). { rewrite E2 in E. cbn [app] in E. injection E as <- ->. auto. } destruct Q as [-> ->].
    exists ss0, (pre' ++ [(p, ss')]). split; [constructor; auto|].
    + now rewrite E1.
    + rewrite <- Et. rewrite !map_app. reflexivity.
    + rewrite E in Eo. apply Forall_app in Eo as [Eo _]. apply Forall_app. split; [exact Eo|]. constructor; [exact F'|constructor].
    + intros pr g po Q T N. destruct po as [|z po'] using rev_ind; [congruence|]. clear IHpo'. rewrite app_comm_cons, app_assoc in Q. apply app_inj_tail in Q as [Q _].
      apply (Es pr g (po' ++ [(p, ss)])); [rewrite Q, <- app_assoc; reflexivity|exact T|destruct po'; discriminate].
    + intros g pr Q. apply app_inj_tail in Q as [_ <-]. exact Ns.
Qed.
(** adding a group *)
Lemma add_group pre gs k ss0 tl a b c x a' b' c' : pfx pre gs k ss0 tl a b c -> (forall g pr, tl = pr ++ [g] -> pkt_type (fst g) = st -> snd g <> []) ->
  (repeat 13 a ++ repeat 17 b ++ repeat st c) ++ [pkt_type x] = repeat 13 a' ++ repeat 17 b' ++ repeat st c' -> (c' <> 0%nat -> 4 <= v) ->
  pfx (pre ++ [x]) (gs ++ [(x, [])]) k ss0 (tl ++ [(x, [])]) a' b' c'.
Proof.
  intros [E1 E2 Ek Et Eo Ed Es Ev] L T V. constructor; auto.
  - now rewrite E1, flat_snoc.
  - now rewrite E2.
  - rewrite map_app, Et. exact T.
  - apply Forall_app. split; [exact Eo|]. constructor; [constructor|constructor].
  - intros pr g po Q S N. destruct po as [|z po'] using rev_ind; [congruence|]. clear IHpo'. rewrite app_comm_cons, app_assoc in Q. apply app_inj_tail in Q as [Q _].
    destruct po' as [|y po']; [exact (L g pr Q S)|]. apply (Es pr g (y :: po') Q S). discriminate.
Qed.
Lemma direct_snoc ss x ts : direct_first ss -> (sig_ty x = 31 -> Forall (fun y => snd y = []) ss) -> direct_first (ss ++ [(x, ts)]).
Proof.
  intros D H a y b Q Hy. destruct b as [|z b'] using rev_ind.
  - apply app_inj_tail in Q as [<- <-]. exact (H Hy).
  - clear IHb'. rewrite app_comm_cons, app_assoc in Q. apply app_inj_tail in Q as [Q _]. exact (D a y b' Q Hy).
Qed.
Lemma direct_trust ss x ts ts' : direct_first (ss ++ [(x, ts)]) -> direct_first (ss ++ [(x, ts')]).
Proof.
  intros D. assert (D1 : direct_first ss). { intros a y b Q Hy. apply (D a y (b ++ [(x, ts)])); [|exact Hy]. rewrite Q, <- app_assoc. reflexivity. }
  apply direct_snoc; [exact D1|]. intros Hx. exact (D ss (x, ts) [] eq_refl Hx).
Qed.
Lemma no_trust tys ss : Forall (sig_with tys) ss -> (forall p, In p (flat_sgs ss) -> pkt_type p <> 12) -> Forall (fun y => snd y = []) ss.
Proof.
  intros F H. apply Forall_forall. intros [s ts] I. cbn [snd]. destruct ts as [|t ts]; [reflexivity|]. rewrite Forall_forall in F. destruct (F _ I) as (_ & _ & C). cbn [fst snd] in C.
  exfalso. apply (H t); [|exact (Forall_inv C)]. unfold flat_sgs. apply in_flat_map. exists (s, t :: ts). split; [exact I|]. right. now left.
Qed.
Lemma allowed_st : allowed secret st = [24].
Proof. unfold allowed. fold kt. destruct kt_st as [[K S]|[K S]]; rewrite K, S; reflexivity. Qed.
Lemma allowed_kt : allowed secret kt = [31; 32].
Proof. unfold allowed. fold kt. now rewrite Z.eqb_refl. Qed.
Lemma allowed_uid t : t = 13 \/ t = 17 -> allowed secret t = [16; 17; 18; 19; 48].
Proof. unfold allowed. fold kt. destruct kt_st as [[K S]|[K S]]; rewrite K; intros [->| ->]; reflexivity. Qed.
(** one packet *)
Definition awaits (tl : list (pkt * sgs)) (rest : list pkt) : Prop := forall g pr, tl = pr ++ [g] -> pkt_type (fst g) = st -> snd g = [] -> exists n r, rest = n :: r /\ pkt_type n = 2 /\ sig_ty n = 24.
Lemma sound_step pre gs k ss0 tl a b c x rest : pfx pre gs k ss0 tl a b c -> awaits tl (x :: rest) -> validate_from secret v pre (x :: rest) = Ok tt ->
  exists gs' ss0' tl' a' b' c', pfx (pre ++ [x]) gs' k ss0' tl' a' b' c' /\ awaits tl' rest.
Proof.
  intros P W H. cbn [validate_from] in H. apply bind_ok in H as (u & Hs & Hr). destruct u.
  assert (Ne : pre <> []). { destruct P as [E1 E2 _ _ _ _ _ _]. rewrite E1, E2. discriminate. }
  pose proof (types_in _ _ _ _ _ _ _ _ P) as Tin. pose proof (anchors_in _ _ _ _ _ _ _ _ P) as (Ab & Ac & At).
  assert (Lg : exists pre' p ss, gs = pre' ++ [(p, ss)]). { destruct P as [_ E2 _ _ _ _ _ _]. rewrite E2. destruct (last_group (k, ss0) tl) as (q & [p ss] & E). eauto. }
  destruct Lg as (pre' & p & ss & Eg). pose proof (group_types _ _ _ _ _ _ _ _ _ _ _ P Eg) as (Os & Np & Tp).
  assert (Ep : pre = flat pre' ++ p :: flat_sgs ss). { rewrite (px_pre _ _ _ _ _ _ _ _ P), Eg. apply flat_snoc. }
  destruct (anchor_of _ (flat pre') p ss Os Np) as (r0 & Anc). rewrite <- Ep in Anc.
  unfold step in Hs. fold kt st in Hs. destruct (pkt_type x =? kt) eqn:K1.
  { exfalso. apply check_ok in Hs. destruct pre; [congruence|]. rewrite zlen_cons in Hs. pose proof (zlen_nonneg pre). lia. }
  destruct (pkt_type x =? 2) eqn:K2.
  { (* a signature *)
    change (filter (fun p => negb (is_one (pkt_type p) [2; 12])) (before pre)) with (filter nonsig (before pre)) in Hs. rewrite Anc in Hs.
    assert (G : In (sig_ty x) (allowed secret (pkt_type p)) -> (sig_ty x = 31 -> tl = [] -> Forall (fun y => snd y = []) ss) -> exists gs' ss0' tl' a' b' c', pfx (pre ++ [x]) gs' k ss0' tl' a' b' c' /\ awaits tl' rest).
    { intros Al Dr. destruct (grow _ _ _ _ _ _ _ _ _ _ _ (ss ++ [(x, [])]) x P Eg) as (ss0' & tl' & P' & L').
      - rewrite flat_sgs_app. reflexivity.
      - apply Forall_app. split; [exact Os|]. constructor; [|constructor]. repeat split; cbn [fst snd]; auto. lia.
      - destruct ss; discriminate.
      - intros ->. apply direct_snoc; [|intros Y; now apply Dr]. destruct P as [_ E2 _ _ _ Ed _ _]. rewrite Eg in E2. destruct pre' as [|? [|? ?]]; [|discriminate E2..]. injection E2 as <- <-. exact Ed.
      - exists (pre' ++ [(p, ss ++ [(x, [])])]), ss0', tl', a, b, c. split; [exact P'|]. intros g pr Q S N. exfalso. exact (L' g pr Q N). }
    assert (Only : only [kt; 2; 12] pre = true -> tl = [] /\ p = k /\ ss = ss0).
    { intros O. assert (Tl : tl = []). { destruct tl as [|g tl0]; [reflexivity|]. exfalso. destruct At as (q & Iq & Tq); [discriminate|]. rewrite only_spec in O. specialize (O q Iq). destruct kt_st as [[K S]|[K S]]; rewrite K in O; rewrite S in Tq; destruct O as [O|[O|[O|[]]]]; lia. }
      split; [exact Tl|]. destruct P as [_ E2 _ _ _ _ _ _]. rewrite Eg, Tl in E2. destruct pre' as [|? [|? ?]]; [|discriminate E2..]. injection E2 as <- <-. auto. }
    destruct (sig_ty x =? 31) eqn:S31.
    { apply check_ok in Hs. assert (O : only [kt; 2; 12] pre = true). { rewrite only_spec in Hs |- *. intros q Iq. destruct (Hs q Iq) as [Q|[Q|[]]]; [now left|right; now left]. }
      destruct (Only O) as (Tl & -> & ->). apply G; [rewrite (px_key _ _ _ _ _ _ _ _ P), allowed_kt; left; lia|]. intros _ _. apply (no_trust _ _ Os). intros q Iq Q. rewrite only_spec in Hs. assert (Iq' : In q pre) by (rewrite Ep; apply in_app_iff; right; now right).
      destruct (Hs q Iq') as [E|[E|[]]]; rewrite Q in E; [|discriminate E]. destruct kt_st as [[K S]|[K S]]; rewrite K in E; discriminate E. }
    destruct (sig_ty x =? 24) eqn:S24.
    { destruct (negb (pkt_type p =? st)) eqn:Q; [discriminate Hs|]. apply negb_false_iff in Q. apply G; [|lia]. replace (pkt_type p) with st by lia. rewrite allowed_st. left. lia. }
    destruct (sig_ty x =? 32) eqn:S32.
    { apply check_ok in Hs. destruct (Only Hs) as (Tl & -> & ->). apply G; [|lia]. rewrite (px_key _ _ _ _ _ _ _ _ P), allowed_kt. right. left. lia. }
    destruct (sig_ty x =? 40) eqn:S40.
    { exfalso. assert (B : exists y r, before pre = y :: r /\ (y = p \/ In (sig_ty y) (allowed secret (pkt_type p)))).
      { rewrite Ep. assert (ss = [] \/ ss <> []) as [->|N] by (destruct ss; [now left|right; discriminate]).
        - cbn [flat_sgs flat_map]. rewrite before_none; [eauto|]. unfold nonsig in Np. apply negb_true_iff, is_one_false in Np. intros Q. apply Np. rewrite Q. right. now left.
        - destruct (exists_last N) as (s1 & [s ts] & ->). change (flat pre' ++ p :: ?z) with (flat pre' ++ [p] ++ z). rewrite app_assoc. destruct (before_sig _ (flat pre' ++ [p]) s1 s ts Os) as (r & ->). exists s, r. split; [reflexivity|]. right.
          apply Forall_app in Os as [_ Os]. destruct (Forall_inv Os) as (_ & Y & _). exact Y. }
      destruct B as (y & r & B & Hy). rewrite B in Hs. apply check_ok in Hs. apply andb_true_iff in Hs as [Y1 Y2]. destruct Hy as [->|Hy].
      - unfold nonsig in Np. apply negb_true_iff, is_one_false in Np. apply Np. left. lia.
      - replace (sig_ty y) with 40 in Hy by lia. destruct Tp as [T|[T|[T|T]]]; rewrite T in Hy; [rewrite allowed_kt in Hy|rewrite allowed_uid in Hy by auto|rewrite allowed_uid in Hy by auto|rewrite allowed_st in Hy]; cbn in Hy; lia. }
    destruct (is_one (sig_ty x) [16; 17; 18; 19; 48]) eqn:Sc; [|discriminate Hs]. apply check_ok in Hs. apply is_one_spec in Hs. apply is_one_spec in Sc.
    apply G; [|lia]. rewrite allowed_uid; [exact Sc|]. destruct Hs as [Q|[Q|[Q|[]]]]; [left; lia|right; lia|]. exfalso. unfold nonsig in Np. apply negb_true_iff, is_one_false in Np. apply Np. rewrite <- Q. right. now left. }
  assert (L0 : forall g pr, tl = pr ++ [g] -> pkt_type (fst g) = st -> snd g <> []). { intros g pr Q S N. destruct (W g pr Q S N) as (n & r & R & T & _). injection R as <- _. lia. }
  destruct (pkt_type x =? 13) eqn:K13.
  { apply check_ok in Hs. rewrite only_spec in Hs. assert (B0 : b = 0%nat). { destruct b; [reflexivity|]. destruct Ab as (q & Iq & Tq); [discriminate|]. specialize (Hs q Iq). rewrite Tq in Hs. destruct kt_st as [[K S]|[K S]]; rewrite K in Hs; destruct Hs as [Hs|[Hs|[Hs|[Hs|[]]]]]; discriminate Hs. }
    assert (C0 : c = 0%nat). { destruct c; [reflexivity|]. destruct Ac as (q & Iq & Tq); [discriminate|]. specialize (Hs q Iq). rewrite Tq in Hs. destruct kt_st as [[K S]|[K S]]; rewrite K, S in Hs; destruct Hs as [Hs|[Hs|[Hs|[Hs|[]]]]]; discriminate Hs. }
    subst b c. do 6 eexists. split; [apply (add_group _ _ _ _ _ _ _ _ x (S a) 0 0 P L0); [|congruence]|].
    - cbn [repeat app]. rewrite !app_nil_r. replace (pkt_type x) with 13 by lia. symmetry. apply repeat_cons.
    - intros g pr Q S _. exfalso. apply app_inj_tail in Q as [_ <-]. cbn [fst] in S. destruct kt_st as [[K S']|[K S']]; lia. }
  destruct (pkt_type x =? 17) eqn:K17.
  { apply check_ok in Hs. rewrite only_spec in Hs.
    assert (C0 : c = 0%nat). { destruct c; [reflexivity|]. destruct Ac as (q & Iq & Tq); [discriminate|]. specialize (Hs q Iq). rewrite Tq in Hs. destruct kt_st as [[K S]|[K S]]; rewrite K, S in Hs; destruct Hs as [Hs|[Hs|[Hs|[Hs|[Hs|[]]]]]]; discriminate Hs. }
    subst c. do 6 eexists. split; [apply (add_group _ _ _ _ _ _ _ _ x a (S b) 0 P L0); [|congruence]|].
    - cbn [repeat app]. rewrite !app_nil_r. replace (pkt_type x) with 17 by lia. rewrite <- app_assoc. f_equal. symmetry. apply repeat_cons.
    - intros g pr Q S _. exfalso. apply app_inj_tail in Q as [_ <-]. cbn [fst] in S. destruct kt_st as [[K S']|[K S']]; lia. }
  destruct ((pkt_type x =? 14) || (pkt_type x =? 7)) eqn:Ks.
  { destruct (v <? 4) eqn:V; [discriminate Hs|]. destruct rest as [|n r]; [discriminate Hs|]. cbn [hd_error] in Hs. apply check_ok in Hs. apply andb_true_iff in Hs as [N1 N2].
    destruct (Z.eq_dec (pkt_type x) st) as [Q|Q].
    - do 6 eexists. split; [apply (add_group _ _ _ _ _ _ _ _ x a b (S c) P L0); [|lia]|].
      + rewrite Q, <- !app_assoc. do 2 f_equal. symmetry. apply (repeat_cons c st).
      + intros g pr _ _ _. exists n, r. split; [reflexivity|lia].
    - exfalso. cbn [validate_from] in Hr. apply bind_ok in Hr as (u & Hs & _). unfold step in Hs. fold kt st in Hs.
      replace (pkt_type n =? kt) with false in Hs by (destruct kt_st as [[K S]|[K S]]; lia). rewrite N1 in Hs.
      change (filter (fun p => negb (is_one (pkt_type p) [2; 12])) ?z) with (filter nonsig z) in Hs.
      destruct (anchor_of [] pre x [] (Forall_nil _)) as (r1 & A1). { unfold nonsig. apply negb_true_iff, is_one_false. intros [Y|[Y|[]]]; lia. }
      cbn [flat_sgs flat_map] in A1. rewrite A1 in Hs. replace (sig_ty n =? 31) with false in Hs by lia. rewrite N2 in Hs. replace (pkt_type x =? st) with false in Hs by lia. discriminate Hs. }
  destruct (pkt_type x =? 12) eqn:K12; [|discriminate Hs].
  (* a trust packet *)
  assert (N : ss <> []).
  { intros ->. rewrite Ep in Hs. cbn [flat_sgs flat_map] in Hs. assert (N12 : pkt_type p <> 12 /\ pkt_type p <> 2). { unfold nonsig in Np. apply negb_true_iff, is_one_false in Np. split; intros Q; apply Np; rewrite Q; cbn; auto. }
    rewrite before_none in Hs by apply N12. apply check_ok in Hs. lia. }
  destruct (exists_last N) as (s1 & [s ts] & ->).
  destruct (grow _ _ _ _ _ _ _ _ _ _ _ (s1 ++ [(s, ts ++ [x])]) x P Eg) as (ss0' & tl' & P' & L').
  - rewrite !flat_sgs_app, <- app_assoc. f_equal. unfold flat_sgs. cbn [flat_map fst snd]. now rewrite !app_nil_r.
  - apply Forall_app in Os as [O1 O2]. apply Forall_app. split; [exact O1|]. constructor; [|constructor]. destruct (Forall_inv O2) as (X1 & X2 & X3). cbn [fst snd] in *. split; [exact X1|split; [exact X2|]]. cbn [snd]. apply Forall_app. split; [exact X3|]. constructor; [lia|constructor].
  - destruct s1; discriminate.
  - intros ->. apply (direct_trust s1 s ts). destruct P as [_ E2 _ _ _ Ed _ _]. rewrite Eg in E2. destruct pre' as [|? [|? ?]]; [|discriminate E2..]. injection E2 as <- <-. exact Ed.
  - exists (pre' ++ [(p, s1 ++ [(s, ts ++ [x])])]), ss0', tl', a, b, c. split; [exact P'|]. intros g pr Q S M. exfalso. exact (L' g pr Q M).
Qed.
Lemma sound rest : forall pre gs k ss0 tl a b c, pfx pre gs k ss0 tl a b c -> awaits tl rest -> validate_from secret v pre rest = Ok tt ->
  exists ss0' tl' a' b' c', pfx (pre ++ rest) ((k, ss0') :: tl') k ss0' tl' a' b' c' /\ awaits tl' [].
Proof.
  induction rest as [|x rest IH]; intros pre gs k ss0 tl a b c P W H.
  - rewrite app_nil_r. exists ss0, tl, a, b, c. split; [|exact W]. destruct P as [E1 E2 E3 E4 E5 E6 E7 E8]. subst gs. constructor; auto.
  - destruct (sound_step _ _ _ _ _ _ _ _ _ _ P W H) as (gs' & ss0' & tl' & a' & b' & c' & P' & W'). cbn [validate_from] in H. apply bind_ok in H as (u & _ & Hr).
    replace (pre ++ x :: rest) with ((pre ++ [x]) ++ rest) by (rewrite <- app_assoc; reflexivity). exact (IH _ _ _ _ _ _ _ _ P' W' Hr).
Qed.
End V.
Lemma accepted_well_formed secret l : validate_key secret l = Ok tt -> well_formed secret l.
Proof.
  intros H. destruct l as [|k l]; [discriminate H|]. unfold validate_key in H. destruct (negb (pkt_type k =? key_type secret)) eqn:K; [discriminate H|]. apply bind_ok in H as (v & Hv & H).
  cbn [validate_from app] in H. apply bind_ok in H as (u & _ & H).
  destruct (sound secret v l [k] [(k, [])] k [] [] 0 0 0) as (ss0 & tl & a & b & c & P & W).
  - constructor; try reflexivity.
    + lia.
    + constructor; [constructor|constructor].
    + intros a x b Q. destruct a; discriminate Q.
    + intros pr g po Q. destruct pr; discriminate Q.
    + congruence.
  - intros g pr Q. destruct pr; discriminate Q.
  - exact H.
  - destruct P as [E1 E2 E3 E4 E5 E6 E7 E8]. exists k, ss0, tl, a, b, c, v. split; [exact E1|]. split; [lia|]. split; [exact Hv|]. split; [exact E4|]. split; [exact E5|]. split; [exact E6|]. split; [|exact E8].
    intros g I T. apply in_split in I as (pr & po & Q). destruct po as [|y po].
    + intros N. destruct (W g pr Q T N) as (n & r & R & _). discriminate R.
    + apply (E7 pr g (y :: po) Q T). discriminate.
Qed.
(** ** completeness *)
Lemma vf_all secret v rest : forall pre, (forall u x w, rest = u ++ x :: w -> step secret v (pre ++ u) x (hd_error w) = Ok tt) -> validate_from secret v pre rest = Ok tt.
Proof.
  induction rest as [|x rest IH]; intros pre H; [reflexivity|]. cbn [validate_from]. pose proof (H [] x rest eq_refl) as H0. rewrite app_nil_r in H0. rewrite H0. cbn [bind]. apply IH.
  intros u y w Q. rewrite <- app_assoc. apply (H (x :: u) y w). now rewrite Q.
Qed.
Lemma flat_sgs_split ss : forall u x w, flat_sgs ss = u ++ x :: w ->
  (exists s1 ts s2, ss = s1 ++ (x, ts) :: s2 /\ u = flat_sgs s1) \/ (exists s1 s t1 t2 s2, ss = s1 ++ (s, t1 ++ x :: t2) :: s2 /\ u = flat_sgs s1 ++ s :: t1).
Proof.
  induction ss as [|[s ts] ss IH]; intros u x w Q; [destruct u; discriminate Q|]. unfold flat_sgs in Q. cbn [flat_map fst snd] in Q. fold (flat_sgs ss) in Q.
  destruct u as [|y u].
  - left. cbn [app] in Q. injection Q as <- _. exists [], ts, ss. auto.
  - cbn [app] in Q. injection Q as <- Q. apply app_eq_app in Q as (l & [[Q1 Q2]|[Q1 Q2]]).
    + destruct l as [|z l].
      * rewrite app_nil_r in Q1. subst u. cbn [app] in Q2. left. destruct ss as [|[s' ts'] ss]; [discriminate Q2|]. unfold flat_sgs in Q2. cbn [flat_map fst snd app] in Q2. injection Q2 as -> _. exists [(s, ts)], ts', ss. split; [reflexivity|]. unfold flat_sgs. cbn [flat_map fst snd]. now rewrite app_nil_r.
      * cbn [app] in Q2. injection Q2 as <- _. right. exists [], s, u, l, ss. split; [now rewrite Q1|reflexivity].
    + destruct (IH _ _ _ Q2) as [(s1 & t1 & s2 & -> & E)|(s1 & s' & t1 & t2 & s2 & -> & E)].
      * left. exists ((s, ts) :: s1), t1, s2. split; [reflexivity|]. unfold flat_sgs. cbn [flat_map fst snd]. fold (flat_sgs s1). now rewrite Q1, E.
      * right. exists ((s, ts) :: s1), s', t1, t2, s2. split; [reflexivity|]. unfold flat_sgs. cbn [flat_map fst snd]. fold (flat_sgs s1). rewrite Q1, E. cbn [app]. now rewrite <- app_assoc.
Qed.
Lemma flat_split gs : forall u x w, flat gs = u ++ x :: w ->
  (exists g1 ss g2, gs = g1 ++ (x, ss) :: g2 /\ u = flat g1 /\ w = flat_sgs ss ++ flat g2) \/ (exists g1 p ss g2 u' w', gs = g1 ++ (p, ss) :: g2 /\ flat_sgs ss = u' ++ x :: w' /\ u = flat g1 ++ p :: u').
Proof.
  induction gs as [|[p ss] gs IH]; intros u x w Q; [destruct u; discriminate Q|]. unfold flat in Q. cbn [flat_map fst snd] in Q. fold (flat gs) in Q.
  destruct u as [|y u].
  - left. cbn [app] in Q. injection Q as <- <-. exists [], ss, gs. auto.
  - cbn [app] in Q. injection Q as <- Q. apply app_eq_app in Q as (l & [[Q1 Q2]|[Q1 Q2]]).
    + destruct l as [|z l].
      * rewrite app_nil_r in Q1. subst u. cbn [app] in Q2. left. destruct gs as [|[p' ss'] gs]; [discriminate Q2|]. unfold flat in Q2. cbn [flat_map fst snd app] in Q2. injection Q2 as -> ->. exists [(p, ss)], ss', gs. split; [reflexivity|]. split; [|reflexivity]. now rewrite flat_one.
      * cbn [app] in Q2. injection Q2 as <- _. right. exists [], p, ss, gs, u, l. auto.
    + destruct (IH _ _ _ Q2) as [(g1 & s' & g2 & -> & E & E')|(g1 & p' & s' & g2 & u' & w' & -> & E & E')].
      * left. exists ((p, ss) :: g1), s', g2. split; [reflexivity|]. split; [|exact E']. unfold flat. cbn [flat_map fst snd]. fold (flat g1). now rewrite Q1, E.
      * right. exists ((p, ss) :: g1), p', s', g2, u', w'. split; [reflexivity|]. split; [exact E|]. unfold flat. cbn [flat_map fst snd]. fold (flat g1). rewrite Q1, E'. cbn [app]. now rewrite <- app_assoc.
Qed.
Lemma repeat_split {A} (x y : A) a : forall l l' r, repeat x a ++ r = l ++ y :: l' -> y <> x -> exists l1, l = repeat x a ++ l1 /\ r = l1 ++ y :: l'.
Proof.
  induction a as [|a IH]; intros l l' r Q N; [exists l; auto|]. cbn [repeat app] in Q. destruct l as [|z l]; cbn [app] in Q; injection Q as Q1 Q2; [congruence|]. subst z.
  destruct (IH _ _ _ Q2 N) as (l1 & -> & ->). exists l1. auto.
Qed.
Lemma prefix_13 st a b c l l' : st <> 13 -> repeat 13 a ++ repeat 17 b ++ repeat st c = l ++ 13 :: l' -> Forall (fun t => t = 13) l.
Proof.
  intros N. revert l. induction a as [|a IH]; intros l Q.
  - exfalso. cbn [repeat app] in Q. assert (I : In 13 (repeat 17 b ++ repeat st c)) by (rewrite Q; apply in_app_iff; right; now left). apply in_app_iff in I as [I|I]; apply repeat_spec in I; [discriminate I|congruence].
  - destruct l as [|z l]; [constructor|]. cbn [repeat app] in Q. injection Q as <- Q. constructor; [reflexivity|]. now apply IH.
Qed.
Lemma prefix_17 st a b c l l' : st <> 13 -> st <> 17 -> repeat 13 a ++ repeat 17 b ++ repeat st c = l ++ 17 :: l' -> Forall (fun t => t = 13 \/ t = 17) l.
Proof.
  intros N N'. revert l. induction a as [|a IH]; intros l Q.
  - cbn [repeat app] in Q. revert l Q. induction b as [|b IHb]; intros l Q.
    + exfalso. cbn [repeat app] in Q. assert (I : In 17 (repeat st c)) by (rewrite Q; apply in_app_iff; right; now left). apply repeat_spec in I. congruence.
    + destruct l as [|z l]; [constructor|]. cbn [repeat app] in Q. injection Q as <- Q. constructor; [now right|]. now apply IHb.
  - destruct l as [|z l]; [constructor|]. cbn [repeat app] in Q. injection Q as <- Q. constructor; [now left|]. now apply IH.
Qed.
Lemma flat_types secret gs p : Forall (group_ok secret) gs -> In p (flat gs) -> In (pkt_type p) (map (fun g => pkt_type (fst g)) gs) \/ pkt_type p = 2 \/ pkt_type p = 12.
Proof.
  intros F I. unfold flat in I. apply in_flat_map in I as (g & Hg & I). destruct I as [<-|I]; [left; exact (in_map (fun g : pkt * sgs => pkt_type (fst g)) _ _ Hg)|].
  rewrite Forall_forall in F. pose proof (F g Hg) as O. unfold group_ok in O. destruct (flat_sgs_types _ _ _ O I) as [[T _]|T]; auto.
Qed.
Lemma well_formed_accepted secret l : well_formed secret l -> validate_key secret l = Ok tt.
Proof.
  intros (k & ss & gs & a & b & c & v & -> & Tk & Hv & Ts & F & D & B & V).
  change (flat ((k, ss) :: gs)) with (k :: flat_sgs ss ++ flat gs). unfold validate_key. replace (pkt_type k =? key_type secret) with true by lia. cbn [negb]. rewrite Hv. cbn [bind]. change (k :: flat_sgs ss ++ flat gs) with (flat ((k, ss) :: gs)).
  apply vf_all. intros u x w Q. cbn [app]. pose proof (kt_st secret) as KS.
  assert (Ty : forall g, In g ((k, ss) :: gs) -> nonsig (fst g) = true /\ pkt_type (fst g) <> 2 /\ pkt_type (fst g) <> 12).
  { intros g I. assert (T : In (pkt_type (fst g)) (key_type secret :: repeat 13 a ++ repeat 17 b ++ repeat (subkey_type secret) c)).
    { rewrite <- Ts. destruct I as [<-|I]; [left; now symmetry|]. right. exact (in_map (fun g : pkt * sgs => pkt_type (fst g)) _ _ I). }
    assert (K : In (pkt_type (fst g)) [key_type secret; 13; 17; subkey_type secret]). { destruct T as [T|T]; [now left|]. rewrite !in_app_iff in T. destruct T as [T|[T|T]]; apply repeat_spec in T; rewrite T; cbn; auto. }
    unfold nonsig. rewrite negb_true_iff, is_one_false. cbn [In] in *. destruct KS as [[K1 K2]|[K1 K2]]; rewrite K1, K2 in K; repeat split; try intros W; lia. }
  assert (Nk : forall p, In p [2; 12; 13; 17; subkey_type secret] -> (p =? key_type secret) = false). { intros p I. cbn [In] in I. destruct KS as [[K1 K2]|[K1 K2]]; rewrite K1; rewrite K2 in I; lia. }
  destruct (flat_split _ _ _ _ Q) as [(g1 & s' & g2 & E & -> & ->)|(g1 & p & s' & g2 & u' & w' & E & E1 & ->)].
  - (* an anchor *)
    destruct g1 as [|g1h g1].
    + cbn [app] in E. injection E as <- <- <-. cbn [flat flat_map]. unfold step. now rewrite Tk, Z.eqb_refl.
    + cbn [app] in E. injection E as <- ->. assert (Tx : In (pkt_type x) (repeat 13 a ++ repeat 17 b ++ repeat (subkey_type secret) c)) by (rewrite <- Ts, map_app; apply in_app_iff; right; now left).
      assert (Fg : Forall (group_ok secret) ((k, ss) :: g1)). { change ((k, ss) :: g1 ++ (x, s') :: g2) with (((k, ss) :: g1) ++ (x, s') :: g2) in F. now apply Forall_app in F. }
      rewrite map_app in Ts. cbn [map fst] in Ts. rewrite !in_app_iff in Tx. unfold step.
      destruct Tx as [Tx|[Tx|Tx]]; apply repeat_spec in Tx; rewrite Tx; (rewrite Nk by (cbn; auto 6)).
      * apply check_true, only_spec. intros q Iq. destruct (flat_types _ _ _ Fg Iq) as [I|[I|I]]; [|rewrite I; cbn; auto..]. destruct I as [I|I]; [rewrite <- I; cbn [fst]; rewrite Tk; now left|].
        rewrite Tx in Ts. symmetry in Ts. apply prefix_13 in Ts; [|destruct KS as [[K1 K2]|[K1 K2]]; rewrite K2; lia]. rewrite Forall_forall in Ts. rewrite (Ts _ I). cbn. auto.
      * change (17 =? 2) with false. change (17 =? 13) with false. cbn iota. apply check_true, only_spec. intros q Iq. destruct (flat_types _ _ _ Fg Iq) as [I|[I|I]]; [|rewrite I; cbn; auto 6..]. destruct I as [I|I]; [rewrite <- I; cbn [fst]; rewrite Tk; now left|].
        rewrite Tx in Ts. symmetry in Ts. apply prefix_17 in Ts; [|destruct KS as [[K1 K2]|[K1 K2]]; rewrite K2; lia..]. rewrite Forall_forall in Ts. destruct (Ts _ I) as [->| ->]; cbn; auto 6.
      * assert (C : c <> 0%nat). { intros ->. cbn [repeat] in Ts. rewrite app_nil_r in Ts. assert (I : In (pkt_type x) (repeat 13 a ++ repeat 17 b)) by (rewrite <- Ts; apply in_app_iff; right; now left). apply in_app_iff in I as [I|I]; apply repeat_spec in I; rewrite Tx in I; destruct KS as [[K1 K2]|[K1 K2]]; rewrite K2 in I; lia. }
        specialize (V C). assert (S1 : exists s ts s2, s' = (s, ts) :: s2). { pose proof (B (x, s')) as B'. destruct s' as [|[s ts] s2]; [|eauto]. exfalso. apply B'; [apply in_app_iff; right; now left|exact Tx|reflexivity]. } destruct S1 as (s & ts & s2 & ->).
        assert (G : group_ok secret (x, (s, ts) :: s2)). { pose proof (Forall_inv_tail F) as F2. rewrite Forall_forall in F2. apply F2. apply in_app_iff. right. now left. }
        unfold group_ok in G. cbn [fst snd] in G. rewrite Tx, allowed_st in G. destruct (Forall_inv G) as (G1 & G2 & _). cbn [fst] in *. destruct G2 as [G2|[]].
        unfold flat_sgs. cbn [flat_map fst snd app hd_error]. replace (v <? 4) with false by lia. rewrite G1, <- G2. destruct KS as [[K1 K2]|[K1 K2]]; rewrite K2; reflexivity.
  - (* inside a group *)
    assert (Ig : In (p, s') ((k, ss) :: gs)) by (rewrite E; apply in_app_iff; right; now left).
    assert (G : Forall (sig_with (allowed secret (pkt_type p))) s'). { rewrite Forall_forall in F. exact (F _ Ig). }
    destruct (Ty _ Ig) as (Np & N2 & N12). cbn [fst] in *.
    assert (Pre : flat ((k, ss) :: gs) = flat (g1 ++ (p, s') :: g2)) by (now rewrite E).
    destruct (flat_sgs_split _ _ _ _ E1) as [(s1 & ts & s2 & -> & ->)|(s1 & s & t1 & t2 & s2 & -> & ->)].
    + (* a signature *)
      assert (G1 : Forall (sig_with (allowed secret (pkt_type p))) s1) by (now apply Forall_app in G). assert (Gx : sig_with (allowed secret (pkt_type p)) (x, ts)) by (apply Forall_app in G as [_ G]; exact (Forall_inv G)).
      destruct Gx as (X1 & X2 & _). cbn [fst snd] in *. unfold step. rewrite X1. rewrite Nk by (cbn; auto). change (2 =? 2) with true. cbn iota.
      destruct (anchor_of _ (flat g1) p s1 G1 Np) as (r0 & Anc). change (filter (fun p => negb (is_one (pkt_type p) [2; 12])) ?z) with (filter nonsig z). rewrite Anc.
      assert (Tp : pkt_type p = key_type secret \/ pkt_type p = 13 \/ pkt_type p = 17 \/ pkt_type p = subkey_type secret).
      { destruct Ig as [Ig|Ig]; [left; congruence|]. right. assert (I : In (pkt_type p) (repeat 13 a ++ repeat 17 b ++ repeat (subkey_type secret) c)) by (rewrite <- Ts; exact (in_map (fun g : pkt * sgs => pkt_type (fst g)) _ _ Ig)). rewrite !in_app_iff in I. destruct I as [I|[I|I]]; apply repeat_spec in I; auto. }
      destruct Tp as [Tp|Tp].
      * (* on the primary key *)
        assert (First : g1 = [] /\ p = k /\ ss = s1 ++ (x, ts) :: s2).
        { destruct g1 as [|h g1]; [cbn [app] in E; injection E as <- -> _; auto|]. exfalso. cbn [app] in E. injection E as _ E. assert (I : In (pkt_type p) (repeat 13 a ++ repeat 17 b ++ repeat (subkey_type secret) c)) by (rewrite <- Ts, E, map_app; apply in_app_iff; right; now left).
          rewrite !in_app_iff in I. destruct I as [I|[I|I]]; apply repeat_spec in I; rewrite Tp in I; destruct KS as [[K1 K2]|[K1 K2]]; rewrite K1 in I; try rewrite K2 in I; lia. }
        destruct First as (-> & -> & Es). rewrite Tp, allowed_kt in X2. cbn [flat flat_map app].
        assert (On : forall q, In q (k :: flat_sgs s1) -> pkt_type q = key_type secret \/ pkt_type q = 2 \/ (pkt_type q = 12 /\ In q (flat_sgs s1))).
        { intros q [<-|I]; [now left|]. right. destruct (flat_sgs_types _ _ _ G1 I) as [[Y _]|Y]; auto. }
        destruct X2 as [X2|[X2|[]]]; rewrite <- X2.
        -- change (31 =? 31) with true. cbn iota. apply check_true, only_spec. intros q Iq. pose proof (D s1 (x, ts) s2 Es (eq_sym X2)) as Nt. destruct (On q Iq) as [Y|[Y|[Y I]]]; [rewrite Y; now left|rewrite Y; right; now left|]. exfalso.
           unfold flat_sgs in I. apply in_flat_map in I as (z & Iz & I). rewrite Forall_forall in Nt, G1. pose proof (Nt z Iz) as Z0. cbn beta in Z0. rewrite Z0 in I. destruct I as [<-|[]]. destruct (G1 z Iz) as (Z1 & _). lia.
        -- change (32 =? 31) with false. change (32 =? 24) with false. change (32 =? 32) with true. cbn iota. apply check_true, only_spec. intros q Iq. destruct (On q Iq) as [Y|[Y|[Y _]]]; rewrite Y; cbn; auto.
      * destruct Tp as [Tp|[Tp|Tp]].
        1, 2: rewrite Tp, allowed_uid in X2 by auto; replace (sig_ty x =? 31) with false by (cbn in X2; lia); replace (sig_ty x =? 24) with false by (cbn in X2; lia); replace (sig_ty x =? 32) with false by (cbn in X2; lia); replace (sig_ty x =? 40) with false by (cbn in X2; lia);
          apply is_one_spec in X2; rewrite X2, Tp; reflexivity.
        rewrite Tp, allowed_st in X2. destruct X2 as [X2|[]]. rewrite <- X2, Tp, !Z.eqb_refl. change (24 =? 31) with false. cbn [negb].
        assert (s1 = [] \/ s1 <> []) as [->|N1] by (destruct s1; [now left|right; discriminate]).
        -- cbn [flat_sgs flat_map]. rewrite before_none by exact N12. apply check_true. replace (pkt_type p =? 2) with false by lia. reflexivity.
        -- destruct (exists_last N1) as (s0 & [s t] & ->). change (flat g1 ++ p :: ?z) with (flat g1 ++ [p] ++ z). rewrite app_assoc. destruct (before_sig _ (flat g1 ++ [p]) s0 s t G1) as (r & ->).
           apply check_true. apply Forall_app in G1 as [_ G1]. destruct (Forall_inv G1) as (_ & Y & _). cbn [fst] in Y. rewrite Tp, allowed_st in Y. destruct Y as [Y|[]]. rewrite <- Y. now rewrite andb_false_r.
    + (* a trust packet *)
      apply Forall_app in G as [_ G]. destruct (Forall_inv G) as (X1 & X2 & X3). cbn [fst snd] in *. apply Forall_app in X3 as [X3 X4]. pose proof (Forall_inv X4) as Tx. cbn beta in Tx.
      unfold step. rewrite Tx. rewrite Nk by (cbn; auto). change (12 =? 2) with false. change (12 =? 13) with false. change (12 =? 17) with false. change ((12 =? 14) || (12 =? 7)) with false. change (12 =? 12) with true. cbn iota.
      destruct (before_sig (allowed secret (pkt_type p)) (flat g1 ++ [p] ++ flat_sgs s1) [] s t1) as (r & Br). { constructor; [|constructor]. repeat split; assumption. }
      replace (flat g1 ++ p :: flat_sgs s1 ++ s :: t1) with ((flat g1 ++ [p] ++ flat_sgs s1) ++ flat_sgs ([] ++ [(s, t1)])).
      2:{ unfold flat_sgs at 2. cbn [flat_map app fst snd]. rewrite app_nil_r, <- !app_assoc. reflexivity. }
      rewrite Br. apply check_true. lia.
Qed.
