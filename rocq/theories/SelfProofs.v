(** Proofs: the governing self-signature. *)
From Verif Require Import Base BaseProofs Text SigPackets SigAttrs SpecAttrs AttrsProofs IssuerProofs SelfSig SpecSelf.

Lemma meet_spec a b : meet a b = true <-> exists x, In x a /\ In x b.
Proof.
  unfold meet. rewrite existsb_exists. split.
  - intros (x & Hx & E). apply existsb_in in E. eauto.
  - intros (x & Hx & Hb). exists x. split; [exact Hx|]. now apply existsb_in.
Qed.
Lemma is_in_spec t l : is_in t l = true <-> In t l.
Proof. unfold is_in. rewrite existsb_exists. split; [intros (x & Hx & E); replace t with x by lia; exact Hx|]. intros H. exists t. split; [exact H|lia]. Qed.
Section L.
Variable local : Z -> res Z.
Lemma candidate_fun own types k c c' : candidate local own types k c -> candidate local own types k c' -> c = c'.
Proof. intros (_ & _ & A) (_ & _ & B). congruence. Qed.
(** the loop: the last candidate after 1900 wins *)
Lemma most_recent_loop own types : modern local -> forall sigs i acc r, most_recent_from local own types sigs i acc = Ok r ->
  (exists j k c, nth_error sigs j = Some k /\ candidate local own types k c /\ r = Some (i + j)%nat /\ forall j' k' c', (j < j')%nat -> nth_error sigs j' = Some k' -> ~ candidate local own types k' c') \/
  (r = acc /\ forall j k c, nth_error sigs j = Some k -> ~ candidate local own types k c).
Proof.
  intros M. induction sigs as [|k sigs IH]; intros i acc r H; cbn [most_recent_from] in H.
  - right. injection H as <-. split; [reflexivity|]. intros j k c E. destruct j; discriminate E.
  - destruct (sig_issuers k) as [ids|] eqn:Ei; [|discriminate H]. cbn [bind] in H.
    assert (Skip : (forall c, ~ candidate local own types k c) -> most_recent_from local own types sigs (S i) acc = Ok r ->
      (exists j k0 c, nth_error (k :: sigs) j = Some k0 /\ candidate local own types k0 c /\ r = Some (i + j)%nat /\ forall j' k' c', (j < j')%nat -> nth_error (k :: sigs) j' = Some k' -> ~ candidate local own types k' c') \/
      (r = acc /\ forall j k0 c, nth_error (k :: sigs) j = Some k0 -> ~ candidate local own types k0 c)).
    { intros N H'. destruct (IH _ _ _ H') as [(j & k0 & c & E & C & Er & L)|(Er & L)].
      - left. exists (S j), k0, c. split; [exact E|]. split; [exact C|]. split; [rewrite Er; f_equal; lia|]. intros j' k' c' Hj E'. destruct j' as [|j']; [lia|]. apply (L j' k' c'); [lia|exact E'].
      - right. split; [exact Er|]. intros j k0 c E. destruct j as [|j]; [injection E as <-; apply N|]. now apply (L j). }
    destruct (meet ids own) eqn:Em; cbn [negb] in H.
    2:{ apply Skip; [|exact H]. intros c ((ids' & x & E' & X1 & X2) & _). rewrite Ei in E'. injection E' as <-. assert (meet ids own = true) by (apply meet_spec; eauto). congruence. }
    destruct (is_in (k_type k) types) eqn:Et; cbn [negb] in H.
    2:{ apply Skip; [|exact H]. intros c (_ & It & _). apply is_in_spec in It. congruence. }
    destruct (sig_created local k) as [c|] eqn:Ec; [|discriminate H]. cbn [bind] in H.
    assert (C : candidate local own types k c). { split; [|split; [now apply is_in_spec|exact Ec]]. apply meet_spec in Em as (x & X1 & X2). exists ids, x. auto. }
    assert (Y : year_1900 <? c = true).
    { unfold sig_created in Ec. destruct (k_body k) as [s|]; [|discriminate Ec]. unfold get_creation_time in Ec. destruct (get_value s 2 ATime) as [v|]; [|discriminate Ec]. cbn [bind] in Ec. unfold year_1900.
      destruct v; try discriminate Ec; apply M in Ec; lia. }
    rewrite Y in H. left. destruct (IH _ _ _ H) as [(j & k0 & c0 & E & C0 & Er & L)|(Er & L)].
    + exists (S j), k0, c0. split; [exact E|]. split; [exact C0|]. split; [rewrite Er; f_equal; lia|]. intros j' k' c' Hj E'. destruct j' as [|j']; [lia|]. apply (L j' k' c'); [lia|exact E'].
    + exists O, k, c. split; [reflexivity|]. split; [exact C|]. split; [rewrite Er; f_equal; lia|]. intros j' k' c' Hj E'. destruct j' as [|j']; [lia|]. apply (L j' k' c' E').
Qed.
Lemma most_recent_v3 own types sigs i acc k t d : nth_error sigs i = Some k -> k_body k = V3 t d -> forall j r, most_recent_from local own types sigs j acc <> Ok r.
Proof.
  revert i acc. induction sigs as [|x sigs IH]; intros i acc E B j r H; [destruct i; discriminate E|]. cbn [most_recent_from] in H.
  destruct i as [|i].
  - injection E as ->. unfold sig_issuers in H. rewrite B in H. discriminate H.
  - cbn [nth_error] in E. destruct (sig_issuers x); [|discriminate H]. cbn [bind] in H. destruct (negb (meet a own)); [exact (IH i _ E B _ _ H)|]. destruct (negb (is_in (k_type x) types)); [exact (IH i _ E B _ _ H)|].
    destruct (sig_created local x); [|discriminate H]. cbn [bind] in H. exact (IH i _ E B _ _ H).
Qed.
(** the loop looks at nothing but issuers, types and times *)
Lemma most_recent_same own types : forall a b i acc, Forall2 (fun x y => k_type x = k_type y /\ sig_issuers x = sig_issuers y /\ sig_created local x = sig_created local y) a b ->
  most_recent_from local own types a i acc = most_recent_from local own types b i acc.
Proof.
  induction a as [|x a IH]; intros b i acc F; inversion F as [|x' y a' b' (E1 & E2 & E3) F']; subst; [reflexivity|]. cbn [most_recent_from]. rewrite E1, E2, E3.
  destruct (sig_issuers y); [|reflexivity]. cbn [bind]. rewrite !(IH b' (S i) acc F'). destruct (negb (meet a0 own)); [reflexivity|]. destruct (negb (is_in (k_type y) types)); [reflexivity|].
  destruct (sig_created local y); [|reflexivity]. cbn [bind]. apply IH, F'.
Qed.
Lemma set_nth_same {P : ksig -> ksig -> Prop} (l : list ksig) i k0 k : (forall x, P x x) -> nth_error l i = Some k0 -> P k0 k -> Forall2 P l (set_nth i k l).
Proof.
  intros R. revert i. induction l as [|x l IH]; intros i E H; [destruct i; discriminate E|]. destruct i as [|i]; cbn [set_nth].
  - injection E as ->. constructor; [exact H|]. clear -R. induction l; constructor; auto.
  - constructor; [apply R|]. now apply IH.
Qed.
Lemma nth_set_nth l i k k0 : nth_error l i = Some k0 -> nth_error (set_nth i k l) i = Some k.
Proof. revert i. induction l as [|x l IH]; intros i E; [destruct i; discriminate E|]. destruct i; [reflexivity|]. exact (IH i E). Qed.
Lemma set_prop_stays s p v s' : (fst (setter p) <> 2 /\ fst (setter p) <> 16) -> set_prop s p v = Ok s' ->
  get_issuer_key_ids s' = get_issuer_key_ids s /\ get_creation_time local s' = get_creation_time local s.
Proof.
  intros [A B] E. unfold set_prop in E. split.
  - unfold get_issuer_key_ids, get_values. rewrite (update_other_type _ _ _ _ _ 16 E); [reflexivity|lia].
  - unfold get_creation_time, get_value. rewrite (update_other_type _ _ _ _ _ 2 E); [reflexivity|lia].
Qed.
Lemma key_set_get o n p v o' : fst (fst (mixin_table n)) = AProp p -> In p (single ++ own_flags) -> key_set local o n v = Ok o' -> 4 <= sd_version o -> key_get local o' n = Ok (KVal v) /\ most_recent local o' (snd (mixin_table n)) = most_recent local o (snd (mixin_table n)).
Proof.
  intros T I H V. unfold key_set, key_get in *. destruct (mixin_table n) as [[a d] rev] eqn:Et. cbn [fst snd] in *. subst a. replace (4 <=? sd_version o) with true in H by lia.
  destruct (most_recent local o rev) as [[i|]|] eqn:Em; cbn [bind] in H; try discriminate H. destruct (nth_error (sd_sigs o) i) as [[ty [s|] vals vd]|] eqn:En; try discriminate H.
  destruct (set_prop s p v) as [s'|] eqn:Es; cbn [bind] in H; [|discriminate H]. injection H as <-.
  assert (K : fst (setter p) <> 2 /\ fst (setter p) <> 16). { rewrite (set_setter p I). unfold single, own_flags in I. cbn [app In] in I. repeat destruct I as [<-|I]; try (cbn; lia). }
  destruct (set_prop_stays s p v s' K Es) as [S1 S2].
  assert (Q : most_recent local (Signed (sd_version o) (sd_self o) (sd_rev o) (sd_own o) (set_nth i (KSig ty (V4 s') vals vd) (sd_sigs o))) rev = Ok (Some i)).
  { rewrite <- Em. unfold most_recent. cbn [sd_self sd_rev sd_own sd_sigs]. symmetry. apply most_recent_same.
    eapply (set_nth_same (P := fun x y => k_type x = k_type y /\ sig_issuers x = sig_issuers y /\ sig_created local x = sig_created local y)); [auto|exact En|]. cbn [k_type]. split; [reflexivity|]. split; [symmetry; exact S1|symmetry; exact S2]. }
  split; [|exact Q]. unfold mixin_get. cbn [sd_version sd_sigs]. replace (4 <=? sd_version o) with true by lia. rewrite Q. cbn [bind]. rewrite (nth_set_nth _ _ _ _ En). cbn [sig_attr k_body].
  unfold set_prop in Es. rewrite (set_setter p I) in Es. unfold get_prop. rewrite (update_get _ _ _ _ _ Es). reflexivity.
Qed.
End L.
Lemma first_flags h u x : find (fun x => sub_type x =? 27) (h ++ u) = Some x -> exists l, get_subs (sig_obj_of h u) 27 = obj_of x :: l.
Proof.
  unfold get_subs, sig_obj_of. cbn [so_hashed so_unhashed]. rewrite <- map_app. induction (h ++ u) as [|y l IH]; [discriminate|]. cbn [find map filter]. rewrite obj_type. destruct (sub_type y =? 27) eqn:E; [|exact IH].
  intros H. injection H as <-. eauto.
Qed.
