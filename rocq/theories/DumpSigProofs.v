From Verif Require Import Base BaseProofs Utils Text Regex DumpSig.

Lemma beq_eq f g : field_beq f g = true <-> f = g.
Proof. split; [apply internal_field_dec_bl|apply internal_field_dec_lb]. Qed.
Lemma beq_refl f : field_beq f f = true. Proof. now apply beq_eq. Qed.
Lemma beq_neq f g : f <> g -> field_beq f g = false.
Proof. intros H. destruct (field_beq f g) eqn:E; [|reflexivity]. apply beq_eq in E. congruence. Qed.
Lemma lookup_assign1 l f v g : lookup (assign1 l f v) g = if field_beq f g then Some v else lookup l g.
Proof.
  induction l as [|[a w] l IH]; cbn [assign1 lookup]; [reflexivity|]. destruct (field_beq a f) eqn:E.
  - apply beq_eq in E. subst a. cbn [lookup]. destruct (field_beq f g); reflexivity.
  - cbn [lookup]. rewrite IH. destruct (field_beq a g) eqn:E2; [|reflexivity]. apply beq_eq in E2. subst a. rewrite beq_neq; [reflexivity|]. intros ->. rewrite beq_refl in E. discriminate E.
Qed.
Lemma assign_snoc l u f v : assign l (u ++ [(f, v)]) = assign1 (assign l u) f v.
Proof. unfold assign. rewrite fold_left_app. reflexivity. Qed.
Lemma lookup_assign_out u : forall l f, ~ In f (map fst u) -> lookup (assign l u) f = lookup l f.
Proof.
  induction u as [|[g v] u IH]; intros l f H; [reflexivity|]. unfold assign in *. cbn [fold_left fst snd]. cbn [map fst In] in H. rewrite IH by tauto. rewrite lookup_assign1, beq_neq; [reflexivity|]. intros ->. tauto.
Qed.
(** the lookup after an assignment depends on the lookup before it only *)
Lemma lookup_assign_cong u : forall l m f, lookup l f = lookup m f -> lookup (assign l u) f = lookup (assign m u) f.
Proof.
  induction u as [|[g v] u IH]; intros l m f H; [exact H|]. unfold assign in *. cbn [fold_left fst snd]. apply IH. rewrite !lookup_assign1, H. reflexivity.
Qed.
Lemma lookup_assign_in u : forall l f v, lookup (assign l u) f = Some v -> lookup l f = Some v \/ In (f, v) u.
Proof.
  induction u as [|[g w] u IH]; intros l f v H; [auto|]. unfold assign in *. cbn [fold_left fst snd] in H. apply IH in H as [H|H]; [|auto with datatypes]. rewrite lookup_assign1 in H. destruct (field_beq g f) eqn:E; [|auto]. apply beq_eq in E. subst g. injection H as <-. right. now left.
Qed.

(** which type of subpacket a key of the dictionary belongs to *)
Definition type_of (f : field) : Z :=
  match f with
  | hash_algorithm_type | pub_algorithm_type | sig_type | sig_version => -1
  | creation_time => 2 | expiration_seconds => 3 | exportable => 4 | trust_level | trust_amount => 5 | regex => 6 | revocable => 7
  | key_expiration_seconds => 9 | preferred_sym_algorithms => 11 | revocation_key_sensitive | revocation_key_pub_algorithm_type | revocation_key => 12
  | preferred_hash_algorithms => 21 | preferred_compression_algorithms => 22 | key_server_no_modify => 23 | preferred_key_server => 24 | primary => 25
  | policy_uri => 26
  | may_certify_others | may_sign_data | may_encrypt_comms | may_encrypt_storage | may_have_been_split | may_be_used_for_auth | may_have_multiple_owners => 27
  | user_id => 28 | revocation_code | revocation_reason => 29 | supports_modification_detection => 30
  | target_pub_key_algorithm | target_hash_algorithm | target_hash | target => 31
  end.
Lemma keys_type k fs f : keys_of_type k = Some fs -> In f fs -> type_of f = k.
Proof.
  unfold keys_of_type. intros H I.
  repeat match type of H with match ?x with _ => _ end = _ => destruct x; try discriminate H end; injection H as <-; cbn [In] in I; repeat destruct I as [<-|I]; try contradiction; reflexivity.
Qed.
Section S.
Variables (utf8r : bytes -> text) (b64 : bytes -> text) (emb : bytes -> res dsig).
Notation simple := (simple utf8r).
Notation parse_sub := (parse_sub utf8r b64 emb).
Notation parse_subs := (parse_subs utf8r b64 emb).
Definition self_only (f : field) : bool :=
  match f with
  | key_expiration_seconds | preferred_sym_algorithms | preferred_hash_algorithms | preferred_compression_algorithms | key_server_no_modify | primary
  | may_have_been_split | may_have_multiple_owners | supports_modification_detection => true
  | _ => false
  end.
Ltac ones H := repeat match type of H with
  | bind _ _ = Ok _ => let a := fresh "a" in let E := fresh "E" in apply bind_ok in H as (a & E & H)
  | (if ?b then _ else _) = Ok _ => destruct b eqn:?; try discriminate H
  end.
Lemma simple_facts t hs cr d self ty owner u : simple t hs cr d self ty owner = Ok u ->
  forall f v, In (f, v) u -> type_of f = t /\ (self_only f = true -> self = true) /\ (f = creation_time -> hs = true /\ exists n, long_to_int d 0 = Ok n /\ v = FI n).
Proof.
  unfold DumpSig.simple. intros H f v I.
  repeat match type of H with match ?x with _ => _ end = _ => (let T := type of x in match T with Z => idtac | positive => idtac end); destruct x; try (destruct cr; [discriminate H|]; injection H as <-; destruct I; fail) end;
  ones H; injection H as <-;
  repeat match type of I with In _ (if ?b then _ else _) => destruct b eqn:? | In _ (_ ++ _) => apply in_app_iff in I as [I|I] end;
  cbn [In] in I; repeat destruct I as [I|I]; try contradiction; try (match type of I with In _ (if ?b then _ else _) => destruct b eqn:?; cbn [In] in I; repeat destruct I as [I|I]; try contradiction end); injection I as <- <-;
  lazymatch goal with |- _ => split; [reflexivity|]; split; [intros Z; try discriminate Z; try reflexivity; (destruct self; try reflexivity; cbn in *; congruence)|intros X; try discriminate X] end.
  split; [destruct hs; [reflexivity|cbn in *; congruence]|eauto].
Qed.
(** a step changes only keys of its own type; never selfsig, the ids or the list hashed *)
Lemma step_keeps owner ty s b s' : parse_sub owner ty s b = Ok s' ->
  e_self s' = e_self s /\ e_ids s' = e_ids s /\ e_hashed s' = e_hashed s /\
  (e_fields s' = e_fields s \/ exists u, simple (b_type b) (b_hashed b) (b_critical b) (b_data b) (e_self s) ty owner = Ok u /\ e_fields s' = assign (e_fields s) u).
Proof.
  unfold DumpSig.parse_sub. cbv zeta. intros H.
  assert (Emb : forall k d x, parse_embedded emb k d = Ok x -> False).
  { intros k d x E. unfold parse_embedded in E. apply bind_ok in E as (g & _ & E). destruct (is_one _ _); [discriminate E|]. destruct (4 <=? g_version g); [|discriminate E]. apply bind_ok in E as (? & _ & E). discriminate E. }
  assert (Def : forall t, b_type b = t -> (do u <- simple t (b_hashed b) (b_critical b) (b_data b) (e_self s) ty owner;; Ok (with_fields s (assign (e_fields s) u))) = Ok s' ->
    e_self s' = e_self s /\ e_ids s' = e_ids s /\ e_hashed s' = e_hashed s /\ (e_fields s' = e_fields s \/ exists u, simple (b_type b) (b_hashed b) (b_critical b) (b_data b) (e_self s) ty owner = Ok u /\ e_fields s' = assign (e_fields s) u)).
  { intros t <- E. apply bind_ok in E as (u & Eu & E). injection E as <-. cbn. repeat split. right. exists u. auto. }
  destruct (b_type b) as [|q|q] eqn:T; try (apply (Def _ eq_refl H)).
  repeat (match type of H with match ?x with xI _ => _ | _ => _ end = _ => destruct x end; try (apply (Def _ eq_refl H))).
  - destruct (validate_subpacket_regex _); [|injection H as <-; auto|discriminate H]. injection H as <-. cbn. auto.
  - apply bind_ok in H as (n & _ & H). destruct n; [|injection H as <-; auto]. destruct (b_critical b); [discriminate H|]. injection H as <-. cbn. auto.
  - apply bind_ok in H as (x & E & _). exfalso. eapply Emb. exact E.
Qed.

Lemma subs_app owner ty a : forall s b, parse_subs owner ty s (a ++ b) = (do s <- parse_subs owner ty s a;; parse_subs owner ty s b).
Proof. induction a as [|x a IH]; intros s b; [reflexivity|]. cbn [app DumpSig.parse_subs]. destruct (b_type x =? 16); [apply IH|]. destruct (parse_sub owner ty s x); cbn [bind]; [apply IH|reflexivity]. Qed.
Lemma subs_keep owner ty l : forall s s', parse_subs owner ty s l = Ok s' ->
  e_self s' = e_self s /\ e_ids s' = e_ids s /\ e_hashed s' = e_hashed s /\ forall f, (forall b, In b l -> b_type b <> type_of f) -> lookup (e_fields s') f = lookup (e_fields s) f.
Proof.
  induction l as [|b l IH]; intros s s' H; [injection H as <-; auto|]. cbn [DumpSig.parse_subs] in H. destruct (b_type b =? 16).
  { destruct (IH _ _ H) as (A & B & C & D). repeat split; auto. intros f Hf. apply D. intros x I. apply Hf. now right. }
  apply bind_ok in H as (s1 & H1 & H). destruct (IH _ _ H) as (A & B & C & D). apply step_keeps in H1 as (A1 & B1 & C1 & D1). repeat split; try congruence. intros f Hf.
  rewrite D by (intros x I; apply Hf; now right). destruct D1 as [-> | (u & Eu & ->)]; [reflexivity|]. apply lookup_assign_out. intros I. apply in_map_iff in I as ([g v] & E & I). cbn in E. subst g. destruct (simple_facts _ _ _ _ _ _ _ _ Eu f v I) as [T _]. apply (Hf b); [now left|]. now rewrite T.
Qed.
Lemma subs_cong owner ty l : forall s m s' m' f, e_self s = e_self m -> lookup (e_fields s) f = lookup (e_fields m) f -> parse_subs owner ty s l = Ok s' -> parse_subs owner ty m l = Ok m' ->
  lookup (e_fields s') f = lookup (e_fields m') f.
Proof.
  induction l as [|b l IH]; intros s m s' m' f Hs Hf H G; [injection H as <-; injection G as <-; exact Hf|]. cbn [DumpSig.parse_subs] in H, G. destruct (b_type b =? 16); [eapply IH; eauto|].
  apply bind_ok in H as (s1 & H1 & H). apply bind_ok in G as (m1 & G1 & G). pose proof (step_keeps _ _ _ _ _ H1) as (A & _ & _ & D). pose proof (step_keeps _ _ _ _ _ G1) as (A' & _ & _ & D').
  eapply (IH s1 m1); [congruence| |exact H|exact G].
  assert (X : forall s s1, parse_sub owner ty s b = Ok s1 -> (exists u, simple (b_type b) (b_hashed b) (b_critical b) (b_data b) (e_self s) ty owner = Ok u /\ e_fields s1 = assign (e_fields s) u) \/ (is_one (b_type b) [6; 20; 32] = true /\ e_fields s1 = e_fields s)).
  { clear. intros s s1 H. destruct (is_one (b_type b) [6; 20; 32]) eqn:O.
    - right. split; [reflexivity|]. destruct (step_keeps _ _ _ _ _ H) as (_ & _ & _ & [E | (u & Eu & E)]); [exact E|]. rewrite E. cbn in O. assert (T : b_type b = 6 \/ b_type b = 20 \/ b_type b = 32) by lia.
      destruct T as [T | [T | T]]; rewrite T in Eu; cbn in Eu; (destruct (b_critical b); [discriminate Eu|]); injection Eu as <-; reflexivity.
    - left. unfold DumpSig.parse_sub in H. cbv zeta in H. assert (T : b_type b <> 6 /\ b_type b <> 20 /\ b_type b <> 32) by (cbn in O; lia). remember (b_type b) as t. clear Heqt O.
      assert (E : (do u <- simple t (b_hashed b) (b_critical b) (b_data b) (e_self s) ty owner;; Ok (with_fields s (assign (e_fields s) u))) = Ok s1).
      { destruct t as [|t|t]; [exact H| |exact H]. repeat (match type of H with match ?x with xI _ => _ | _ => _ end = _ => destruct x end; try exact H); exfalso; lia. }
      apply bind_ok in E as (u & Eu & E). injection E as <-. exists u. auto. }
  destruct (X _ _ H1) as [(u & Eu & ->) | [O ->]], (X _ _ G1) as [(u' & Eu' & ->) | [O' ->]].
  - rewrite Hs in Eu. rewrite Eu in Eu'. injection Eu' as <-. now apply lookup_assign_cong.
  - cbn in O'. assert (T : b_type b = 6 \/ b_type b = 20 \/ b_type b = 32) by lia. destruct T as [T | [T | T]]; rewrite T in Eu; cbn in Eu; (destruct (b_critical b); [discriminate Eu|]); injection Eu as <-; exact Hf.
  - cbn in O. assert (T : b_type b = 6 \/ b_type b = 20 \/ b_type b = 32) by lia. destruct T as [T | [T | T]]; rewrite T in Eu'; cbn in Eu'; (destruct (b_critical b); [discriminate Eu'|]); injection Eu' as <-; exact Hf.
  - exact Hf.
Qed.
(** where a value comes from: the initial dictionary, or the last assignment *)
Lemma subs_value owner ty l : forall s s' f v, parse_subs owner ty s l = Ok s' -> lookup (e_fields s') f = Some v ->
  lookup (e_fields s) f = Some v \/ exists b u, In b l /\ simple (b_type b) (b_hashed b) (b_critical b) (b_data b) (e_self s) ty owner = Ok u /\ In (f, v) u.
Proof.
  induction l as [|b l IH]; intros s s' f v H G; [injection H as <-; auto|]. cbn [DumpSig.parse_subs] in H. destruct (b_type b =? 16).
  { destruct (IH _ _ _ _ H G) as [E | (x & u & I & E)]; [auto|]. right. exists x, u. split; [now right|exact E]. }
  apply bind_ok in H as (s1 & H1 & H). pose proof (step_keeps _ _ _ _ _ H1) as (A & _ & _ & D). destruct (IH _ _ _ _ H G) as [E | (x & u & I & E)].
  - destruct D as [D | (u & Eu & D)]; rewrite D in E; [auto|]. apply lookup_assign_in in E as [E|E]; [auto|]. right. exists b, u. split; [now left|auto].
  - right. exists x, u. split; [now right|]. rewrite A in E. exact E.
Qed.
Lemma embedded_never k d x : parse_embedded emb k d = Ok x -> False.
Proof. intros E. unfold parse_embedded in E. apply bind_ok in E as (g & _ & E). destruct (is_one _ _); [discriminate E|]. destruct (4 <=? g_version g); [|discriminate E]. apply bind_ok in E as (? & _ & E). discriminate E. Qed.
(** a subpacket that cannot be parsed: no dictionary *)
Lemma bad_sub owner ty a b c s s' : b_type b <> 16 -> (forall s s1, parse_sub owner ty s b = Ok s1 -> False) -> parse_subs owner ty s (a ++ b :: c) = Ok s' -> False.
Proof. intros N H E. rewrite subs_app in E. apply bind_ok in E as (s1 & _ & E). cbn [DumpSig.parse_subs] in E. replace (b_type b =? 16) with false in E by lia. apply bind_ok in E as (s2 & E & _). eauto. Qed.
Lemma known_types t hs cr d self ty owner : keys_of_type t = None -> simple t hs cr d self ty owner = if cr then Err CannotParseCritical else Ok [].
Proof.
  unfold keys_of_type, DumpSig.simple. intros H.
  repeat match type of H with match ?x with _ => _ end = _ => destruct x; try discriminate H end; reflexivity.
Qed.
Lemma plain_type owner ty s b : is_one (b_type b) [6; 20; 32] = false -> parse_sub owner ty s b = (do u <- simple (b_type b) (b_hashed b) (b_critical b) (b_data b) (e_self s) ty owner;; Ok (with_fields s (assign (e_fields s) u))).
Proof.
  intros O. unfold DumpSig.parse_sub. cbv zeta. cbn [is_one existsb] in O. assert (T : b_type b <> 6 /\ b_type b <> 20 /\ b_type b <> 32) by lia. clear O. destruct (b_type b) as [|t|t]; [reflexivity| |reflexivity].
  repeat (match goal with |- match ?x with xI _ => _ | _ => _ end = _ => destruct x end; try reflexivity); exfalso; lia.
Qed.
End S.

(** ** the flags *)
Fixpoint flag_get (l : list (Z * bool)) (k : Z) : option bool := match l with [] => None | (j, v) :: t => if j =? k then Some v else flag_get t k end.
Lemma flag_get1 l k v j : flag_get (flag1 l k v) j = if k =? j then Some v else flag_get l j.
Proof.
  induction l as [|[a w] l IH]; cbn [flag1 flag_get]; [reflexivity|]. destruct (a =? k) eqn:E; cbn [flag_get].
  - replace (a =? j) with (k =? j) by lia. destruct (k =? j); reflexivity.
  - rewrite IH. destruct (a =? j) eqn:E2, (k =? j) eqn:E3; try reflexivity. lia.
Qed.
Lemma flag_in1 l k v j w : NoDup (map fst l) -> In (j, w) (flag1 l k v) -> (j = k /\ w = v) \/ (j <> k /\ In (j, w) l).
Proof.
  induction l as [|[a x] l IH]; intros N I; cbn [flag1] in I; [destruct I as [I|[]]; injection I as <- <-; auto|]. cbn [map fst] in N. inversion N as [|? ? Na Nl]; subst. destruct (a =? k) eqn:E.
  - destruct I as [I|I]; [injection I as <- <-; left; split; [lia|reflexivity]|]. right. split; [|now right]. intros ->. apply Na. replace a with k by lia. exact (in_map fst _ _ I).
  - destruct I as [I|I]; [injection I as <- <-; right; split; [lia|now left]|]. destruct (IH Nl I) as [?|[? ?]]; [auto|]. right. split; [assumption|now right].
Qed.
Lemma flag_keys l k v j : In j (map fst (flag1 l k v)) -> j = k \/ In j (map fst l).
Proof. induction l as [|[a x] l IH]; cbn [flag1 map fst In]; [intros [<-|[]]; auto|]. destruct (a =? k) eqn:E; cbn [map fst In]; [tauto|]. intros [?|I]; [tauto|]. apply IH in I. tauto. Qed.
Lemma flag_nodup l k v : NoDup (map fst l) -> NoDup (map fst (flag1 l k v)).
Proof.
  induction l as [|[a x] l IH]; intros N; cbn [flag1]; [constructor; [intros []|constructor]|]. cbn [map fst] in N. inversion N as [|? ? Na Nl]; subst. destruct (a =? k) eqn:E; [exact N|]. cbn [map fst]. constructor; [|auto].
  intros I. apply flag_keys in I as [->|I]; [lia|auto].
Qed.
Definition special (b : dsub) : bool := is_one (b_type b) [6; 16; 20; 32].
Lemma flags_snoc sh l b : flags sh (l ++ [b]) = if special b then flags sh l else flag1 (flags sh l) (b_type b) (sh || b_hashed b).
Proof. unfold flags, special. rewrite fold_left_app. reflexivity. Qed.
Lemma flags_nodup sh l : NoDup (map fst (flags sh l)).
Proof. induction l as [|b l IH] using rev_ind; [constructor|]. rewrite flags_snoc. destruct (special b); [exact IH|now apply flag_nodup]. Qed.
Lemma flags_in sh l k v : In (k, v) (flags sh l) -> exists a b c, l = a ++ b :: c /\ b_type b = k /\ special b = false /\ v = (sh || b_hashed b)%bool /\ forall x, In x c -> b_type x <> k.
Proof.
  induction l as [|y l IH] using rev_ind; [intros []|]. rewrite flags_snoc. destruct (special y) eqn:S.
  - intros I. destruct (IH I) as (a & b & c & -> & T & Sb & V & F). exists a, b, (c ++ [y]). rewrite <- app_assoc. repeat split; auto. intros x Hx. apply in_app_iff in Hx as [Hx|[<-|[]]]; [auto|]. intros E. unfold special in *. rewrite E, <- T in S. congruence.
  - intros I. apply flag_in1 in I as [[-> ->] | [N I]]; [| |apply flags_nodup].
    + exists l, y, []. split; [reflexivity|]. split; [reflexivity|]. split; [exact S|]. split; [reflexivity|intros x []].
    + destruct (IH I) as (a & b & c & -> & T & Sb & V & F). exists a, b, (c ++ [y]). rewrite <- app_assoc. repeat split; auto. intros x Hx. apply in_app_iff in Hx as [Hx|[<-|[]]]; auto.
Qed.
Lemma flags_last sh a b c : special b = false -> (forall x, In x c -> b_type x <> b_type b) -> In (b_type b, sh || b_hashed b)%bool (flags sh (a ++ b :: c)).
Proof.
  intros S F. assert (G : flag_get (flags sh (a ++ b :: c)) (b_type b) = Some (sh || b_hashed b)%bool).
  { induction c as [|y c IH] using rev_ind; [rewrite flags_snoc, S, flag_get1, Z.eqb_refl; reflexivity|]. replace (a ++ b :: c ++ [y]) with ((a ++ b :: c) ++ [y]) by (rewrite <- app_assoc; reflexivity). rewrite flags_snoc.
    assert (IH' := IH (fun x Hx => F x (in_or_app _ _ _ (or_introl Hx)))). destruct (special y); [exact IH'|]. rewrite flag_get1. assert (b_type y <> b_type b) by (apply F, in_or_app; right; now left). replace (b_type y =? b_type b) with false by lia. exact IH'. }
  revert G. generalize (flags sh (a ++ b :: c)). intros l. induction l as [|[j v] l IH]; cbn [flag_get]; [discriminate|]. destruct (j =? b_type b) eqn:E; [intros X; injection X as ->; left; f_equal; lia|]. intros X. right. auto.
Qed.
Lemma listed_in l fs f : listed l = Ok fs -> In f fs -> exists k ks, In (k, true) l /\ keys_of_type k = Some ks /\ In f ks.
Proof.
  revert fs. induction l as [|[k v] l IH]; intros fs H I; cbn [listed] in H; [injection H as <-; destruct I|]. destruct ((k =? 0) || negb v) eqn:E.
  - destruct (IH fs H I) as (j & ks & J & K). exists j, ks. split; [now right|exact K].
  - destruct (keys_of_type k) as [ks|] eqn:K; [|discriminate H]. apply bind_ok in H as (r & H & G). injection G as <-. apply in_app_iff in I as [I|I].
    + exists k, ks. destruct v; [|cbn in E; lia]. repeat split; auto. now left.
    + destruct (IH r H I) as (j & ks' & J & K'). exists j, ks'. split; [now right|exact K'].
Qed.
Lemma listed_bad l k : In (k, true) l -> k <> 0 -> keys_of_type k = None -> listed l = Err TypeError.
Proof.
  induction l as [|[j v] l IH]; intros I N K; [destruct I|]. cbn [listed]. destruct I as [I|I].
  - injection I as -> ->. replace (k =? 0) with false by lia. cbn [orb negb]. now rewrite K.
  - specialize (IH I N K). destruct ((j =? 0) || negb v); [exact IH|]. destruct (keys_of_type j); [rewrite IH; reflexivity|reflexivity].
Qed.
