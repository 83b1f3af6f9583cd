(** C87: asking for passphrases at the terminal. *)
From Coq Require Import String.
From Verif Require Import Base BaseProofs Text Pinentry SpecPinentry.
Open Scope Z_scope.

Lemma recall_store c k v j : recall (store c k v) j = if zlist_eqb k j then Some v else recall c j.
Proof.
  induction c as [|[a w] c IH]; cbn [store recall]; [reflexivity|]. destruct (zlist_eqb a k) eqn:E; cbn [recall].
  - apply zlist_eqb_spec in E. subst a. destruct (zlist_eqb k j); reflexivity.
  - rewrite IH. destruct (zlist_eqb a j) eqn:E2; [|reflexivity]. apply zlist_eqb_spec in E2. subst a. destruct (zlist_eqb k j) eqn:E3; [|reflexivity]. apply zlist_eqb_spec in E3. subst j. rewrite zlist_eqb_refl in E. discriminate E.
Qed.
Definition once (c : cache) : Prop := NoDup (map fst c).
Lemma store_keys c k v j : In j (map fst (store c k v)) -> j = k \/ In j (map fst c).
Proof. induction c as [|[a w] c IH]; cbn [store map fst In]; [intros [<-|[]]; auto|]. destruct (zlist_eqb a k); cbn [map fst In]; [tauto|]. intros [?|I]; [tauto|]. apply IH in I. tauto. Qed.
Lemma store_once c k v : once c -> once (store c k v).
Proof.
  induction c as [|[a w] c IH]; unfold once in *; cbn [store map fst]; intros N; [constructor; [intros []|constructor]|]. inversion N as [|? ? Na Nc]; subst. destruct (zlist_eqb a k) eqn:E; cbn [map fst]; [exact N|]. constructor; [|auto].
  intros I. apply store_keys in I as [->|I]; [rewrite zlist_eqb_refl in E; discriminate E|auto].
Qed.
Lemma forget_in c k j : In j (map fst (forget c k)) -> In j (map fst c).
Proof. induction c as [|[a w] c IH]; cbn [forget map fst In]; [auto|]. destruct (zlist_eqb a k); cbn [map fst In]; tauto. Qed.
Lemma forget_once c k : once c -> once (forget c k).
Proof. induction c as [|[a w] c IH]; unfold once in *; cbn [forget map fst]; intros N; [constructor|]. inversion N as [|? ? Na Nc]; subst. destruct (zlist_eqb a k); [exact Nc|]. cbn [map fst]. constructor; [|auto]. intros I. apply Na. eapply forget_in; eauto. Qed.
Lemma recall_none c k : ~ In k (map fst c) -> recall c k = None.
Proof. induction c as [|[a w] c IH]; cbn [recall map fst In]; [reflexivity|]. intros N. destruct (zlist_eqb a k) eqn:E; [apply zlist_eqb_spec in E; tauto|]. apply IH. tauto. Qed.
Lemma recall_forget c k j : once c -> recall (forget c k) j = if zlist_eqb k j then None else recall c j.
Proof.
  induction c as [|[a w] c IH]; unfold once in *; cbn [forget recall map fst]; intros N; [destruct (zlist_eqb k j); reflexivity|]. inversion N as [|? ? Na Nc]; subst. destruct (zlist_eqb a k) eqn:E.
  - apply zlist_eqb_spec in E. subst a. destruct (zlist_eqb k j) eqn:E2; [|reflexivity]. apply zlist_eqb_spec in E2. subst j. now apply recall_none.
  - cbn [recall]. rewrite IH by exact Nc. destruct (zlist_eqb a j) eqn:E2; [|reflexivity]. apply zlist_eqb_spec in E2. subst a. destruct (zlist_eqb k j) eqn:E3; [|reflexivity]. apply zlist_eqb_spec in E3. subst j. rewrite zlist_eqb_refl in E. discriminate E.
Qed.
Lemma caches_spec q k : (if q_use_cache q then cache_id (q_cache_id q) else None) = Some k <-> caches_under q k.
Proof.
  unfold caches_under, cache_id. destruct (q_use_cache q); [|split; [discriminate|intros [H _]; discriminate H]]. destruct (q_cache_id q) as [x|]; [|split; [discriminate|intros (_ & H & _); discriminate H]]. destruct (zlist_eqb x (str "X")) eqn:E.
  - apply zlist_eqb_spec in E. split; [discriminate|]. intros (_ & H & _ & N). congruence.
  - assert (Nx : x <> str "X") by (intros ->; rewrite zlist_eqb_refl in E; discriminate E). destruct (zlen x =? 0) eqn:L.
    + split; [discriminate|]. intros (_ & H & N & _). injection H as <-. destruct x; [congruence|]. rewrite zlen_cons in L. pose proof (zlen_nonneg x). lia.
    + split; [intros H; injection H as <-; repeat split; auto; intros ->; cbn in L; discriminate L|]. intros (_ & H & _). exact H.
Qed.
Lemma confirm_spec n p : forall inp m r, confirm n p inp = Some (m, r) <-> exists cs, inp = cs ++ r /\ List.length cs = n /\ (m = true <-> Forall (fun x => x = p) cs).
Proof.
  induction n as [|n IH]; intros inp m r; cbn [confirm].
  - split; [intros H; injection H as <- <-; exists []; repeat split; auto|]. intros (cs & -> & L & M). destruct cs; [|discriminate L]. cbn [app]. destruct m; [reflexivity|]. destruct M as [_ M]. specialize (M (Forall_nil _)). discriminate M.
  - destruct inp as [|x inp]; [split; [discriminate|]; intros (cs & E & L & _); destruct cs; [discriminate L|discriminate E]|]. destruct (confirm n p inp) as [[m' r']|] eqn:C.
    + apply IH in C as (cs & -> & L & M). split.
      * intros H. injection H as <- <-. exists (x :: cs). split; [reflexivity|]. split; [cbn; congruence|]. rewrite andb_true_iff, M, zlist_eqb_spec. split; [intros [A B]; constructor; auto|]. intros F. split; [exact (Forall_inv_tail F)|exact (Forall_inv F)].
      * intros (ds & E & Ld & Md). destruct ds as [|d ds]; [discriminate Ld|]. cbn in E, Ld. injection E as <- E. assert (Len : List.length cs = List.length ds) by congruence.
        assert (X : cs = ds /\ r' = r). { clear -E Len. revert ds Len E. induction cs as [|y cs IH]; intros [|z ds] Len E; try discriminate Len; [auto|]. cbn in *. injection E as <- E. injection Len as Len. destruct (IH ds Len E) as [-> ->]. auto. }
        destruct X as [-> ->]. apply (f_equal (fun b => Some (b, r))). destruct m; [destruct Md as [Md _]; specialize (Md eq_refl); rewrite (proj2 M (Forall_inv_tail Md)), (Forall_inv Md), zlist_eqb_refl; reflexivity|].
        destruct (m' && zlist_eqb x p) eqn:B; [|reflexivity]. apply andb_true_iff in B as [B1 B2]. apply M in B1. apply zlist_eqb_spec in B2. destruct Md as [_ Md]. symmetry. apply Md. constructor; auto.
    + split; [discriminate|]. intros (ds & E & Ld & Md). destruct ds as [|d ds]; [discriminate Ld|]. cbn in E, Ld. injection E as <- E. assert (Y : exists m0, confirm n p inp = Some (m0, r)); [|destruct Y as [m0 Y]; rewrite Y in C; discriminate C].
      destruct (Forall_dec (fun y => y = p) (fun y => list_eq_dec Z.eq_dec y p) ds) as [F|F]; [exists true|exists false]; apply IH; exists ds; (split; [exact E|split; [congruence|]]); split; auto; try discriminate; try (intros G; contradiction).
Qed.

(** the loop returns p exactly if p is typed and confirmed, after any number of rounds in which the confirmations differ *)
Lemma ask_spec rep : forall fuel err inp p r, (List.length inp < fuel)%nat -> (fst (ask fuel rep err inp) = (Ok p, r) <->
  exists rounds, Forall (mistyped (Z.to_nat rep)) rounds /\ inp = concat rounds ++ (p :: repeat p (Z.to_nat rep)) ++ r).
Proof.
  induction fuel as [|f IH]; intros err inp p r Hf; [lia|]. cbn [ask]. destruct inp as [|x inp].
  { cbn. split; [discriminate|]. intros (rounds & F & E). destruct rounds as [|a t]; [discriminate E|]. pose proof (Forall_inv F) as (q & cs & -> & _). discriminate E. }
  assert (Split : forall cs (a b : list text), cs ++ a = inp ++ b -> True) by auto. clear Split.
  destruct (confirm (Z.to_nat rep) x inp) as [[m r']|] eqn:C.
  - apply confirm_spec in C as (cs & -> & L & M). destruct m.
    + destruct M as [M _]. specialize (M eq_refl). assert (Ecs : cs = repeat x (Z.to_nat rep)). { rewrite <- L. clear -M. induction cs as [|y cs IH]; [reflexivity|]. cbn. rewrite (Forall_inv M). f_equal. apply IH. exact (Forall_inv_tail M). }
      cbn [fst]. split.
      * intros H. injection H as <- <-. exists []. split; [constructor|]. cbn [concat app]. rewrite Ecs. reflexivity.
      * intros (rounds & F & E). destruct rounds as [|a t].
        -- cbn [concat app] in E. injection E as -> E. rewrite Ecs in E. apply app_inv_head in E. congruence.
        -- pose proof (Forall_inv F) as (q & ds & -> & Ld & Ex). cbn [concat app] in E. injection E as -> E. rewrite <- app_assoc in E. exfalso.
           assert (X : cs = ds). { assert (Len : List.length cs = List.length ds) by congruence. clear -E Len. revert ds Len E. induction cs as [|y cs IH]; intros [|z ds] Len E; try discriminate Len; [auto|]. cbn in *. injection E as <- E. injection Len as Len. f_equal. eauto. }
           subst ds. apply Exists_exists in Ex as (y & Iy & Ny). rewrite Forall_forall in M. apply Ny. now apply M.
    + assert (Ex : Exists (fun y => y <> x) cs). { apply neg_Forall_Exists_neg; [intros y; apply (list_eq_dec Z.eq_dec)|]. intros F. apply M in F. discriminate F. }
      assert (Lr : (List.length r' < f)%nat) by (cbn in Hf; rewrite app_length in Hf; lia). specialize (IH (str "Passwords do not match.") r' p r Lr). destruct (ask f rep (str "Passwords do not match.") r') as [[o rr] l]. cbn [fst] in *. rewrite IH. clear IH. split.
      * intros (rounds & F & ->). exists ((x :: cs) :: rounds). split; [constructor; [exists x, cs; auto|exact F]|]. cbn [concat]. rewrite <- !app_assoc. reflexivity.
      * intros (rounds & F & E). destruct rounds as [|a t].
        -- exfalso. cbn [concat app] in E. injection E as -> E. assert (X : cs = repeat p (Z.to_nat rep)). { assert (Len : List.length cs = List.length (repeat p (Z.to_nat rep))) by (rewrite repeat_length; congruence). revert Len E. generalize (repeat p (Z.to_nat rep)). clear. intros ds. revert ds. induction cs as [|y cs IH]; intros [|z ds] Len E; try discriminate Len; [auto|]. cbn in *. injection E as <- E. injection Len as Len. f_equal. eauto. }
           apply Exists_exists in Ex as (y & Iy & Ny). rewrite X in Iy. apply repeat_spec in Iy. contradiction.
        -- pose proof (Forall_inv F) as (q & ds & -> & Ld & Exd). cbn [concat app] in E. injection E as -> E. rewrite <- app_assoc in E. exists t. split; [exact (Forall_inv_tail F)|].
           assert (Len : List.length cs = List.length ds) by congruence. clear -E Len. revert ds Len E. induction cs as [|y cs IH]; intros [|z ds] Len E; try discriminate Len; [exact E|]. cbn in *. injection E as <- E. injection Len as Len. eauto.
  - cbn [fst]. split; [discriminate|]. intros (rounds & F & E). exfalso. assert (Y : exists cs rr, inp = cs ++ rr /\ List.length cs = Z.to_nat rep).
    { destruct rounds as [|a t]; [cbn [concat app] in E; injection E as -> E; exists (repeat p (Z.to_nat rep)), r; rewrite repeat_length; auto|]. pose proof (Forall_inv F) as (q & ds & -> & Ld & Exd). cbn [concat app] in E. injection E as -> E. rewrite <- app_assoc in E. eauto. }
    destruct Y as (cs & rr & E2 & L). assert (Z : exists m, confirm (Z.to_nat rep) x inp = Some (m, rr)); [|destruct Z as [m Z]; rewrite Z in C; discriminate C].
    destruct (Forall_dec (fun y => y = x) (fun y => list_eq_dec Z.eq_dec y x) cs) as [G|G]; [exists true|exists false]; apply confirm_spec; exists cs; (split; [exact E2|split; [exact L|]]); split; auto; try discriminate; try (intros K; contradiction).
Qed.

Definition result (x : res text * cache * list text * list text) : res text := fst (fst (fst x)).
Definition input_left (x : res text * cache * list text * list text) : list text := snd (fst x).
Definition printed (x : res text * cache * list text * list text) : list text := snd x.

(** What is returned without the cache was typed, and confirmed as often as asked for; exactly that, for every input: rounds with a confirmation that differs are
    skipped, and nothing is read beyond the last confirmation. *)
Theorem c87_typed_and_confirmed c q inp p r : q_use_cache q = false -> q_no_ask q = false ->
  (result (get_passphrase c q inp) = Ok p /\ input_left (get_passphrase c q inp) = r <->
   exists rounds, Forall (mistyped (Z.to_nat (q_repeat q))) rounds /\ inp = concat rounds ++ (p :: repeat p (Z.to_nat (q_repeat q))) ++ r).
Proof.
  intros U N. unfold get_passphrase, result, input_left. cbv zeta. rewrite U, N. rewrite <- (ask_spec (q_repeat q) (S (List.length inp)) (or_default (q_error q) (str "Error.")) inp p r) by lia.
  destruct (ask _ _ _ inp) as [[o rr] l]. cbn [fst snd]. split; [intros [-> ->]; reflexivity|intros H; injection H as -> ->; auto].
Qed.
Print Assumptions c87_typed_and_confirmed.

(** Asking not to be asked: no input is read and nothing printed; without a cached passphrase, KeyError. *)
Theorem c87_no_ask c q inp : q_no_ask q = true -> input_left (get_passphrase c q inp) = inp /\ printed (get_passphrase c q inp) = [] /\
  (result (get_passphrase c q inp) = Err KeyError \/ exists k p, caches_under q k /\ recall c k = Some p /\ result (get_passphrase c q inp) = Ok p).
Proof.
  intros N. unfold get_passphrase. cbv zeta. rewrite N. destruct (if q_use_cache q then cache_id (q_cache_id q) else None) as [k|] eqn:E.
  - apply caches_spec in E. destruct (recall c k) as [p|] eqn:R; cbn; (split; [reflexivity|]); (split; [reflexivity|]); [right; eauto|auto].
  - cbn. auto.
Qed.
Print Assumptions c87_no_ask.

(** ** histories *)
Lemma calls_snoc h : forall c inp x, calls c inp (h ++ [x]) = let '(c1, inp1, l) := calls c inp h in let '(c2, inp2, l2) := calls c1 inp1 [x] in (c2, inp2, l ++ l2).
Proof.
  induction h as [|y h IH]; intros c inp x.
  - cbn [app]. cbn [calls]. destruct x; [destruct (get_passphrase c q inp) as [[[o c'] i] pr]; reflexivity|reflexivity].
  - cbn [app]. destruct y as [q|k]; cbn [calls].
    + destruct (get_passphrase c q inp) as [[[o c'] i] pr]. rewrite IH. destruct (calls c' i h) as [[c1 i1] l]. destruct (calls c1 i1 [x]) as [[c2 i2] l2] eqn:X. destruct x; cbn [calls] in X; [destruct (get_passphrase c1 q0 i1) as [[[o2 c2'] i2'] pr2]|]; injection X as <- <- <-; reflexivity.
    + rewrite IH. destruct (calls (clear_passphrase c k) inp h) as [[c1 i1] l]. destruct (calls c1 i1 [x]) as [[c2 i2] l2] eqn:X. destruct x; cbn [calls] in X; [destruct (get_passphrase c1 q i1) as [[[o2 c2'] i2'] pr2]|]; injection X as <- <- <-; reflexivity.
Qed.
Lemma known_inv l x k p : known (l ++ [x]) k p ->
  match x with
  | (Get q, Ok r) => (caches_under q k /\ r = p) \/ (~ caches_under q k /\ known l k p)
  | (Get q, Err _) => known l k p
  | (Clear j, _) => j <> k /\ known l k p
  end.
Proof.
  intros H. remember (l ++ [x]) as m eqn:E. destruct H as [l' q k p U|l' q e k p H|l' q r k p U H|l' j r k p N H]; apply app_inj_tail in E as [-> <-]; auto.
Qed.
(** The cache holds exactly what the calls made so far allow: for every history and every input, the id k is remembered with p iff the last call
    that concerned it returned p. *)
Theorem c87_cache h inp c rest l k p : calls [] inp h = (c, rest, l) -> (recall c k = Some p <-> known l k p).
Proof.
  enough (G : forall h, let '(c, rest, l) := calls [] inp h in once c /\ forall k p, recall c k = Some p <-> known l k p) by (intros H; specialize (G h); rewrite H in G; apply G).
  clear. intros h. induction h as [|x h IH] using rev_ind.
  - cbn. split; [constructor|]. intros k p. split; [discriminate|]. intros H. remember [] as m eqn:E. destruct H; destruct l; discriminate E.
  - rewrite calls_snoc. destruct (calls [] inp h) as [[c i] l]. destruct IH as [O IH]. destruct x as [q|j]; cbn [calls].
    + unfold get_passphrase. cbv zeta. destruct (if q_use_cache q then cache_id (q_cache_id q) else None) as [k0|] eqn:E.
      * apply caches_spec in E. assert (Un : forall k, caches_under q k <-> k = k0). { intros k. split; [|intros ->; exact E]. destruct E as (_ & E & _). intros (_ & F & _). congruence. }
        destruct (recall c k0) as [p0|] eqn:R.
        -- split; [exact O|]. intros k p. split.
           ++ intros H. destruct (list_eq_dec Z.eq_dec k k0) as [->|D]; [rewrite R in H; injection H as <-; constructor; exact E|]. constructor; [rewrite Un; exact D|now apply IH].
           ++ intros H. apply known_inv in H. destruct H as [[U ->]|[U H]]; [apply Un in U; subst k; exact R|now apply IH].
        -- destruct (q_no_ask q).
           ++ split; [exact O|]. intros k p. split; [intros H; constructor; now apply IH|intros H; apply known_inv in H; now apply IH].
           ++ destruct (ask _ _ _ i) as [[[p0|e] r] pr].
              ** split; [now apply store_once|]. intros k p. rewrite recall_store. destruct (zlist_eqb k0 k) eqn:Z.
                 --- apply zlist_eqb_spec in Z. subst k. split; [intros H; injection H as <-; constructor; exact E|]. intros H. apply known_inv in H. destruct H as [[_ ->]|[U _]]; [reflexivity|contradiction].
                 --- assert (D : ~ caches_under q k) by (rewrite Un; intros ->; rewrite zlist_eqb_refl in Z; discriminate Z). split; [intros H; constructor; [exact D|now apply IH]|]. intros H. apply known_inv in H. destruct H as [[U _]|[_ H]]; [contradiction|now apply IH].
              ** split; [exact O|]. intros k p. split; [intros H; constructor; now apply IH|intros H; apply known_inv in H; now apply IH].
      * assert (Un : forall k, ~ caches_under q k). { intros k U. apply caches_spec in U. rewrite E in U. discriminate U. }
        destruct (q_no_ask q).
        -- split; [exact O|]. intros k p. split; [intros H; constructor; now apply IH|intros H; apply known_inv in H; now apply IH].
        -- destruct (ask _ _ _ i) as [[[p0|e] r] pr].
           ++ split; [exact O|]. intros k p. split; [intros H; constructor; [apply Un|now apply IH]|]. intros H. apply known_inv in H. destruct H as [[U _]|[_ H]]; [now apply Un in U|now apply IH].
           ++ split; [exact O|]. intros k p. split; [intros H; constructor; now apply IH|intros H; apply known_inv in H; now apply IH].
    + split; [now apply forget_once|]. intros k p. unfold clear_passphrase. rewrite recall_forget by exact O. destruct (zlist_eqb j k) eqn:Z.
      * apply zlist_eqb_spec in Z. subst j. split; [discriminate|]. intros H. apply known_inv in H. destruct H as [H _]. congruence.
      * assert (D : j <> k) by (intros ->; rewrite zlist_eqb_refl in Z; discriminate Z). split; [intros H; constructor; [exact D|now apply IH]|]. intros H. apply known_inv in H. now apply IH.
Qed.
Print Assumptions c87_cache.

(** So after any history a call under the id k returns what is known for k, without asking; if nothing is, it asks. A call with caching off always asks, and
    leaves the cache alone. *)
Theorem c87_after_any_history h inp c rest l q : calls [] inp h = (c, rest, l) -> q_no_ask q = false ->
  (forall k p, caches_under q k -> known l k p -> get_passphrase c q rest = (Ok p, c, rest, [])) /\
  (forall k, caches_under q k -> (forall p, ~ known l k p) -> rest = [] -> result (get_passphrase c q rest) = Err EOFError) /\
  (q_use_cache q = false -> snd (fst (fst (get_passphrase c q rest))) = c).
Proof.
  intros H N. repeat split.
  - intros k p U K. apply (c87_cache _ _ _ _ _ k p H) in K. apply caches_spec in U. unfold get_passphrase. cbv zeta. rewrite U, K. reflexivity.
  - intros k U K ->. apply caches_spec in U. unfold get_passphrase. cbv zeta. rewrite U, N. destruct (recall c k) as [p|] eqn:R; [apply (c87_cache _ _ _ _ _ k p H) in R; now apply K in R|]. reflexivity.
  - intros U. unfold get_passphrase. cbv zeta. rewrite U, N. destruct (ask _ _ _ rest) as [[o r] pr]. cbn. destruct o; reflexivity.
Qed.
Print Assumptions c87_after_any_history.

(** Without an error message to show, Error. is shown all the same, before the first attempt. *)
Theorem c87_error_shown_refuted c q inp : q_error q = None -> q_no_ask q = false -> q_use_cache q = false -> In (str "Error.") (printed (get_passphrase c q inp)).
Proof.
  intros E N U. unfold get_passphrase, printed. cbv zeta. rewrite U, N, E. cbn [or_default]. destruct (ask _ _ _ inp) as [[o r] pr] eqn:A. cbn [snd]. apply in_or_app. right. apply in_or_app. right.
  cbn [ask] in A. destruct inp as [|p inp]; [injection A as <- <- <-; now left|]. destruct (confirm _ p inp) as [[[|] r']|]; [injection A as <- <- <-; now left| |injection A as <- <- <-; now left].
  destruct (ask _ _ _ r') as [[o' r''] l]. injection A as <- <- <-. now left.
Qed.
Print Assumptions c87_error_shown_refuted.

Definition c87_q (id : option text) (use no : bool) (n : Z) := Request None (Some []) None id use no n.
Example c87_ex : let q := c87_q (Some (str "k")) true false 1 in
  calls [] [str "a"; str "b"; str "c"; str "c"; str "d"; str "d"] [Get q; Get q; Get (c87_q (Some (str "k")) true true 0); Clear (str "k"); Get q; Get (c87_q (Some (str "j")) true true 0)] =
  ([(str "k", str "d")], [], [(Get q, Ok (str "c")); (Get q, Ok (str "c")); (Get (c87_q (Some (str "k")) true true 0), Ok (str "c")); (Clear (str "k"), Ok []); (Get q, Ok (str "d")); (Get (c87_q (Some (str "j")) true true 0), Err KeyError)]).
Proof. vm_compute. reflexivity. Qed.
Example c87_rounds_ex : mistyped 1 [str "a"; str "b"] /\ get_passphrase [] (c87_q None false false 1) ([str "a"; str "b"] ++ [str "c"; str "c"] ++ [str "z"]) = (Ok (str "c"), [], [str "z"], [str "PIN?"; str "Passwords do not match."]).
Proof. split; [exists (str "a"), [str "b"]; repeat split; constructor; discriminate|vm_compute; reflexivity]. Qed.
