(** Proofs about the lock file. *)
From Verif Require Import Base BaseProofs Text FileLock SpecFileLock.

Lemma upd_eq {A} (f : nat -> A) n v : upd f n v n = v. Proof. unfold upd. now rewrite Nat.eqb_refl. Qed.
Lemma upd_ne {A} (f : nat -> A) n v m : m <> n -> upd f n v m = f m. Proof. intros H. unfold upd. now apply Nat.eqb_neq in H as ->. Qed.
Lemma updz_eq {A} (f : Z -> A) n v : updz f n v n = v. Proof. unfold updz. now rewrite Z.eqb_refl. Qed.
Lemma updz_ne {A} (f : Z -> A) n v m : m <> n -> updz f n v m = f m. Proof. intros H. unfold updz. now apply Z.eqb_neq in H as ->. Qed.

(** the object of a thread's call, and whether self.locked is known there *)
Definition pobj (p : pc) : option nat :=
  match p with
  | Out | Dead => None
  | AWhile o _ | ATime o _ | ALock o _ | ALink o _ | ARead o _ | AKill o _ | AUnlink o _ | ASet o _ | RTest o | RRead o | RUnlink o | RClear o | RFree o => Some o
  end.
Definition plocked (p : pc) : option bool :=
  match p with
  | ATime _ _ | ALock _ _ | ALink _ _ | ARead _ _ | AKill _ _ | AUnlink _ _ | ASet _ _ | RFree _ => Some false
  | RRead _ | RUnlink _ | RClear _ => Some true
  | _ => None
  end.
(** the link was made and self.locked not set yet *)
Definition linked (p : pc) : bool := match p with ARead _ _ | AKill _ _ | AUnlink _ _ | ASet _ _ => true | _ => false end.

Section Inv.
Variables (cf : config) (user : nat -> nat).
(** the lock file is the one that the object made *)
Definition owns (s : st) (o : nat) : Prop :=
  (linked (s_pc s (user o)) = true /\ pobj (s_pc s (user o)) = Some o) \/ (locked_of (s_obj s o) = true /\ s_pc s (user o) <> RClear o /\ s_pc s (user o) <> Dead).
Record inv (s : st) : Prop := {
  i_file : forall o, owns s o -> s_name s <> None;
  i_one : forall o1 o2, owns s o1 -> owns s o2 -> o1 = o2;
  i_hold : forall t o, inside s t o -> t = user o /\ s_hold s t o = 1%nat /\ locked_of (s_obj s o) = true /\ pobj (s_pc s t) <> Some o /\ s_pc s t <> Dead;
  i_user : forall t o, pobj (s_pc s t) = Some o -> t = user o;
  i_lock : forall t o b, pobj (s_pc s t) = Some o -> plocked (s_pc s t) = Some b -> locked_of (s_obj s o) = b
}.
Lemma inv_start : inv start.
Proof.
  split.
  - intros o [[H _]|(H & _)]; discriminate H.
  - intros o1 o2 [[H _]|(H & _)]; discriminate H.
  - intros t o H. cbv in H. lia.
  - intros t o H. discriminate H.
  - intros t o b H. discriminate H.
Qed.

(** ownership comes from a free lock file only, and the lock file goes with it *)
Definition grows (s s' : st) : Prop := (forall x, owns s' x -> owns s x \/ s_name s = None) /\ (s_name s' = None -> s_name s = None \/ exists x, owns s x).
(** A step of the thread t = user o in a call on o, or at its start or end. *)
Lemma inv_move s s' t o p' : inv s -> t = user o -> (pobj (s_pc s t) = Some o \/ s_pc s t = Out) -> s_pc s' = upd (s_pc s) t p' -> (pobj p' = Some o \/ p' = Out) ->
  (forall x, x <> o -> locked_of (s_obj s' x) = locked_of (s_obj s x)) -> (forall u x, (u <> t \/ x <> o) -> s_hold s' u x = s_hold s u x) ->
  (owns s' o -> s_name s' <> None /\ (owns s o \/ s_name s = None)) -> (s_name s' = None -> s_name s = None \/ owns s o) ->
  ((0 < s_hold s' t o)%nat -> s_hold s' t o = 1%nat /\ locked_of (s_obj s' o) = true /\ p' = Out) -> (forall b, pobj p' = Some o -> plocked p' = Some b -> locked_of (s_obj s' o) = b) -> inv s' /\ grows s s'.
Proof.
  intros I Ht Hp Epc Hp' Hlk Hh C1 C2 C3 C4. assert (ND : s_pc s t <> Dead) by (destruct Hp as [H|H]; intros E; rewrite E in H; discriminate H). assert (ND' : p' <> Dead) by (destruct Hp' as [H|H]; intros E; rewrite E in H; discriminate H).
  assert (O : forall x, x <> o -> owns s' x -> owns s x).
  { intros x Nx Hx. unfold owns in *. rewrite Epc in Hx. destruct (Nat.eq_dec (user x) t) as [Et|Nt].
    - rewrite Et, upd_eq in Hx. rewrite Et. destruct Hx as [[_ H]|(H1 & H2 & H3)].
      + destruct Hp' as [Q|Q]; [rewrite H in Q; congruence|rewrite Q in H; discriminate H].
      + right. rewrite <- Hlk by exact Nx. split; [exact H1|]. split; [|exact ND]. destruct Hp as [Q|Q]; intros E; rewrite E in Q; [injection Q as ->; now apply Nx|discriminate Q].
    - rewrite upd_ne in Hx by exact Nt. rewrite Hlk in Hx by exact Nx. exact Hx. }
  split; [split|split].
  - intros x Hx E. destruct (Nat.eq_dec x o) as [->|Nx]; [exact (proj1 (C1 Hx) E)|]. pose proof (O x Nx Hx) as Q. destruct (C2 E) as [Z|Z]; [exact (i_file s I x Q Z)|]. exact (Nx (i_one s I x o Q Z)).
  - assert (Oo : owns s' o -> forall x, x <> o -> owns s' x -> False). { intros Ho x Nx Hx. apply (O x Nx) in Hx. destruct (proj2 (C1 Ho)) as [Z|Z]; [exact (Nx (i_one s I x o Hx Z))|exact (i_file s I x Hx Z)]. }
    intros x y Hx Hy. destruct (Nat.eq_dec x o) as [->|Nx]; destruct (Nat.eq_dec y o) as [->|Ny]; [reflexivity|exfalso; exact (Oo Hx y Ny Hy)|exfalso; exact (Oo Hy x Nx Hx)|]. exact (i_one s I x y (O x Nx Hx) (O y Ny Hy)).
  - intros u x Hx. unfold inside in Hx. destruct (Nat.eq_dec u t) as [->|Nu]; [destruct (Nat.eq_dec x o) as [->|Nx]|].
    + destruct (C3 Hx) as (A & B & C). rewrite Epc, upd_eq, C. repeat split; try assumption; discriminate.
    + rewrite (Hh t x) in * by tauto. destruct (i_hold s I t x Hx) as (A & B & C & _). rewrite Epc, upd_eq, (Hlk x Nx). repeat split; try assumption. destruct Hp' as [Q|Q]; rewrite Q; [congruence|discriminate].
    + rewrite (Hh u x) in * by tauto. destruct (i_hold s I u x Hx) as (A & B & C & D & E). rewrite Epc, upd_ne by exact Nu. rewrite Hlk by congruence. repeat split; assumption.
  - intros u x Hx. rewrite Epc in Hx. destruct (Nat.eq_dec u t) as [->|Nu]; [rewrite upd_eq in Hx; destruct Hp' as [Q|Q]; rewrite Q in Hx; [congruence|discriminate Hx]|]. rewrite upd_ne in Hx by exact Nu. exact (i_user s I u x Hx).
  - intros u x b Hx Hb. rewrite Epc in Hx, Hb. destruct (Nat.eq_dec u t) as [->|Nu].
    + rewrite upd_eq in Hx, Hb. destruct Hp' as [Q|Q]; rewrite Q in Hx; [|discriminate Hx]. injection Hx as <-. exact (C4 b Q Hb).
    + rewrite upd_ne in Hx, Hb by exact Nu. rewrite Hlk; [exact (i_lock s I u x b Hx Hb)|]. intros ->. apply Nu. rewrite Ht. exact (i_user s I u o Hx).
  - intros x Hx. destruct (Nat.eq_dec x o) as [->|Nx]; [exact (proj2 (C1 Hx))|left; exact (O x Nx Hx)].
  - intros E. destruct (C2 E) as [Z|Z]; [now left|right; eauto].
Qed.
(** what the invariant says of a thread in a call *)
Lemma call_facts s t o : inv s -> pobj (s_pc s t) = Some o -> t = user o /\ s_hold s t o = O /\ forall b, plocked (s_pc s t) = Some b -> locked_of (s_obj s o) = b.
Proof.
  intros I H. split; [exact (i_user s I t o H)|]. split; [|intros b; exact (i_lock s I t o b H)]. destruct (s_hold s t o) eqn:E; [reflexivity|]. destruct (i_hold s I t o) as (_ & _ & _ & N & _); [unfold inside; lia|]. contradiction.
Qed.
Lemma inv_thread s t c s' x : inv s -> thread_step cf s t c = Some (s', x) -> inv s' /\ grows s s'.
Proof.
  intros I H. unfold thread_step in H. destruct (pobj (s_pc s t)) as [o|] eqn:Po; [|destruct (s_pc s t); discriminate].
  destruct (call_facts s t o I Po) as (Eu & Eh & El). 
  assert (NR : forall q, s_pc s t = q -> linked q = false -> locked_of (s_obj s o) = false -> ~ owns s o). { intros q Eq Lq Lk [[A _]|(A & _)]; [rewrite <- Eu, Eq in A; congruence|congruence]. }
  assert (Ow : forall q, s_pc s t = q -> linked q = true -> owns s o). { intros q Eq Lq. left. rewrite <- Eu, Eq. split; [exact Lq|]. rewrite <- Eq. exact Po. }
  assert (Ok2 : forall q, s_pc s t = q -> locked_of (s_obj s o) = true -> q <> RClear o -> q <> Dead -> owns s o). { intros q Eq Lk N1 N2. right. rewrite <- Eu, Eq. auto. }
  assert (M : forall s' p', s_pc s' = upd (s_pc s) t p' -> (pobj p' = Some o \/ p' = Out) -> (forall z, z <> o -> locked_of (s_obj s' z) = locked_of (s_obj s z)) -> (forall u z, (u <> t \/ z <> o) -> s_hold s' u z = s_hold s u z) ->
     (owns s' o -> s_name s' <> None /\ (owns s o \/ s_name s = None)) -> (s_name s' = None -> s_name s = None \/ owns s o) ->
     ((0 < s_hold s' t o)%nat -> s_hold s' t o = 1%nat /\ locked_of (s_obj s' o) = true /\ p' = Out) -> (forall b, pobj p' = Some o -> plocked p' = Some b -> locked_of (s_obj s' o) = b) -> inv s' /\ grows s s').
  { intros z p'. apply inv_move; auto. }
  assert (G : forall p' q, s_pc s t = q -> (pobj p' = Some o \/ p' = Out) -> (forall b, plocked p' = Some b -> locked_of (s_obj s o) = b) -> (linked p' = true -> linked q = true) -> p' <> RClear o -> p' <> Dead -> q <> RClear o -> inv (goto s t p') /\ grows s (goto s t p')).
  { intros p' q Eq Hp' Hb Hl N1 N2 N3. apply (M _ p'); cbn [goto s_pc s_obj s_hold s_name]; auto; [|lia].
    intros Ho. assert (owns s o); [|split; [exact (i_file s I o H0)|auto]]. destruct Ho as [[A B]|(A & _)].
    - cbn [goto s_pc] in A, B. rewrite <- Eu, upd_eq in A, B. apply (Ow q Eq). auto.
    - cbn [goto s_obj] in A. apply (Ok2 q Eq A N3). intros ->. rewrite Eq in Po. discriminate Po. }
  destruct (s_pc s t) as [| |o' d|o' d|o' d|o' d|o' d|o' d|o' d|o' d|o'|o'|o'|o'|o'] eqn:Epc; try discriminate H; cbn [pobj] in Po; injection Po as ->.
  - destruct (locked_of (s_obj s o)) eqn:Lk; injection H as <- <-.
    + apply (M _ Out); cbn [goto set_hold s_pc s_obj s_hold s_name]; auto.
      * intros u z Hz. unfold upd. destruct (Nat.eqb_spec u t) as [->|]; [|reflexivity]. destruct (Nat.eqb_spec z o) as [->|]; [tauto|reflexivity].
      * intros _. pose proof (Ok2 _ eq_refl eq_refl ltac:(discriminate) ltac:(discriminate)) as Q. split; [exact (i_file s I o Q)|auto].
      * intros _. rewrite !upd_eq, Eh. auto.
      * intros b Hb. discriminate Hb.
    + apply (G _ _ eq_refl); try discriminate; auto. intros b Hb. injection Hb as <-. reflexivity.
  - destruct (d && c); injection H as <- <-; apply (G _ _ eq_refl); try discriminate; auto.
  - destruct (rl_acquire (rl_of (s_obj s o)) t) as [r|]; [|discriminate H]. injection H as <- <-. pose proof (El false eq_refl) as Lk. apply (M _ (ALink o d)); cbn [goto set_obj s_pc s_obj s_hold s_name]; auto.
    + intros z Nz. now rewrite upd_ne.
    + intros [[A _]|(A & _)]; cbn [goto set_obj s_pc s_obj] in A; [rewrite <- Eu, upd_eq in A; discriminate A|]. rewrite upd_eq in A. cbn [locked_of] in A. congruence.
    + lia.
    + intros b _ Hb. rewrite upd_eq. exact (El b Hb).
  - pose proof (El false eq_refl) as Lk. destruct (s_tmpl s (c_id cf o)) as [i|].
    + destruct (s_name s) eqn:En; injection H as <- <-; [apply (G _ _ eq_refl); try discriminate; auto|].
      apply (M _ (ARead o d)); cbn [goto set_name s_pc s_obj s_hold s_name]; auto; [|lia]. intros _. split; [discriminate|auto].
    + injection H as <- <-. apply (G _ _ eq_refl); try discriminate; auto.
  - destruct (own_file cf s (c_proc cf t)) as [[[] []]|]; injection H as <- <-; apply (G _ _ eq_refl); try discriminate; auto.
  - destruct c; injection H as <- <-; apply (G _ _ eq_refl); try discriminate; auto.
  - pose proof (El false eq_refl) as Lk. destruct (s_name s) eqn:En; injection H as <- <-; [|apply (G _ _ eq_refl); try discriminate; auto].
    apply (M _ (AWhile o d)); cbn [goto set_name s_pc s_obj s_hold s_name]; auto; [| |lia|].
    + intros [[A _]|(A & _)]; cbn [goto set_name s_pc s_obj] in A; [rewrite <- Eu, upd_eq in A; discriminate A|congruence].
    + intros _. right. exact (Ow _ eq_refl eq_refl).
    + intros b _ Hb. discriminate Hb.
  - injection H as <- <-. pose proof (Ow _ eq_refl eq_refl) as Q. apply (M _ (AWhile o d)); cbn [goto set_obj s_pc s_obj s_hold s_name]; auto.
    + intros z Nz. now rewrite upd_ne.
    + intros _. split; [exact (i_file s I o Q)|auto].
    + lia.
    + intros b _ Hb. discriminate Hb.
  - destruct (locked_of (s_obj s o)) eqn:Lk; injection H as <- <-; apply (G _ _ eq_refl); try discriminate; auto. intros b Hb. injection Hb as <-. reflexivity.
  - destruct (own_file cf s (c_proc cf t)) as [[[] []]|]; injection H as <- <-; apply (G _ _ eq_refl); try discriminate; auto.
  - pose proof (El true eq_refl) as Lk. destruct (s_name s) eqn:En; injection H as <- <-; [|apply (G _ _ eq_refl); try discriminate; auto].
    apply (M _ (RClear o)); cbn [goto set_name s_pc s_obj s_hold s_name]; auto; [| |lia].
    + intros [[A _]|(_ & A & _)]; cbn [goto set_name s_pc s_obj] in A; rewrite <- Eu, upd_eq in A; [discriminate A|congruence].
    + intros _. right. apply (Ok2 _ eq_refl Lk); discriminate.
  - injection H as <- <-. apply (M _ (RFree o)); cbn [goto set_obj s_pc s_obj s_hold s_name]; auto.
    + intros z Nz. now rewrite upd_ne.
    + intros [[A _]|(A & _)]; cbn [goto set_obj s_pc s_obj] in A; [rewrite <- Eu, upd_eq in A; discriminate A|]. rewrite upd_eq in A. discriminate A.
    + lia.
    + intros b _ Hb. injection Hb as <-. now rewrite upd_eq.
  - pose proof (El false eq_refl) as Lk. destruct (rl_release (rl_of (s_obj s o)) t) as [r|]; injection H as <- <-; [|apply (G _ _ eq_refl); try discriminate; auto].
    apply (M _ Out); cbn [goto set_obj s_pc s_obj s_hold s_name]; auto.
    + intros z Nz. now rewrite upd_ne.
    + intros [[A _]|(A & _)]; cbn [goto set_obj s_pc s_obj] in A; [rewrite <- Eu, upd_eq in A; discriminate A|]. rewrite upd_eq in A. cbn [locked_of] in A. congruence.
    + lia.
    + intros b Hb. discriminate Hb.
Qed.
(** events that leave locks, places and counters alone *)
Lemma inv_same s s' : inv s -> s_name s' = s_name s -> s_pc s' = s_pc s -> s_hold s' = s_hold s -> (forall o, locked_of (s_obj s' o) = locked_of (s_obj s o)) -> inv s' /\ grows s s'.
Proof.
  intros I E1 E2 E3 E4. assert (O : forall o, owns s' o -> owns s o) by (intros o; unfold owns; now rewrite E2, E4). split; [split|split; [auto|rewrite E1; auto]].
  - intros o H. rewrite E1. exact (i_file s I o (O o H)).
  - intros x y Hx Hy. exact (i_one s I x y (O x Hx) (O y Hy)).
  - intros t o. unfold inside. rewrite E2, E3, E4. exact (i_hold s I t o).
  - intros t o. rewrite E2. exact (i_user s I t o).
  - intros t o b. rewrite E2, E4. exact (i_lock s I t o b).
Qed.
Lemma inv_ended s p : inv s -> inv (ended cf s p) /\ grows s (ended cf s p).
Proof.
  intros I. assert (O : forall o, owns (ended cf s p) o -> owns s o). { intros o. unfold owns, ended. cbn [s_pc s_obj]. destruct (c_proc cf (user o) =? p)%nat; [|auto]. intros [[A _]|(_ & _ & A)]; [discriminate A|now elim A]. }
  split; [split|split; [auto|cbn; auto]].
  - intros o H. exact (i_file s I o (O o H)).
  - intros x y Hx Hy. exact (i_one s I x y (O x Hx) (O y Hy)).
  - intros t o. unfold inside, ended. cbn [s_pc s_obj s_hold]. destruct (c_proc cf t =? p)%nat; [lia|]. exact (i_hold s I t o).
  - intros t o. unfold ended. cbn [s_pc]. destruct (c_proc cf t =? p)%nat; [discriminate|]. exact (i_user s I t o).
  - intros t o b. unfold ended. cbn [s_pc s_obj]. destruct (c_proc cf t =? p)%nat; [discriminate|]. exact (i_lock s I t o b).
Qed.
Lemma inv_step s e s' x : inv s -> plain user s e -> step cf s e = Some (s', x) -> inv s' /\ grows s s'.
Proof.
  intros I P H. destruct e as [o|o|t o d|t o|t c|p t|p]; cbn [step plain] in *.
  - destruct (s_obj s o) eqn:Eo; try discriminate H. destruct (s_tmpl s (c_id cf o)); injection H as <- <-; (apply (inv_same s); cbn [set_obj s_name s_pc s_hold s_obj]; auto; intros z; destruct (Nat.eq_dec z o) as [->|]; [rewrite upd_eq, Eo; reflexivity|now rewrite upd_ne]).
  - destruct (s_obj s o) eqn:Eo; try discriminate H. injection H as <- <-. apply (inv_same s); cbn [set_obj s_name s_pc s_hold s_obj]; auto. intros z; destruct (Nat.eq_dec z o) as [->|]; [rewrite upd_eq, Eo; reflexivity|now rewrite upd_ne].
  - destruct (is_out (s_pc s t) && is_made (s_obj s o) && (c_proc cf t =? c_oproc cf o)%nat) eqn:B; [|discriminate H]. injection H as <- <-. apply andb_prop in B as [B _]. apply andb_prop in B as [B _]. destruct P as [Pt Pn]. destruct (s_pc s t) eqn:Epc; try discriminate B.
    apply (inv_move s _ t o (AWhile o d)); cbn [goto s_pc s_obj s_hold s_name]; auto.
    + intros Ho. assert (owns s o); [|split; [exact (i_file s I o H)|auto]]. destruct Ho as [[A _]|(A & _)]; [cbn [goto s_pc] in A; rewrite <- Pt, upd_eq in A; discriminate A|]. right. cbn [goto s_obj] in A. rewrite <- Pt, Epc. repeat split; [exact A|discriminate|discriminate].
    + intros Q. unfold inside in Pn. lia.
    + intros b _ Hb. discriminate Hb.
  - destruct (is_out (s_pc s t) && is_made (s_obj s o) && (c_proc cf t =? c_oproc cf o)%nat) eqn:B; [|discriminate H]. injection H as <- <-. apply andb_prop in B as [B _]. apply andb_prop in B as [B _]. destruct (s_pc s t) eqn:Epc; try discriminate B.
    apply (inv_move s _ t o (RTest o)); cbn [goto set_hold s_pc s_obj s_hold s_name]; auto.
    + intros u z Hz. unfold upd. destruct (Nat.eqb_spec u t) as [->|]; [|reflexivity]. destruct (Nat.eqb_spec z o) as [->|]; [tauto|reflexivity].
    + intros Ho. assert (owns s o); [|split; [exact (i_file s I o H)|auto]]. destruct Ho as [[A _]|(A & _)]; [cbn [goto s_pc] in A; rewrite <- P, upd_eq in A; discriminate A|]. right. cbn [goto set_hold s_obj] in A. rewrite <- P, Epc. repeat split; [exact A|discriminate|discriminate].
    + rewrite !upd_eq. intros Q. destruct (i_hold s I t o) as (_ & A & _); [unfold inside; lia|]. lia.
    + intros b _ Hb. discriminate Hb.
  - exact (inv_thread s t c s' x I H).
  - contradiction.
  - injection H as <- <-. exact (inv_ended s p I).
Qed.
Lemma inv_path s l s' : inv s -> path cf (plain user) s l s' -> inv s'.
Proof. intros I P. induction P as [s|s l s1 e x s2 P IH Hp Hs]; [exact I|]. exact (proj1 (inv_step s1 e s2 x (IH I) Hp Hs)). Qed.
End Inv.

(** ** the text of the lock file *)
Lemma digits_len n z : length (digits n z) = n.
Proof. revert z. induction n as [|n IH]; intros z; [reflexivity|]. cbn [digits]. rewrite app_length, IH. cbn. lia. Qed.
Lemma num_app a l m : num a (l ++ m) = match num a l with Some v => num v m | None => None end.
Proof. revert a. induction l as [|c l IH]; intros a; [reflexivity|]. cbn [app num]. destruct (digit_val c); [apply IH|reflexivity]. Qed.
Lemma num_digits n z : 0 <= z < 10 ^ Z.of_nat n -> forall a, num a (digits n z) = Some (a * 10 ^ Z.of_nat n + z).
Proof.
  revert z. induction n as [|n IH]; intros z Hz a.
  - cbn [digits num]. f_equal. change (10 ^ Z.of_nat 0) with 1 in *. lia.
  - rewrite Nat2Z.inj_succ in *. rewrite Z.pow_succ_r in * by lia. cbn [digits]. rewrite num_app, IH by (split; [apply Z.div_pos; lia|apply Z.div_lt_upper_bound; lia]). cbn [num]. unfold digit_val. pose proof (Z.mod_pos_bound z 10 ltac:(lia)).
    replace ((48 <=? z mod 10 + 48) && (z mod 10 + 48 <=? 57)) with true by lia. f_equal. pose proof (Z.div_mod z 10 ltac:(lia)). nia.
Qed.
Lemma read_back pid node : 0 <= pid < 10 ^ 10 -> clean node -> read_lock (lock_text pid node) = Some (pid, node).
Proof.
  intros Hp Hn. unfold read_lock, lock_text. assert (F : firstn 10 (digits 10 pid ++ node ++ NL) = digits 10 pid) by (rewrite <- (digits_len 10 pid) at 1; rewrite firstn_app, Nat.sub_diag, firstn_all, firstn_O; apply app_nil_r).
  assert (K : skipn 10 (digits 10 pid ++ node ++ NL) = node ++ NL) by (rewrite <- (digits_len 10 pid) at 1; rewrite skipn_app, Nat.sub_diag, skipn_all; reflexivity).
  rewrite F, K. pose proof (num_digits 10 pid Hp 0) as N. destruct (digits 10 pid) as [|c l] eqn:E; [pose proof (digits_len 10 pid) as L; rewrite E in L; discriminate L|]. rewrite N, Hn. f_equal.
Qed.

Section Names.
Variables (cf : config) (user : nat -> nat).
Hypothesis Hcf : sound_config cf.
Hypothesis Hid : forall o1 o2, c_id cf o1 = c_id cf o2 -> o1 = o2.
Notation inv := (inv user).
Notation owns := (owns user).
Definition mine (s : st) (o : nat) : Prop := exists i, s_tmpl s (c_id cf o) = Some i /\ s_data s i = lock_text (c_pid cf (c_oproc cf o)) (c_node cf (c_oproc cf o)).
Definition rl_has (s : st) (o : nat) : Prop := exists n, rl_of (s_obj s o) = Some (user o, S n).
Record files (s : st) : Prop := {
  f_new : forall o, s_obj s o = NoObj -> s_tmpl s (c_id cf o) = None;
  f_open : forall o i, s_obj s o = Opening i -> s_tmpl s (c_id cf o) = Some i;
  f_made : forall o, is_made (s_obj s o) = true -> mine s o;
  f_next : forall z i, s_tmpl s z = Some i -> (i < s_next s)%nat;
  f_inj : forall z1 z2 i, s_tmpl s z1 = Some i -> s_tmpl s z2 = Some i -> z1 = z2;
  f_link : forall o, owns s o -> s_name s = s_tmpl s (c_id cf o);
  f_call : forall t o, pobj (s_pc s t) = Some o -> is_made (s_obj s o) = true /\ c_proc cf t = c_oproc cf o;
  f_nokill : forall t o d, s_pc s t <> AKill o d /\ s_pc s t <> AUnlink o d;
  f_rl1 : forall o, (forall u n, rl_of (s_obj s o) = Some (u, n) -> u = user o /\ (0 < n)%nat);
  f_rl2 : forall o, locked_of (s_obj s o) = true -> rl_has s o;
  f_rl3 : forall t o, pobj (s_pc s t) = Some o -> match s_pc s t with ALink _ _ | ARead _ _ | ASet _ _ | RFree _ => True | _ => False end -> rl_has s o
}.
Lemma files_start : files start.
Proof. split; intros; try discriminate; auto; cbn in *; try (split; discriminate). Qed.
Lemma own_true s t o : files s -> pobj (s_pc s t) = Some o -> owns s o -> own_file cf s (c_proc cf t) = Some (true, true).
Proof.
  intros F P O. destruct (f_call s F t o P) as [M E]. destruct (f_made s F o M) as (i & T & D). pose proof (f_link s F o O) as N. unfold own_file. rewrite N, T, D, E. destruct (Hcf (c_oproc cf o)) as [A B]. rewrite (read_back _ _ A B), Z.eqb_refl, zlist_eqb_refl. reflexivity.
Qed.

Lemma owns_other s s' t o p' x : t = user o -> (pobj (s_pc s t) = Some o \/ s_pc s t = Out) -> s_pc s' = upd (s_pc s) t p' -> (pobj p' = Some o \/ p' = Out) -> x <> o -> s_obj s' x = s_obj s x -> owns s' x -> owns s x.
Proof.
  intros Ht Hp Epc Hp' Nx Ex Hx. assert (ND : s_pc s t <> Dead) by (destruct Hp as [H|H]; intros E; rewrite E in H; discriminate H). unfold FileLockProofs.owns in *. rewrite Epc in Hx. destruct (Nat.eq_dec (user x) t) as [Et|Nt].
  - rewrite Et, upd_eq in Hx. rewrite Et. destruct Hx as [[_ H]|(H1 & H2 & H3)].
    + destruct Hp' as [Q|Q]; [rewrite H in Q; congruence|rewrite Q in H; discriminate H].
    + right. rewrite <- Ex. split; [exact H1|]. split; [|exact ND]. destruct Hp as [Q|Q]; intros E; rewrite E in Q; [injection Q as ->; now apply Nx|discriminate Q].
  - rewrite upd_ne in Hx by exact Nt. rewrite Ex in Hx. exact Hx.
Qed.
Definition needs_rl (p : pc) : Prop := match p with ALink _ _ | ARead _ _ | ASet _ _ | RFree _ => True | _ => False end.
Lemma files_move s s' t o p' : inv s -> files s -> t = user o -> (pobj (s_pc s t) = Some o \/ s_pc s t = Out) -> s_pc s' = upd (s_pc s) t p' -> (pobj p' = Some o \/ p' = Out) ->
  is_made (s_obj s o) = true -> c_proc cf t = c_oproc cf o ->
  s_tmpl s' = s_tmpl s -> s_data s' = s_data s -> s_next s' = s_next s -> (forall x, x <> o -> s_obj s' x = s_obj s x) -> is_made (s_obj s' o) = true ->
  (forall x, x <> o -> owns s x -> s_name s' = s_name s) -> (owns s' o -> s_name s' = s_tmpl s (c_id cf o)) -> (forall z d, p' <> AKill z d /\ p' <> AUnlink z d) ->
  (forall u n, rl_of (s_obj s' o) = Some (u, n) -> u = user o /\ (0 < n)%nat) -> (locked_of (s_obj s' o) = true -> rl_has s' o) -> (needs_rl p' -> rl_has s' o) -> files s'.
Proof.
  intros I F Ht Hp Epc Hp' Mo Pr E1 E2 E3 Eo Mo' N1 N2 Nk R1 R2 R3. destruct (f_made s F o Mo) as (i & Ti & Di). split.
  - intros x Hx. rewrite E1. destruct (Nat.eq_dec x o) as [->|Nx]; [rewrite Hx in Mo'; discriminate Mo'|]. rewrite Eo in Hx by exact Nx. exact (f_new s F x Hx).
  - intros x j Hx. rewrite E1. destruct (Nat.eq_dec x o) as [->|Nx]; [rewrite Hx in Mo'; discriminate Mo'|]. rewrite Eo in Hx by exact Nx. exact (f_open s F x j Hx).
  - intros x Hx. unfold mine. rewrite E1, E2. destruct (Nat.eq_dec x o) as [->|Nx]; [eauto|]. rewrite Eo in Hx by exact Nx. exact (f_made s F x Hx).
  - rewrite E1, E3. exact (f_next s F).
  - rewrite E1. exact (f_inj s F).
  - intros x Hx. rewrite E1. destruct (Nat.eq_dec x o) as [->|Nx]; [exact (N2 Hx)|]. pose proof (owns_other s s' t o p' x Ht Hp Epc Hp' Nx (Eo x Nx) Hx) as Q. rewrite (N1 x Nx Q). exact (f_link s F x Q).
  - intros u x Hx. rewrite Epc in Hx. destruct (Nat.eq_dec u t) as [->|Nu].
    + rewrite upd_eq in Hx. destruct Hp' as [Q|Q]; rewrite Q in Hx; [|discriminate Hx]. injection Hx as <-. auto.
    + rewrite upd_ne in Hx by exact Nu. destruct (f_call s F u x Hx) as [A B]. split; [|exact B]. destruct (Nat.eq_dec x o) as [->|Nx]; [exact Mo'|now rewrite Eo].
  - intros u x d. rewrite Epc. destruct (Nat.eq_dec u t) as [->|Nu]; [rewrite upd_eq; apply Nk|]. rewrite upd_ne by exact Nu. exact (f_nokill s F u x d).
  - intros x u n. destruct (Nat.eq_dec x o) as [->|Nx]; [apply R1|]. rewrite Eo by exact Nx. exact (f_rl1 s F x u n).
  - intros x. destruct (Nat.eq_dec x o) as [->|Nx]; [exact R2|]. unfold rl_has. rewrite Eo by exact Nx. exact (f_rl2 s F x).
  - intros u x Hx Hn. rewrite Epc in Hx, Hn. destruct (Nat.eq_dec u t) as [->|Nu].
    + rewrite upd_eq in Hx, Hn. destruct Hp' as [Q|Q]; [|rewrite Q in Hn; contradiction]. rewrite Q in Hx. injection Hx as <-. apply R3. exact Hn.
    + rewrite upd_ne in Hx, Hn by exact Nu. assert (Nx : x <> o) by (intros ->; apply Nu; rewrite Ht; exact (i_user user s I u o Hx)). unfold rl_has. rewrite Eo by exact Nx. exact (f_rl3 s F u x Hx Hn).
Qed.
Definition fine (x : seen) : Prop := match x with Signal _ => False | Raised e => e = FileExists | _ => True end.
Lemma files_thread s t c s' x : inv s -> files s -> thread_step cf s t c = Some (s', x) -> files s' /\ fine x.
Proof.
  intros I F H. unfold thread_step in H. destruct (pobj (s_pc s t)) as [o|] eqn:Po; [|destruct (s_pc s t); discriminate].
  destruct (call_facts user s t o I Po) as (Eu & Eh & El). destruct (f_call s F t o Po) as [Mo Pr]. pose proof (f_rl3 s F t o Po) as Rl. pose proof (f_nokill s F t) as Nk.
  assert (Ow : linked (s_pc s t) = true -> owns s o) by (intros L; left; rewrite <- Eu; auto).
  assert (Ok2 : locked_of (s_obj s o) = true -> s_pc s t <> RClear o -> owns s o). { intros Lk N1. right. rewrite <- Eu. split; [exact Lk|]. split; [exact N1|]. intros E. rewrite E in Po. discriminate Po. }
  assert (G : forall p', (pobj p' = Some o \/ p' = Out) -> (linked p' = true -> linked (s_pc s t) = true) -> (forall z d, p' <> AKill z d /\ p' <> AUnlink z d) -> (needs_rl p' -> rl_has s o) -> s_pc s t <> RClear o -> files (goto s t p')).
  { intros p' Hp' Hl Hk Hn N1. apply (files_move s _ t o p'); cbn [goto s_pc s_obj s_hold s_name s_tmpl s_data s_next]; auto.
    - intros Ho. apply (f_link s F o). destruct Ho as [[A B]|(A & _)]; [cbn [goto s_pc] in A, B; rewrite <- Eu, upd_eq in A, B; auto|cbn [goto s_obj] in A; auto].
    - exact (f_rl1 s F o).
    - exact (f_rl2 s F o). }
  assert (M : forall s' p', s_pc s' = upd (s_pc s) t p' -> (pobj p' = Some o \/ p' = Out) -> s_tmpl s' = s_tmpl s -> s_data s' = s_data s -> s_next s' = s_next s -> (forall x, x <> o -> s_obj s' x = s_obj s x) -> is_made (s_obj s' o) = true ->
    (forall x, x <> o -> owns s x -> s_name s' = s_name s) -> (owns s' o -> s_name s' = s_tmpl s (c_id cf o)) -> (forall z d, p' <> AKill z d /\ p' <> AUnlink z d) ->
    (forall u n, rl_of (s_obj s' o) = Some (u, n) -> u = user o /\ (0 < n)%nat) -> (locked_of (s_obj s' o) = true -> rl_has s' o) -> (needs_rl p' -> rl_has s' o) -> files s').
  { intros z p' A B. apply (files_move s z t o p'); auto. }
  destruct (s_pc s t) as [| |o' d|o' d|o' d|o' d|o' d|o' d|o' d|o' d|o'|o'|o'|o'|o'] eqn:Epc; try discriminate H; cbn [pobj] in Po; injection Po as ->.
  - destruct (locked_of (s_obj s o)) eqn:Lk; injection H as <- <-; (split; [|exact Logic.I]).
    + apply (M _ Out); cbn [goto set_hold s_pc s_obj s_hold s_name s_tmpl s_data s_next]; auto; try (intros; split; discriminate); try exact (f_rl1 s F o); try exact (f_rl2 s F o); try (intros []; fail).
      * intros _. apply (f_link s F o). apply Ok2; [reflexivity|discriminate].
    + apply G; try discriminate; auto; try (intros; split; discriminate); try (intros []; fail).
  - destruct (d && c); injection H as <- <-; (split; [|exact Logic.I]); (apply G; try discriminate; auto; try (intros; split; discriminate); try (intros []; fail)).
  - destruct (rl_acquire (rl_of (s_obj s o)) t) as [r|] eqn:Er; [|discriminate H]. injection H as <- <-. split; [|exact Logic.I]. pose proof (El false eq_refl) as Lk.
    assert (Hr : exists n, r = Some (user o, S n)).
    { unfold rl_acquire in Er. destruct (rl_of (s_obj s o)) as [[u n]|] eqn:Q; [|injection Er as <-; rewrite Eu; eauto]. destruct (f_rl1 s F o u n Q) as [-> _]. destruct (user o =? t)%nat; [|discriminate Er]. injection Er as <-. eauto. }
    destruct Hr as (n & ->). apply (M _ (ALink o d)); cbn [goto set_obj s_pc s_obj s_hold s_name s_tmpl s_data s_next]; auto; try (intros; split; discriminate); try exact (f_rl1 s F o); try exact (f_rl2 s F o); try (intros []; fail).
    + intros z Nz. now rewrite upd_ne.
    + now rewrite upd_eq.
    + intros [[A _]|(A & _)]; cbn [goto set_obj s_pc s_obj] in A; [rewrite <- Eu, upd_eq in A; discriminate A|]. rewrite upd_eq in A. cbn [locked_of] in A. congruence.
    + rewrite upd_eq. cbn [rl_of]. intros u m E. injection E as <- <-. split; [reflexivity|lia].
    + rewrite upd_eq. cbn [locked_of]. congruence.
    + intros _. exists n. cbn [goto set_obj s_obj]. now rewrite upd_eq.
  - pose proof (El false eq_refl) as Lk. destruct (f_made s F o Mo) as (i & Ti & Di). rewrite Ti in H. destruct (s_name s) eqn:En; injection H as <- <-.
    + split; [|reflexivity]. apply G; try discriminate; auto; try (intros; split; discriminate); try (intros []; fail).
    + split; [|exact Logic.I]. apply (M _ (ARead o d)); cbn [goto set_name s_pc s_obj s_hold s_name s_tmpl s_data s_next]; auto; try (intros; split; discriminate); try exact (f_rl1 s F o); try exact (f_rl2 s F o); try (intros []; fail).
      * intros z Nz Hz. destruct (i_file user s I z Hz En).
  - assert (P' : pobj (s_pc s t) = Some o) by (rewrite Epc; reflexivity). rewrite (own_true s t o F P' (Ow eq_refl)) in H. injection H as <- <-. split; [|exact Logic.I]. apply G; try discriminate; auto; try (intros; split; discriminate); try (intros []; fail).
  - destruct (proj1 (Nk o d) eq_refl).
  - destruct (proj2 (Nk o d) eq_refl).
  - injection H as <- <-. split; [|exact Logic.I]. destruct (Rl Logic.I) as (n & Rn). apply (M _ (AWhile o d)); cbn [goto set_obj s_pc s_obj s_hold s_name s_tmpl s_data s_next]; auto; try (intros; split; discriminate); try exact (f_rl1 s F o); try exact (f_rl2 s F o); try (intros []; fail).
    + intros z Nz. now rewrite upd_ne.
    + now rewrite upd_eq.
    + intros _. apply (f_link s F o). exact (Ow eq_refl).
    + rewrite upd_eq. cbn [rl_of]. exact (f_rl1 s F o).
    + intros _. exists n. cbn [goto set_obj s_obj]. now rewrite upd_eq.
  - destruct (locked_of (s_obj s o)) eqn:Lk; injection H as <- <-; (split; [|exact Logic.I]); (apply G; try discriminate; auto; try (intros; split; discriminate); try (intros []; fail)).
  - assert (P' : pobj (s_pc s t) = Some o) by (rewrite Epc; reflexivity). assert (Q : owns s o) by (apply Ok2; [exact (El true eq_refl)|discriminate]). rewrite (own_true s t o F P' Q) in H. injection H as <- <-. split; [|exact Logic.I]. apply G; try discriminate; auto; try (intros; split; discriminate); try (intros []; fail).
  - pose proof (El true eq_refl) as Lk. assert (Q : owns s o) by (apply Ok2; [exact Lk|discriminate]). destruct (s_name s) eqn:En; [|destruct (i_file user s I o Q En)]. injection H as <- <-. split; [|exact Logic.I].
    apply (M _ (RClear o)); cbn [goto set_name s_pc s_obj s_hold s_name s_tmpl s_data s_next]; auto; try (intros; split; discriminate); try exact (f_rl1 s F o); try exact (f_rl2 s F o); try (intros []; fail).
    + intros z Nz Hz. destruct (Nz (i_one user s I z o Hz Q)).
    + intros [[A _]|(_ & A & _)]; cbn [goto set_name s_pc s_obj] in A; rewrite <- Eu, upd_eq in A; [discriminate A|congruence].
  - injection H as <- <-. split; [|exact Logic.I]. destruct (f_rl2 s F o (El true eq_refl)) as (n & Rn). apply (M _ (RFree o)); cbn [goto set_obj s_pc s_obj s_hold s_name s_tmpl s_data s_next]; auto; try (intros; split; discriminate); try exact (f_rl1 s F o); try exact (f_rl2 s F o); try (intros []; fail).
    + intros z Nz. now rewrite upd_ne.
    + now rewrite upd_eq.
    + intros [[A _]|(A & _)]; cbn [goto set_obj s_pc s_obj] in A; [rewrite <- Eu, upd_eq in A; discriminate A|]. rewrite upd_eq in A. discriminate A.
    + rewrite upd_eq. cbn [rl_of]. exact (f_rl1 s F o).
    + rewrite upd_eq. discriminate.
    + intros _. exists n. cbn [goto set_obj s_obj]. now rewrite upd_eq.
  - pose proof (El false eq_refl) as Lk. destruct (Rl Logic.I) as (n & Rn). rewrite Rn in H. unfold rl_release in H. rewrite <- Eu, Nat.eqb_refl in H. injection H as <- <-. split; [|exact Logic.I].
    apply (M _ Out); cbn [goto set_obj s_pc s_obj s_hold s_name s_tmpl s_data s_next]; auto; try (intros; split; discriminate); try exact (f_rl1 s F o); try exact (f_rl2 s F o); try (intros []; fail).
    + intros z Nz. now rewrite upd_ne.
    + now rewrite upd_eq.
    + intros [[A _]|(A & _)]; cbn [goto set_obj s_pc s_obj] in A; [rewrite <- Eu, upd_eq in A; discriminate A|]. rewrite upd_eq in A. cbn [locked_of] in A. congruence.
    + rewrite upd_eq. cbn [rl_of]. intros u m E. destruct n; [discriminate E|]. injection E as <- <-. split; [exact Eu|lia].
    + rewrite upd_eq. cbn [locked_of]. congruence.
Qed.

Lemma files_step s e s' x : inv s -> files s -> plain user s e -> step cf s e = Some (s', x) -> files s' /\ fine x.
Proof.
  intros I F P H. destruct e as [o|o|t o d|t o|t c|p t|p]; cbn [step plain] in *.
  - destruct (s_obj s o) eqn:Eo; try discriminate H. rewrite (f_new s F o Eo) in H. injection H as <- <-. split; [|exact Logic.I].
    assert (O : forall z, owns (set_obj (St (s_name s) (updz (s_tmpl s) (c_id cf o) (Some (s_next s))) (upd (s_data s) (s_next s) []) (S (s_next s)) (s_obj s) (s_pc s) (s_locks s) (s_hold s)) o (Opening (s_next s))) z -> owns s z /\ z <> o).
    { intros z [A|(A & B)]; cbn [set_obj s_pc s_obj] in A; [|cbn [set_obj s_pc] in B].
      - split; [left; exact A|]. intros ->. destruct (f_call s F (user o) o (proj2 A)) as [M _]. rewrite Eo in M. discriminate M.
      - destruct (Nat.eq_dec z o) as [->|Nz]; [rewrite upd_eq in A; discriminate A|]. rewrite upd_ne in A by exact Nz. split; [right; auto|exact Nz]. }
    split; cbn [set_obj s_name s_tmpl s_data s_next s_obj s_pc].
    + intros z. destruct (Nat.eq_dec z o) as [->|Nz]; [rewrite upd_eq; discriminate|]. rewrite upd_ne, updz_ne by (auto; intros E; apply Nz, Hid, E). exact (f_new s F z).
    + intros z j. destruct (Nat.eq_dec z o) as [->|Nz]; [rewrite upd_eq, updz_eq; congruence|]. rewrite upd_ne, updz_ne by (auto; intros E; apply Nz, Hid, E). exact (f_open s F z j).
    + intros z. destruct (Nat.eq_dec z o) as [->|Nz]; [rewrite upd_eq; discriminate|]. rewrite upd_ne by exact Nz. intros Mz. destruct (f_made s F z Mz) as (i & A & B). exists i. cbn [set_obj s_tmpl s_data]. rewrite updz_ne by (intros E; apply Nz, Hid, E). split; [exact A|]. rewrite upd_ne; [exact B|]. pose proof (f_next s F _ _ A). lia.
    + intros z j. unfold updz. destruct (z =? c_id cf o); [intros E; injection E as <-; lia|]. intros E. pose proof (f_next s F _ _ E). lia.
    + intros z1 z2 j. unfold updz. destruct (Z.eqb_spec z1 (c_id cf o)) as [->|], (Z.eqb_spec z2 (c_id cf o)) as [->|]; try reflexivity; try exact (f_inj s F z1 z2 j).
      * intros E1 E2. injection E1 as <-. pose proof (f_next s F _ _ E2). lia.
      * intros E1 E2. injection E2 as <-. pose proof (f_next s F _ _ E1). lia.
    + intros z Hz. destruct (O z Hz) as [Q Nz]. rewrite updz_ne by (intros E; apply Nz, Hid, E). exact (f_link s F z Q).
    + intros t z Hz. destruct (f_call s F t z Hz) as [A B]. split; [|exact B]. rewrite upd_ne; [exact A|]. intros ->. rewrite Eo in A. discriminate A.
    + exact (f_nokill s F).
    + intros z. destruct (Nat.eq_dec z o) as [->|Nz]; [rewrite upd_eq; discriminate|]. rewrite upd_ne by exact Nz. exact (f_rl1 s F z).
    + intros z. unfold rl_has. cbn [set_obj s_obj]. destruct (Nat.eq_dec z o) as [->|Nz]; [rewrite upd_eq; discriminate|]. rewrite upd_ne by exact Nz. exact (f_rl2 s F z).
    + intros t z Hz Hn. unfold rl_has. cbn [set_obj s_obj]. rewrite upd_ne; [exact (f_rl3 s F t z Hz Hn)|]. intros ->. destruct (f_call s F t o Hz) as [A _]. rewrite Eo in A. discriminate A.
  - destruct (s_obj s o) as [|i|] eqn:Eo; try discriminate H. injection H as <- <-. split; [|exact Logic.I]. pose proof (f_open s F o i Eo) as Ti.
    match goal with |- files ?X => set (s2 := X) end.
    assert (O : forall z, owns s2 z -> owns s z).
    { intros z [A|(A & B)]; unfold s2 in A; cbn [set_obj s_pc s_obj] in A; [left; exact A|]. unfold s2 in B. cbn [set_obj s_pc] in B. destruct (Nat.eq_dec z o) as [->|Nz]; [rewrite upd_eq in A; discriminate A|]. rewrite upd_ne in A by exact Nz. right; auto. }
    split; unfold s2; cbn [set_obj s_name s_tmpl s_data s_next s_obj s_pc].
    + intros z. destruct (Nat.eq_dec z o) as [->|Nz]; [rewrite upd_eq; discriminate|]. rewrite upd_ne by auto. exact (f_new s F z).
    + intros z j. destruct (Nat.eq_dec z o) as [->|Nz]; [rewrite upd_eq; discriminate|]. rewrite upd_ne by auto. exact (f_open s F z j).
    + intros z Mz. unfold mine. cbn [set_obj s_tmpl s_data]. destruct (Nat.eq_dec z o) as [->|Nz]; [exists i; rewrite upd_eq; auto|]. rewrite upd_ne in Mz by exact Nz. destruct (f_made s F z Mz) as (j & A & B). exists j. split; [exact A|]. rewrite upd_ne; [exact B|]. intros ->. apply Nz, Hid. exact (f_inj s F _ _ _ A Ti).
    + exact (f_next s F).
    + exact (f_inj s F).
    + intros z Hz. exact (f_link s F z (O z Hz)).
    + intros t z Hz. destruct (f_call s F t z Hz) as [A B]. split; [|exact B]. rewrite upd_ne; [exact A|]. intros ->. rewrite Eo in A. discriminate A.
    + exact (f_nokill s F).
    + intros z. destruct (Nat.eq_dec z o) as [->|Nz]; [rewrite upd_eq; discriminate|]. rewrite upd_ne by exact Nz. exact (f_rl1 s F z).
    + intros z. unfold rl_has. cbn [set_obj s_obj]. destruct (Nat.eq_dec z o) as [->|Nz]; [rewrite upd_eq; discriminate|]. rewrite upd_ne by exact Nz. exact (f_rl2 s F z).
    + intros t z Hz Hn. unfold rl_has. cbn [set_obj s_obj]. rewrite upd_ne; [exact (f_rl3 s F t z Hz Hn)|]. intros ->. destruct (f_call s F t o Hz) as [A _]. rewrite Eo in A. discriminate A.
  - destruct (is_out (s_pc s t) && is_made (s_obj s o) && (c_proc cf t =? c_oproc cf o)%nat) eqn:B; [|discriminate H]. injection H as <- <-. split; [|exact Logic.I]. apply andb_prop in B as [B B3]. apply andb_prop in B as [B B2]. apply Nat.eqb_eq in B3. destruct P as [Pt Pn]. destruct (s_pc s t) eqn:Epc; try discriminate B.
    apply (files_move s _ t o (AWhile o d)); cbn [goto s_pc s_obj s_hold s_name s_tmpl s_data s_next]; auto; try (intros; split; discriminate); try exact (f_rl1 s F o); try exact (f_rl2 s F o); try (intros []; fail).
    intros Ho. apply (f_link s F o). destruct Ho as [[A _]|(A & _)]; [cbn [goto s_pc] in A; rewrite <- Pt, upd_eq in A; discriminate A|]. right. cbn [goto s_obj] in A. rewrite <- Pt, Epc. repeat split; [exact A|discriminate|discriminate].
  - destruct (is_out (s_pc s t) && is_made (s_obj s o) && (c_proc cf t =? c_oproc cf o)%nat) eqn:B; [|discriminate H]. injection H as <- <-. split; [|exact Logic.I]. apply andb_prop in B as [B B3]. apply andb_prop in B as [B B2]. apply Nat.eqb_eq in B3. destruct (s_pc s t) eqn:Epc; try discriminate B.
    apply (files_move s _ t o (RTest o)); cbn [goto set_hold s_pc s_obj s_hold s_name s_tmpl s_data s_next]; auto; try (intros; split; discriminate); try exact (f_rl1 s F o); try exact (f_rl2 s F o); try (intros []; fail).
    intros Ho. apply (f_link s F o). destruct Ho as [[A _]|(A & _)]; [cbn [goto s_pc] in A; rewrite <- P, upd_eq in A; discriminate A|]. right. cbn [goto set_hold s_obj] in A. rewrite <- P, Epc. repeat split; [exact A|discriminate|discriminate].
  - exact (files_thread s t c s' x I F H).
  - contradiction.
  - injection H as <- <-. split; [|exact Logic.I]. assert (O : forall o, owns (ended cf s p) o -> owns s o). { intros o. unfold FileLockProofs.owns, ended. cbn [s_pc s_obj]. destruct (c_proc cf (user o) =? p)%nat; [|auto]. intros [[A _]|(_ & _ & A)]; [discriminate A|now elim A]. }
    split; unfold ended; cbn [s_name s_tmpl s_data s_next s_obj s_pc]; try apply F.
    + intros o Ho. apply (f_link s F o). exact (O o Ho).
    + intros t o. destruct (c_proc cf t =? p)%nat; [discriminate|]. exact (f_call s F t o).
    + intros t o d. destruct (c_proc cf t =? p)%nat; [split; discriminate|]. exact (f_nokill s F t o d).
    + intros t o. destruct (c_proc cf t =? p)%nat; [discriminate|]. exact (f_rl3 s F t o).
Qed.
Lemma files_path s l s' : inv s -> files s -> path cf (plain user) s l s' -> files s' /\ Forall (fun ex => fine (snd ex)) l.
Proof.
  intros I F P. induction P as [s|s l s1 e x s2 P IH Hp Hs]; [auto|]. destruct (IH I F) as [F1 L1]. destruct (files_step s1 e s2 x (inv_path cf user s l s1 I P) F1 Hp Hs) as [F2 X]. split; [exact F2|]. apply Forall_app. split; [exact L1|]. constructor; [exact X|constructor].
Qed.
End Names.
