(** Proofs about replacing escapes one after the other (C99). *)
From Coq Require Import String.
From Verif Require Import Base BaseProofs Text IoHelper SpecIo.
Open Scope Z_scope.
Lemma list_ind2 {A} (Q : list A -> Prop) : Q [] -> (forall c, Q [c]) -> (forall c d r, Q r -> Q (d :: r) -> Q (c :: d :: r)) -> forall l, Q l.
Proof. intros H0 H1 H2. assert (X : forall l, Q l /\ forall c, Q (c :: l)). { induction l as [|d l [I1 I2]]; [split; auto|]. split; [apply I2|]. intros c. apply H2; [exact I1|apply I2]. } intros l. apply X. Qed.

Inductive piece := L (x : Z) | E (c : Z) | P | T.
Definition render1 (p : piece) : text := match p with L x => [x] | E c => [37; c] | P => [37; 37] | T => [37] end.
Definition render (ps : list piece) : text := flat_map render1 ps.
Fixpoint ok (letters : list Z) (ps : list piece) : Prop :=
  match ps with
  | [] => True
  | L x :: r => x <> 37 /\ ok letters r
  | E c :: r => c <> 37 /\ ok letters r
  | P :: r => match r with [] => True | L x :: _ => ~ In x letters | _ => False end /\ ok letters r
  | T :: r => r = []
  end.
Definition sub1 (k : Z) (v : text) (p : piece) : list piece := match p with E c => if c =? k then map L v else [p] | _ => [p] end.
Definition sub (k : Z) (v : text) (ps : list piece) : list piece := flat_map (sub1 k v) ps.
Lemma render_lits v : render (map L v) = v.
Proof. induction v as [|x v IH]; [reflexivity|]. cbn [map]. transitivity (x :: v); [|reflexivity]. rewrite <- IH at 2. reflexivity. Qed.
Lemma render_app a b : render (a ++ b) = render a ++ render b.
Proof. apply flat_map_app. Qed.
Lemma ok_lits ls v r : ~ In 37 v -> ok ls r -> ok ls (map L v ++ r).
Proof. induction v as [|x v IH]; intros N O; [exact O|]. cbn [map app ok]. split; [intros ->; apply N; now left|]. apply IH; [intros I; apply N; now right|exact O]. Qed.
Lemma sw2 a b c d r : starts_with [a; b] (c :: d :: r) = (a =? c) && (b =? d).
Proof. unfold starts_with. cbn [strip_prefix]. destruct (a =? c) eqn:X; cbn [andb]; [|reflexivity]. destruct (b =? d); reflexivity. Qed.
Lemma sw1 a b c : starts_with [a; b] [c] = false.
Proof. unfold starts_with. cbn [strip_prefix]. destruct (a =? c); reflexivity. Qed.
Lemma sub_ok ls k v ps : ~ In 37 v -> ok ls ps -> ok ls (sub k v ps).
Proof.
  intros N. induction ps as [|p ps IH]; intros O; [exact I|]. change (sub k v (p :: ps)) with (sub1 k v p ++ sub k v ps). destruct p as [x|c| |]; cbn [sub1 ok] in *.
  - destruct O as [O1 O2]. cbn [app ok]. auto.
  - destruct O as [O1 O2]. destruct (c =? k); [apply ok_lits; auto|cbn [app ok]; auto].
  - destruct O as [O1 O2]. cbn [app ok]. split; [|auto]. destruct ps as [|[x| | |] ps]; try contradiction; [exact I|]. cbn. exact O1.
  - subst ps. reflexivity.
Qed.
Lemma replace_skip1 old new c l : replace_acc old new 1 (c :: l) = replace old new l.
Proof. reflexivity. Qed.
Lemma rep_hit a b v r : replace [a; b] v (a :: b :: r) = v ++ replace [a; b] v r.
Proof. unfold replace at 1. cbn [replace_acc]. rewrite sw2, !Z.eqb_refl. cbn [andb length]. change (2 - 1)%nat with 1%nat. reflexivity. Qed.
Lemma rep_miss old v c r : starts_with old (c :: r) = false -> replace old v (c :: r) = c :: replace old v r.
Proof. intros H. unfold replace. cbn [replace_acc]. now rewrite H. Qed.
Lemma rep_other k v c r : c <> 37 -> replace [37; k] v (c :: r) = c :: replace [37; k] v r.
Proof. intros H. apply rep_miss. unfold starts_with. cbn [strip_prefix]. replace (37 =? c) with false by lia. reflexivity. Qed.
Lemma rep_next k v d r : d <> k -> replace [37; k] v (37 :: d :: r) = 37 :: replace [37; k] v (d :: r).
Proof. intros H. apply rep_miss. rewrite sw2. replace (k =? d) with false by lia. apply andb_false_r. Qed.
Lemma rep_end k v : replace [37; k] v [37] = [37].
Proof. rewrite rep_miss by apply sw1. reflexivity. Qed.
Lemma replace_sub ls k v ps : In k ls -> k <> 37 -> ok ls ps -> replace [37; k] v (render ps) = render (sub k v ps).
Proof.
  intros Ik Nk. induction ps as [|p ps IH]; intros O; [reflexivity|]. change (sub k v (p :: ps)) with (sub1 k v p ++ sub k v ps). rewrite render_app. change (render (p :: ps)) with (render1 p ++ render ps).
  destruct p as [x|c| |]; cbn [render1 sub1 app ok] in *.
  - destruct O as [O1 O2]. rewrite rep_other by exact O1. rewrite (IH O2). reflexivity.
  - destruct O as [O1 O2]. destruct (c =? k) eqn:C.
    + apply Z.eqb_eq in C. subst c. rewrite rep_hit, render_lits, (IH O2). reflexivity.
    + rewrite rep_next by lia. rewrite rep_other by exact O1. rewrite (IH O2). reflexivity.
  - destruct O as [O1 O2]. rewrite rep_next by congruence. change (render [P] ++ render (sub k v ps)) with (37 :: 37 :: render (sub k v ps)). f_equal. rewrite <- (IH O2). destruct ps as [|[x| | |] ps]; try contradiction; [apply rep_end|]. change (render (L x :: ps)) with (x :: render ps). apply rep_next. intros ->. contradiction.
  - subst ps. cbn. exact (rep_end k v).
Qed.
(** the last replacement: %% by % *)
Definition last1 (p : piece) : text := match p with P => [37] | _ => render1 p end.
Lemma replace_pct ls ps : ok ls ps -> replace [37; 37] [37] (render ps) = flat_map last1 ps.
Proof.
  induction ps as [|p ps IH]; intros O; [reflexivity|]. change (render (p :: ps)) with (render1 p ++ render ps). cbn [flat_map]. destruct p as [x|c| |]; cbn [render1 last1 app ok] in *.
  - destruct O as [O1 O2]. rewrite rep_other by exact O1. now rewrite (IH O2).
  - destruct O as [O1 O2]. rewrite rep_next by congruence. rewrite rep_other by exact O1. now rewrite (IH O2).
  - destruct O as [_ O2]. rewrite rep_hit. now rewrite (IH O2).
  - subst ps. apply rep_end.
Qed.
(** the pieces of a template *)
Fixpoint scan (t : text) : list piece :=
  match t with
  | c :: ((d :: r) as t') => if c =? 37 then (if d =? 37 then P :: scan r else E d :: scan r) else L c :: scan t'
  | [c] => [if c =? 37 then T else L c]
  | [] => []
  end.
Lemma scan_render t : render (scan t) = t.
Proof.
  induction t as [|c|c d r I1 I2] using list_ind2; [reflexivity| |].
  - cbn [scan]. destruct (c =? 37) eqn:C; [apply Z.eqb_eq in C; subst c|]; reflexivity.
  - change (scan (c :: d :: r)) with (if c =? 37 then (if d =? 37 then P :: scan r else E d :: scan r) else L c :: scan (d :: r)). destruct (c =? 37) eqn:C; [apply Z.eqb_eq in C; subst c; destruct (d =? 37) eqn:D; [apply Z.eqb_eq in D; subst d|]|].
    + change (render (P :: scan r)) with (37 :: 37 :: render (scan r)). now rewrite I1.
    + change (render (E d :: scan r)) with (37 :: d :: render (scan r)). now rewrite I1.
    + change (render (L c :: scan (d :: r))) with (c :: render (scan (d :: r))). now rewrite I2.
Qed.
Lemma scan_head x r : x <> 37 -> exists s, scan (x :: r) = L x :: s.
Proof. intros N. destruct r as [|d r]; [cbn [scan]; replace (x =? 37) with false by lia; now exists []|]. exists (scan (d :: r)). change (scan (x :: d :: r)) with (if x =? 37 then (if d =? 37 then P :: scan r else E d :: scan r) else L x :: scan (d :: r)). now replace (x =? 37) with false by lia. Qed.
Lemma scan_ok ls t : plain_percents ls t -> ok ls (scan t).
Proof.
  induction t as [|c|c d r I1 I2] using list_ind2; intros H; [exact I| |].
  - cbn [scan]. destruct (c =? 37) eqn:C; cbn [ok]; [reflexivity|split; [lia|exact I]].
  - change (plain_percents ls (c :: d :: r)) with (if c =? 37 then (if d =? 37 then (match r with x :: _ => ~ In x (37 :: ls) | [] => True end) /\ plain_percents ls r else plain_percents ls r) else plain_percents ls (d :: r)) in H.
    change (scan (c :: d :: r)) with (if c =? 37 then (if d =? 37 then P :: scan r else E d :: scan r) else L c :: scan (d :: r)).
    destruct (c =? 37) eqn:C; [destruct (d =? 37) eqn:D|].
    + destruct H as [H1 H2]. cbn [ok]. split; [|exact (I1 H2)]. destruct r as [|x r]; [exact I|]. destruct (scan_head x r) as (s & ->); [intros ->; apply H1; now left|]. intros J. apply H1. now right.
    + cbn [ok]. split; [lia|exact (I1 H)].
    + cbn [ok]. split; [lia|exact (I2 H)].
Qed.
Definition exp1 (val : Z -> option text) (p : piece) : text := match p with L x => [x] | E c => match val c with Some v => v | None => [37; c] end | P => [37] | T => [37] end.
Lemma expand_scan val t : expand val t = flat_map (exp1 val) (scan t).
Proof.
  induction t as [|c|c d r I1 I2] using list_ind2; [reflexivity| |].
  - cbn [scan expand flat_map]. destruct (c =? 37) eqn:C; [apply Z.eqb_eq in C; subst c|]; reflexivity.
  - change (expand val (c :: d :: r)) with (if c =? 37 then (if d =? 37 then 37 :: expand val r else match val d with Some v => v ++ expand val r | None => 37 :: d :: expand val r end) else c :: expand val (d :: r)).
    change (scan (c :: d :: r)) with (if c =? 37 then (if d =? 37 then P :: scan r else E d :: scan r) else L c :: scan (d :: r)).
    destruct (c =? 37) eqn:C; [destruct (d =? 37) eqn:D|]; cbn [flat_map exp1]; [rewrite I1; reflexivity|rewrite I1; destruct (val d); reflexivity|rewrite I2; reflexivity].
Qed.
(** all replacements *)
Fixpoint assoc (tbl : list (Z * text)) (c : Z) : option text := match tbl with (k, v) :: r => if c =? k then Some v else assoc r c | [] => None end.
Definition replace_all (tbl : list (Z * text)) (t : text) : text := fold_left (fun t kv => replace [37; fst kv] (snd kv) t) tbl t.
Lemma last_lits v : flat_map last1 (map L v) = v.
Proof. induction v as [|x v IH]; [reflexivity|]. cbn [map]. transitivity (x :: v); [|reflexivity]. rewrite <- IH at 2. reflexivity. Qed.
Lemma exp_lits f v : flat_map (exp1 f) (map L v) = v.
Proof. induction v as [|x v IH]; [reflexivity|]. cbn [map]. transitivity (x :: v); [|reflexivity]. rewrite <- IH at 2. reflexivity. Qed.
Lemma exp_sub tbl k v ps : flat_map (exp1 (assoc tbl)) (sub k v ps) = flat_map (exp1 (assoc ((k, v) :: tbl))) ps.
Proof.
  induction ps as [|p ps IH]; [reflexivity|]. change (sub k v (p :: ps)) with (sub1 k v p ++ sub k v ps). rewrite flat_map_app, IH. cbn [flat_map]. f_equal. destruct p as [x|c| |]; cbn [sub1 flat_map exp1 assoc]; try (rewrite ?app_nil_r; reflexivity).
  destruct (c =? k); [apply exp_lits|cbn [flat_map exp1]; now rewrite app_nil_r].
Qed.
Lemma replace_all_expand ls tbl : Forall (fun kv => In (fst kv) ls /\ fst kv <> 37 /\ ~ In 37 (snd kv)) tbl -> forall t, plain_percents ls t -> replace [37; 37] [37] (replace_all tbl t) = expand (assoc tbl) t.
Proof.
  intros F t H. rewrite expand_scan. rewrite <- (scan_render t) at 1. apply scan_ok in H. revert H. generalize (scan t). clear t. induction F as [|[k v] tbl [F1 [F2 F3]] F IH]; intros ps O.
  - cbn [replace_all fold_left]. rewrite (replace_pct ls ps O). clear. induction ps as [|p ps IH]; [reflexivity|]. cbn [flat_map]. rewrite IH. destruct p; reflexivity.
  - cbn [fst snd] in *. unfold replace_all. cbn [fold_left fst snd]. rewrite (replace_sub ls k v ps F1 F2 O). fold (replace_all tbl (render (sub k v ps))). rewrite (IH _ (sub_ok ls k v ps F3 O)). apply exp_sub.
Qed.
