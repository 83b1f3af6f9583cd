(** Proofs about reading an index. *)
From Verif Require Import Base BaseProofs Text TextProofs Hkp SpecHkp.

Lemma starts_pub l : starts_with (str "pub") l = true <-> is_pub l.
Proof.
  unfold starts_with, is_pub. destruct (strip_prefix (str "pub") l) as [r|] eqn:E.
  - apply strip_prefix_some in E. split; [|reflexivity]. intros _. exists r. exact E.
  - split; [discriminate|]. intros (r & H). exfalso. exact (strip_prefix_none _ _ E r H).
Qed.
Lemma starts_uid l : starts_with (str "uid") l = true <-> is_uid l.
Proof.
  unfold starts_with, is_uid. destruct (strip_prefix (str "uid") l) as [r|] eqn:E.
  - apply strip_prefix_some in E. split; [|reflexivity]. intros _. exists r. exact E.
  - split; [discriminate|]. intros (r & H). exfalso. exact (strip_prefix_none _ _ E r H).
Qed.
Lemma starts_pub_false l : ~ is_pub l -> starts_with (str "pub") l = false.
Proof. intros H. destruct (starts_with (str "pub") l) eqn:E; [|reflexivity]. apply starts_pub in E. contradiction. Qed.
Lemma starts_uid_false l : ~ is_uid l -> starts_with (str "uid") l = false.
Proof. intros H. destruct (starts_with (str "uid") l) eqn:E; [|reflexivity]. apply starts_uid in E. contradiction. Qed.
Lemma pub_not_uid l : is_pub l -> ~ is_uid l.
Proof. intros (r & ->) (r' & H). discriminate H. Qed.

(** every list of lines is a listing in exactly one way *)
Lemma listing_exists lines : exists pre bs, listing pre bs lines.
Proof.
  induction lines as [|l ls (pre & bs & E & P & B)]; [exists [], []; repeat split; auto; contradiction|].
  destruct (starts_with (str "pub") l) eqn:S.
  - apply starts_pub in S. exists [], (Block l pre :: bs). split; [cbn; now rewrite E|]. split; [intros x []|].
    intros b [<- | Hb]; [split; assumption|now apply B].
  - exists (l :: pre), bs. split; [cbn; now rewrite E|]. split; [|exact B]. intros x [<- | Hx]; [|now apply P].
    intros H. apply starts_pub in H. congruence.
Qed.
Lemma uids_exists ls : exists us, uids_of ls us.
Proof.
  induction ls as [|l ls (us & U)]; [eexists; constructor|]. destruct (starts_with (str "uid") l) eqn:S.
  - eexists. apply uo_uid; [now apply starts_uid|exact U].
  - eexists. apply uo_other; [|exact U]. intros H. apply starts_uid in H. congruence.
Qed.
Section P.
Variables (py_int : text -> res Z) (unquote : text -> text) (fts : Z -> res Z).
Notation loop := (mr_loop py_int unquote fts).
Notation result := (parse_result py_int unquote fts).
Lemma loop_between ls us pub acc res rest : uids_of ls us -> (forall l, In l ls -> ~ is_pub l) ->
  loop pub acc res (ls ++ rest) = loop pub (acc ++ us) res rest.
Proof.
  intros U. revert acc. induction U as [|l ls us Hl U IH|l ls us Hl U IH]; intros acc N; cbn [app].
  - now rewrite app_nil_r.
  - cbn [mr_loop]. rewrite starts_pub_false by (apply N; now left). rewrite (proj2 (starts_uid l)) by assumption.
    rewrite IH by (intros x Hx; apply N; now right). now rewrite <- app_assoc.
  - cbn [mr_loop]. rewrite starts_pub_false by (apply N; now left). rewrite starts_uid_false by assumption.
    apply IH. intros x Hx. apply N. now right.
Qed.
Lemma mapM_snoc_bind {A B} (f : A -> res B) a t (acc : list B) :
  (do r <- f a;; do rs <- mapM f t;; Ok (acc ++ r :: rs)) = (do rs <- mapM f (a :: t);; Ok (acc ++ rs)).
Proof. cbn [mapM]. destruct (f a); [|reflexivity]. cbn [bind]. destruct (mapM f t); reflexivity. Qed.
Definition entry (e : text * list text) : res keyres := result (fst e) (snd e).
Lemma loop_blocks bs es p acc res : Forall2 (fun b e => fst e = b_pub b /\ uids_of (b_rest b) (snd e)) bs es ->
  (forall b, In b bs -> is_pub (b_pub b) /\ forall l, In l (b_rest b) -> ~ is_pub l) ->
  loop (Some p) acc res (flat_map (fun b => b_pub b :: b_rest b) bs) = do rs <- mapM entry ((p, acc) :: es);; Ok (res ++ rs).
Proof.
  intros F. revert p acc res. induction F as [|b [q us] bs es [Eq U] F IH]; intros p acc res N.
  - cbn [flat_map mr_loop mapM]. unfold entry. cbn [fst snd]. destruct (result p acc); reflexivity.
  - cbn [fst snd] in *. subst q. cbn [flat_map app]. destruct (N b (or_introl eq_refl)) as [Pb Nb].
    cbn [mr_loop]. rewrite (proj2 (starts_pub _)) by assumption. rewrite <- mapM_snoc_bind. unfold entry at 1. cbn [fst snd].
    destruct (result p acc) as [r|e]; [|reflexivity]. cbn [bind]. rewrite (loop_between (b_rest b) us _ [] _ _ U Nb). cbn [app].
    rewrite IH by (intros x Hx; apply N; now right). destruct (mapM entry ((b_pub b, us) :: es)); [|reflexivity]. cbn [bind]. now rewrite <- app_assoc.
Qed.
Lemma loop_listing pre bs lines es : listing pre bs lines -> Forall2 (fun b e => fst e = b_pub b /\ uids_of (b_rest b) (snd e)) bs es ->
  loop None [] [] lines = mapM entry es.
Proof.
  intros (-> & P & B) F. destruct (uids_exists pre) as (us0 & U0). rewrite (loop_between pre us0 None [] [] _ U0 P). cbn [app].
  destruct F as [|b [q us] bs es [Eq U] F]; [reflexivity|]. cbn [fst snd] in *. subst q. cbn [flat_map app mr_loop].
  destruct (B b (or_introl eq_refl)) as [Pb Nb]. rewrite (proj2 (starts_pub _)) by assumption.
  rewrite (loop_between (b_rest b) us _ [] _ _ U Nb). cbn [app]. rewrite (loop_blocks bs es) by (auto; intros x Hx; apply B; now right).
  destruct (mapM entry ((b_pub b, us) :: es)); reflexivity.
Qed.

(** fields *)
Lemma split_char_app sep acc f t : ~ In sep f -> split_char sep acc (f ++ sep :: t) = (rev acc ++ f) :: split_char sep [] t.
Proof.
  revert acc. induction f as [|c f IH]; intros acc N; cbn [app split_char].
  - rewrite Z.eqb_refl. now rewrite app_nil_r.
  - destruct (c =? sep) eqn:E; [exfalso; apply N; left; lia|]. rewrite IH by (intros H; apply N; now right). cbn [rev]. now rewrite <- app_assoc.
Qed.
Lemma split_char_end sep acc f : ~ In sep f -> split_char sep acc f = [rev acc ++ f].
Proof.
  revert acc. induction f as [|c f IH]; intros acc N; cbn [split_char]; [now rewrite app_nil_r|].
  destruct (c =? sep) eqn:E; [exfalso; apply N; left; lia|]. rewrite IH by (intros H; apply N; now right). cbn [rev]. now rewrite <- app_assoc.
Qed.
Lemma split_colons fs : fs <> [] -> Forall (fun f => ~ In 58 f) fs -> split_on 58 (colons fs) = fs.
Proof.
  intros N F. unfold split_on. induction F as [|f t Hf Ft IH]; [easy|]. destruct t as [|g t].
  - cbn [colons]. now rewrite split_char_end.
  - cbn [colons]. change (f ++ 58 :: colons (g :: t)) with (f ++ 58 :: colons (g :: t)). rewrite split_char_app by assumption. cbn [rev app]. f_equal. apply IH. discriminate.
Qed.
Definition ncol (l : text) : Z := zlen (filter (fun c => c =? 58) l).
Lemma ncol_app a b : ncol (a ++ b) = ncol a + ncol b.
Proof. unfold ncol. now rewrite filter_app, zlen_app. Qed.
Lemma ncol_none f : ~ In 58 f -> ncol f = 0.
Proof.
  intros N. unfold ncol. induction f as [|c f IH]; [reflexivity|]. cbn [filter]. destruct (c =? 58) eqn:E; [exfalso; apply N; left; lia|].
  apply IH. intros H. apply N. now right.
Qed.
Lemma ncol_repeat j : ncol (repeat 58 j) = Z.of_nat j.
Proof. unfold ncol. induction j as [|j IH]; [reflexivity|]. cbn [repeat filter]. change (58 =? 58) with true. cbn [filter]. cbn iota. rewrite zlen_cons, IH. lia. Qed.
Lemma ncol_colons fs : Forall (fun f => ~ In 58 f) fs -> fs <> [] -> ncol (colons fs) = zlen fs - 1.
Proof.
  induction 1 as [|f t Hf Ft IH]; intros N; [easy|]. destruct t as [|g t].
  - cbn [colons]. rewrite ncol_none by assumption. reflexivity.
  - change (colons (f :: g :: t)) with (f ++ [58] ++ colons (g :: t)). rewrite !ncol_app, ncol_none by assumption.
    rewrite IH by discriminate. change (ncol [58]) with 1. rewrite !zlen_cons. lia.
Qed.
Lemma line_fields fs l n : line_of fs l -> Forall (fun f => ~ In 58 f) fs -> zlen fs = n + 1 -> 0 <= n -> split_on 58 (add_colons l n) = fs.
Proof.
  intros (j & J) F L Hn. assert (N : fs <> []) by (intros ->; cbn in L; lia).
  replace (add_colons l n) with (colons fs); [now apply split_colons|]. unfold add_colons. fold (ncol l).
  pose proof (ncol_colons fs F N) as C. rewrite <- J, ncol_app, ncol_repeat in C. replace (Z.to_nat (n - ncol l)) with j by lia. now rewrite J.
Qed.
Lemma has_char_in c l b : (In c l <-> b = true) -> has_char c l = b.
Proof.
  intros H. unfold has_char. destruct (existsb (Z.eqb c) l) eqn:E.
  - symmetry. apply H. apply existsb_exists in E as (x & Hx & Ex). apply Z.eqb_eq in Ex. now subst.
  - destruct b; [|reflexivity]. assert (I : In c l) by (now apply H). exfalso. apply Bool.not_true_iff_false in E. apply E. apply existsb_exists. exists c. split; [exact I|apply Z.eqb_refl].
Qed.
Section R.
Variables (num : Z -> text) (quote : text -> text).
Hypothesis num_ok : forall n, num n <> [] /\ ~ In 58 (num n) /\ py_int (num n) = Ok n.
Hypothesis quote_ok : forall u, ~ In 58 (quote u) /\ unquote (quote u) = u.
Hypothesis fts_ok : forall n, fts n = Ok n.
Lemma opt_time_num e : opt_time py_int fts (opt_num num e) = Ok e.
Proof.
  destruct e as [n|]; [|reflexivity]. cbn [opt_num]. destruct (num_ok n) as (N & _ & I). unfold opt_time. destruct (num n) as [|z0 l0]; [easy|].
  rewrite I. cbn [bind]. now rewrite fts_ok.
Qed.
Lemma opt_num_col e : ~ In 58 (opt_num num e).
Proof. destruct e; [apply num_ok|intros []]. Qed.
Lemma uid_line_read u l : uid_line num quote u l -> parse_uid_line py_int unquote fts l = Ok u.
Proof.
  intros [u0 c e r d x flags l0 (R & D & X & C) L]. unfold parse_uid_line.
  rewrite (line_fields _ _ 4 L); [|repeat (apply Forall_cons; [|]); try apply Forall_nil; auto; try apply num_ok; try apply quote_ok; try apply opt_num_col; cbn; intuition discriminate|reflexivity|lia].
  destruct (num_ok c) as (_ & _ & ->). cbn [bind]. rewrite fts_ok. cbn [bind]. rewrite opt_time_num. cbn [bind].
  rewrite (has_char_in _ _ r), (has_char_in _ _ d), (has_char_in _ _ x) by assumption. destruct (quote_ok u0) as [_ ->]. reflexivity.
Qed.
Lemma block_read k b us : pub_line num k (b_pub b) -> Forall2 (uid_line num quote) (h_uids k) us -> result (b_pub b) us = Ok k.
Proof.
  intros P F. assert (U : mapM (parse_uid_line py_int unquote fts) us = Ok (h_uids k)).
  { clear P. induction F as [|u l ks us Hu F IH]; [reflexivity|]. cbn [mapM]. rewrite (uid_line_read _ _ Hu). cbn [bind]. rewrite IH. reflexivity. }
  destruct P as [k0 a b0 c e r d x us0 flags l (R & D & X & C) K L]. unfold parse_result.
  rewrite (line_fields _ _ 6 L); [|repeat (apply Forall_cons; [|]); try apply Forall_nil; auto; try apply num_ok; try apply opt_num_col; cbn; intuition discriminate|reflexivity|lia].
  destruct (num_ok a) as (_ & _ & ->). destruct (num_ok b0) as (_ & _ & ->). destruct (num_ok c) as (_ & _ & ->). cbn [bind].
  rewrite fts_ok. cbn [bind]. rewrite opt_time_num. cbn [bind]. rewrite U. cbn [bind h_uids].
  rewrite (has_char_in _ _ r), (has_char_in _ _ d), (has_char_in _ _ x) by assumption. reflexivity.
Qed.
Lemma listing_read pre bs lines ks : listing pre bs lines -> Forall2 (block_of num quote) ks bs -> loop None [] [] lines = Ok ks.
Proof.
  intros L F. assert (E : exists es, Forall2 (fun b e => fst e = b_pub b /\ uids_of (b_rest b) (snd e)) bs es /\ mapM entry es = Ok ks).
  { clear L. induction F as [|k b ks bs (P & us & U & Fu) F (es & E1 & E2)]; [exists []; split; [constructor|reflexivity]|].
    exists ((b_pub b, us) :: es). split; [constructor; [split; [reflexivity|exact U]|exact E1]|]. cbn [mapM]. unfold entry at 1. cbn [fst snd].
    rewrite (block_read k b us P Fu). cbn [bind]. now rewrite E2. }
  destruct E as (es & E1 & E2). rewrite (loop_listing pre bs lines es L E1). exact E2.
Qed.
End R.
End P.
