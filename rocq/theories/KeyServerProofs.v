(** Lemmas on URLs for P_KeyServer.v *)
From Verif Require Import Base BaseProofs Text Hkp HkpProofs Url KeyServer SpecKeyServer.

Lemma split_first_app p a b : Forall (fun c => p c = false) a -> split_first p (a ++ b) = (a ++ fst (split_first p b), snd (split_first p b)).
Proof. induction 1 as [|c a Hc _ IH]; cbn [app split_first]; [now destruct (split_first p b)|]. rewrite Hc, IH. reflexivity. Qed.
Lemma split_first_all p a : Forall (fun c => p c = false) a -> split_first p a = (a, []).
Proof. intros F. rewrite <- (app_nil_r a) at 1. rewrite split_first_app by exact F. cbn. now rewrite app_nil_r. Qed.
Lemma cut_none c t : ~ In c t -> cut c t = (t, []).
Proof. intros N. unfold cut. rewrite split_first_all; [reflexivity|]. apply Forall_forall. intros x I. destruct (Z.eqb_spec c x); [subst; contradiction|reflexivity]. Qed.
Lemma clean_id t : Forall (fun c => 32 < c) t -> clean t = t.
Proof.
  intros F. unfold clean. assert (E : lstrip_c0 t = t) by (destruct F as [|c t Hc _]; [reflexivity|]; cbn; now replace (c <=? 32) with false by lia). rewrite E. clear E. induction F as [|c t Hc _ IH]; [reflexivity|].
  cbn [filter]. rewrite IH. cbn [existsb]. replace (c =? 9) with false by lia. replace (c =? 10) with false by lia. replace (c =? 13) with false by lia. reflexivity.
Qed.
Lemma letter_case c n : letter_of c n -> 97 <= n <= 122 -> is_letter c = true /\ lower_char c = n.
Proof. unfold letter_of, is_letter, lower_char. intros [->|[_ ->]] H; split; try lia; destruct ((65 <=? _) && _) eqn:E; lia. Qed.
Lemma spelled_letters w name : spelled w name -> Forall (fun n => 97 <= n <= 122) name -> Forall (fun c => is_letter c = true) w /\ lower w = name.
Proof.
  induction 1 as [|c n w name H _ IH]; intros F; [split; [constructor|reflexivity]|]. destruct (letter_case c n H (Forall_inv F)) as [A B]. destruct (IH (Forall_inv_tail F)) as [C D]. split; [now constructor|]. unfold lower in *. cbn [map]. now rewrite B, D.
Qed.
Lemma spelled_self name : spelled name name. Proof. induction name; constructor; [now left|assumption]. Qed.
Lemma in_path c dirs : In c (path_of dirs) -> c = 47 \/ exists d, In d dirs /\ In c d.
Proof. induction dirs as [|d dirs IH]; [intros []|]. unfold path_of in *. cbn [map concat]. intros [I|I]%in_app_or; [|destruct (IH I) as [->|(x & A & B)]; [auto|right; exists x; split; [now right|exact B]]]. destruct I as [<-|I]; [now left|]. right. exists d. split; [now left|exact I]. Qed.

Definition split_end := HkpProofs.split_char_end (fun _ => Err ValueError) (fun t => t) (fun _ => Err ValueError).
Definition split_app := HkpProofs.split_char_app (fun _ => Err ValueError) (fun t => t) (fun _ => Err ValueError).
Section Parse.
Variables (bad_host : text -> bool) (host : text) (dirs : list text) (slash : bool).
Hypotheses (Hb : bad_host host = false) (Hb0 : bad_host [] = false) (Hh : host_ok host) (Hd : Forall dir_ok dirs).
Let path := path_of dirs ++ (if slash then str "/" else []).
Lemma path_char c : In c path -> 32 < c /\ c <> 63 /\ c <> 35 /\ c <> 59.
Proof.
  unfold path. intros [I|I]%in_app_or.
  - destruct (in_path _ _ I) as [->|(d & A & B)]; [lia|]. rewrite Forall_forall in Hd. destruct (Hd d A) as (_ & _ & _ & F). rewrite Forall_forall in F. destruct (F c B) as [C D]. repeat split; [lia|intros ->; apply D; cbn; auto..].
  - destruct slash; [|destruct I]. cbn in I. destruct I as [<-|[]]. lia.
Qed.
Lemma path_front : match path with [] => True | c :: _ => c = 47 end.
Proof. unfold path, path_of. destruct dirs as [|d ds]; [destruct slash; [reflexivity|exact I]|]. reflexivity. Qed.
Lemma urlparse_server w name : spelled w name -> Forall (fun n => 97 <= n <= 122) name -> name <> [] ->
  urlparse bad_host (server_url w host dirs slash) [] = Ok (Url name host path [] [] []).
Proof.
  intros S F N. destruct (spelled_letters w name S F) as [L E]. unfold urlparse, urlsplit. destruct Hh as [Hn Hc].
  assert (C : clean (server_url w host dirs slash) = server_url w host dirs slash).
  { apply clean_id. unfold server_url. repeat (apply Forall_app; split).
    - eapply Forall_impl; [|exact L]. intros c. cbn beta. unfold is_letter. lia.
    - repeat constructor; lia.
    - eapply Forall_impl; [|exact Hc]. cbn beta. tauto.
    - apply Forall_forall. intros c I. apply path_char. unfold path. apply in_or_app. now left.
    - apply Forall_forall. intros c I. apply path_char. unfold path. apply in_or_app. now right. }
  rewrite C. clear C. unfold server_url. rewrite split_first_app; [|eapply Forall_impl; [|exact L]; cbn beta; unfold is_letter; intros c; lia].
  change (str "://" ++ host ++ path_of dirs ++ (if slash then str "/" else [])) with (58 :: [47; 47] ++ host ++ path). change (split_first (Z.eqb 58) (58 :: [47; 47] ++ host ++ path)) with (@nil Z, 58 :: [47; 47] ++ host ++ path). cbn [fst snd]. rewrite app_nil_r.
  destruct w as [|c0 w]; [inversion S; subst; congruence|]. cbn [app]. rewrite (Forall_inv L). replace (forallb scheme_char (c0 :: w)) with true.
  2:{ symmetry. apply forallb_forall. intros c I. unfold scheme_char. rewrite Forall_forall in L. now rewrite (L c I). }
  cbn [andb]. rewrite E.
  assert (Sp : split_first (fun c => existsb (Z.eqb c) [47; 63; 35]) (host ++ path) = (host, path)).
  { rewrite split_first_app. - pose proof path_front as P. destruct path as [|c p]; [cbn; now rewrite app_nil_r|]. subst c. cbn. now rewrite app_nil_r.
    - eapply Forall_impl; [|exact Hc]. cbn beta. intros c [_ D]. cbn [existsb]. destruct (Z.eqb_spec c 47); [subst; exfalso; apply D; cbn; auto|]. destruct (Z.eqb_spec c 63); [subst; exfalso; apply D; cbn; auto|]. destruct (Z.eqb_spec c 35); [subst; exfalso; apply D; cbn; auto|]. reflexivity. }
  cbn [app]. rewrite Sp, Hb. rewrite cut_none by (intros I; apply path_char in I; lia). rewrite cut_none by (intros I; apply path_char in I; lia). cbn [bind].
  replace (has_char 59 path) with false; [now rewrite andb_false_r|]. symmetry. apply not_true_iff_false. intros X. apply existsb_exists in X as (c & I & X). apply path_char in I. lia.
Qed.
Lemma unparse_server (name : text) : name <> [] -> urlunparse (Url name host path [] [] []) = name ++ str "://" ++ host ++ path.
Proof.
  intros N. unfold urlunparse. cbn [params upath netloc scheme query fragment]. destruct Hh as [Hn _]. destruct host as [|h0 ht]; [congruence|]. replace (zlen (h0 :: ht) =? 0) with false by (rewrite zlen_cons; pose proof (zlen_nonneg ht); lia). cbn [negb orb].
  destruct name as [|c0 n]; [congruence|]. pose proof path_front as P. destruct path as [|c p]; [|subst c; change (47 =? 47) with true; cbn iota]; rewrite <- ?app_assoc; reflexivity.
Qed.
Lemma split_dirs ds : Forall dir_ok ds -> forall acc f, ~ In 47 f -> split_char 47 acc (f ++ path_of ds) = (rev acc ++ f) :: ds.
Proof.
  induction 1 as [|d ds H _ IH]; intros acc f N.
  - unfold path_of. cbn [map concat]. rewrite app_nil_r, split_end by exact N. reflexivity.
  - change (path_of (d :: ds)) with (47 :: d ++ path_of ds). rewrite split_app by exact N. f_equal. rewrite IH; [reflexivity|]. intros I. destruct H as (_ & _ & _ & F). rewrite Forall_forall in F. destruct (F _ I) as [_ X]. apply X. cbn. auto.
Qed.
Lemma split_dirs_slash ds : Forall dir_ok ds -> forall acc f, ~ In 47 f -> split_char 47 acc (f ++ path_of ds ++ [47]) = (rev acc ++ f) :: ds ++ [[]].
Proof.
  induction 1 as [|d ds H _ IH]; intros acc f N.
  - unfold path_of. cbn [map concat app]. rewrite split_app by exact N. reflexivity.
  - change (path_of (d :: ds)) with (47 :: d ++ path_of ds). cbn [app]. rewrite <- app_assoc. rewrite split_app by exact N. f_equal. rewrite IH; [reflexivity|]. intros I. destruct H as (_ & _ & _ & F). rewrite Forall_forall in F. destruct (F _ I) as [_ X]. apply X. cbn. auto.
Qed.
(** the directories that stay: the last one only counts when a slash follows it *)
Let kept := if slash then dirs else removelast dirs.
Lemma resolve_ok ds done rest : Forall (fun d => d <> [46] /\ d <> [46; 46]) ds -> resolve done (ds ++ rest) = resolve (rev ds ++ done) rest.
Proof.
  intros F. revert done. induction F as [|d ds [A B] _ IH]; intros done; [reflexivity|]. cbn [app resolve]. rewrite zlist_eqb_neq by exact B. rewrite zlist_eqb_neq by exact A. rewrite IH. cbn [rev]. now rewrite <- app_assoc.
Qed.
Lemma join_dirs ds a b : join [47] ([] :: ds ++ [a; b]) = path_of ds ++ [47] ++ a ++ [47] ++ b.
Proof.
  assert (G : forall x, join [47] (x :: ds ++ [a; b]) = x ++ path_of ds ++ [47] ++ a ++ [47] ++ b).
  { induction ds as [|d ds IH]; intros x; [unfold path_of; cbn; reflexivity|]. cbn [app]. change (join [47] (x :: d :: ds ++ [a; b])) with (x ++ [47] ++ join [47] (d :: ds ++ [a; b])). rewrite IH. unfold path_of. cbn [map concat]. rewrite <- !app_assoc. reflexivity. }
  apply (G []).
Qed.
Lemma filter_dirs ds : Forall dir_ok ds -> filter (fun s : text => negb (zlen s =? 0)) ds = ds.
Proof. induction 1 as [|d ds (N & _) _ IH]; [reflexivity|]. cbn [filter]. replace (zlen d =? 0) with false; [cbn; now rewrite IH|]. destruct d; [congruence|]. rewrite zlen_cons. pose proof (zlen_nonneg d). lia. Qed.
Lemma removelast_forall {A} (P : A -> Prop) l : Forall P l -> Forall P (removelast l).
Proof. induction 1 as [|x l H F IH]; [constructor|]. destruct l; [constructor|]. cbn [removelast] in *. now constructor. Qed.
Lemma join_url name a : In name [str "http"; str "https"] -> ~ In 47 a -> urlparse bad_host (str "pks/" ++ a) name = Ok (Url name [] (str "pks/" ++ a) [] [] []) -> dir_ok a ->
  urljoin bad_host (name ++ str "://" ++ host ++ path) (str "pks/" ++ a) = Ok (name ++ str "://" ++ host ++ path_of kept ++ str "/pks/" ++ a).
Proof.
  intros In_ Na Pa Da.
  assert (N : name <> []) by (destruct In_ as [<-|[<-|[]]]; discriminate).
  assert (F : Forall (fun n => 97 <= n <= 122) name) by (destruct In_ as [<-|[<-|[]]]; cbn; repeat (apply Forall_cons; [lia|]); apply Forall_nil).
  pose proof (urlparse_server name name (spelled_self name) F N) as Q. unfold server_url in Q. fold path in Q.
  assert (Nb : name ++ str "://" ++ host ++ path <> []) by (destruct name; [congruence|discriminate]).
  change (str "pks/" ++ a) with (112 :: 107 :: 115 :: 47 :: a) in *. unfold urljoin. destruct (name ++ str "://" ++ host ++ path) as [|b0 bt] eqn:Eb; [congruence|]. rewrite Q. clear Eb Q Nb b0 bt.
  cbn [bind scheme]. rewrite Pa. cbn [bind scheme netloc upath params query fragment]. rewrite zlist_eqb_refl.
  assert (R : is_in name uses_relative = true) by (destruct In_ as [<-|[<-|[]]]; reflexivity). assert (R2 : is_in name uses_netloc = true) by (destruct In_ as [<-|[<-|[]]]; reflexivity).
  rewrite R, R2. change (zlen (@nil Z) =? 0) with true. cbn [negb orb andb]. replace (zlen (112 :: 107 :: 115 :: 47 :: a) =? 0) with false by (rewrite !zlen_cons; pose proof (zlen_nonneg a); lia). cbn [andb].
  assert (S2 : split_on 47 (112 :: 107 :: 115 :: 47 :: a) = [[112; 107; 115]; a]). { unfold split_on. change (112 :: 107 :: 115 :: 47 :: a) with ([112; 107; 115] ++ 47 :: a). rewrite split_app by (cbn; lia). rewrite split_end by exact Na. reflexivity. }
  rewrite S2.
  set (parts := if zlen (last_seg (split_on 47 path)) =? 0 then split_on 47 path else removelast (split_on 47 path)).
  assert (Kd : Forall dir_ok kept) by (unfold kept; destruct slash; [exact Hd|now apply removelast_forall]).
  assert (P : exists e, Forall (fun s : text => s = []) e /\ parts ++ [[112; 107; 115]; a] = [] :: (kept ++ e ++ [[112; 107; 115]]) ++ [a]).
  { unfold parts, path, kept. destruct slash.
    - exists [[]]. split; [repeat constructor|]. assert (E : split_on 47 (path_of dirs ++ str "/") = [] :: dirs ++ [[]]) by exact (split_dirs_slash dirs Hd [] [] (fun x => x)). rewrite E.
      replace (last_seg ([] :: dirs ++ [[]])) with (@nil Z) by (unfold last_seg; rewrite app_comm_cons, last_last; reflexivity). change (zlen (@nil Z) =? 0) with true. cbn iota. cbn [app]. repeat (rewrite <- app_assoc; cbn [app]). reflexivity.
    - rewrite app_nil_r. assert (E : split_on 47 (path_of dirs) = [] :: dirs) by exact (split_dirs dirs Hd [] [] (fun x => x)). rewrite E. destruct (list_eq_dec (list_eq_dec Z.eq_dec) dirs []) as [->|Nd].
      + exists []. split; [constructor|]. reflexivity.
      + exists []. split; [constructor|]. destruct (exists_last Nd) as (ds & d & Ed). rewrite Ed. assert (Ln : d <> []). { pose proof Hd as H. rewrite Ed in H. apply Forall_app in H as [_ L]. apply Forall_inv in L. apply L. }
        replace (last_seg ([] :: ds ++ [d])) with d by (unfold last_seg; rewrite app_comm_cons, last_last; reflexivity). replace (zlen d =? 0) with false by (destruct d as [|x y]; [congruence|rewrite zlen_cons; pose proof (zlen_nonneg y); lia]).
        rewrite app_comm_cons, !removelast_last. cbn [app]. repeat (rewrite <- app_assoc; cbn [app]). reflexivity. }
  destruct P as (e & Fe & P). rewrite P.
  assert (Sq : squeeze ([] :: (kept ++ e ++ [[112; 107; 115]]) ++ [a]) = [] :: kept ++ [[112; 107; 115]; a]).
  { unfold squeeze. destruct ((kept ++ e ++ [[112; 107; 115]]) ++ [a]) as [|x y] eqn:X; [destruct kept; [destruct e; discriminate X|discriminate X]|]. rewrite <- X. clear P X x y. rewrite removelast_last. unfold last_seg. rewrite last_last. rewrite !filter_app, (filter_dirs kept Kd).
    replace (filter (fun s : text => negb (zlen s =? 0)) e) with (@nil text) by (clear -Fe; induction Fe as [|x e -> _ IH]; [reflexivity|exact IH]). cbn. repeat (rewrite <- app_assoc; cbn [app]). reflexivity. }
  rewrite Sq.
  assert (Ed : Forall (fun d : text => d <> [46] /\ d <> [46; 46]) ([] :: kept ++ [[112; 107; 115]; a])).
  { constructor; [split; discriminate|]. apply Forall_app. split; [eapply Forall_impl; [|exact Kd]; intros d (_ & A & B & _); split; assumption|]. constructor; [split; discriminate|]. constructor; [|constructor]. destruct Da as (_ & A & B & _). split; assumption. }
  assert (Rs : resolve [] ([] :: kept ++ [[112; 107; 115]; a]) = [] :: kept ++ [[112; 107; 115]; a]). { rewrite <- (app_nil_r ([] :: kept ++ [[112; 107; 115]; a])) at 1. rewrite resolve_ok by exact Ed. cbn [resolve]. rewrite app_nil_r. apply rev_involutive. }
  rewrite Rs. replace (is_in (last_seg ([] :: kept ++ [[112; 107; 115]; a])) [[46]; [46; 46]]) with false.
  2:{ unfold last_seg. change ([] :: kept ++ [[112; 107; 115]; a]) with (([] :: kept) ++ [[112; 107; 115]; a]). replace (last (([] :: kept) ++ [[112; 107; 115]; a]) []) with a by (change [[112; 107; 115]; a] with ([[112; 107; 115]] ++ [a]); rewrite app_assoc, last_last; reflexivity). destruct Da as (_ & A & B & _). unfold is_in. cbn [existsb]. rewrite (zlist_eqb_neq a [46] A), (zlist_eqb_neq a [46; 46] B). reflexivity. }
  rewrite join_dirs. set (J := path_of kept ++ [47] ++ [112; 107; 115] ++ [47] ++ a).
  assert (Jf : exists r, J = 47 :: r) by (unfold J, path_of; destruct kept; eexists; reflexivity). destruct Jf as (r & Jr).
  assert (Ej : match J with [] => [47] | z :: l => z :: l end = J) by (rewrite Jr; reflexivity). rewrite Ej. f_equal.
  unfold urlunparse. cbn [params upath netloc scheme query fragment]. destruct Hh as [Hn _]. replace (zlen host =? 0) with false by (destruct host; [congruence|rewrite zlen_cons; pose proof (zlen_nonneg l); lia]). cbn [negb orb]. assert (Em : match J with [] => [] | c :: _ => if c =? 47 then J else 47 :: J end = J) by (rewrite Jr; reflexivity). rewrite Em. clear Em. destruct name as [|c0 n]; [congruence|]. unfold J. rewrite <- ?app_assoc. reflexivity.
Qed.
End Parse.
