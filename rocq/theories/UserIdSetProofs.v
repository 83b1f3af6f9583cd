(** Proofs: what _make_user_id writes is read back. *)
From Verif Require Import Base BaseProofs Text TextProofs UserId SpecUserId UserIdProofs UserIdForms UserIdSet SpecUserIdSet.

Section F.
Variable field : text.
Variable cd : nat.
Variable quote : text -> text.
Notation L := (zlen field).
(** what may follow the closing angle bracket *)
Definition suffix (comment : text) : text := match comment with [] => [] | _ => [32; 40] ++ comment ++ [41] end.
Definition list_of (comment : text) : list text := match comment with [] => [] | _ => [comment] end.
Lemma next_suffix pre comment : field = pre ++ suffix comment -> comment_text comment -> (comment = [] \/ (0 < cd)%nat) ->
  exists ws, gotonext field cd [] (zlen pre) = Ok (ws, list_of comment, L).
Proof.
  intros E C D. destruct comment as [|x co] eqn:Ec.
  - cbn [suffix list_of] in *. rewrite app_nil_r in E. exists []. subst pre. rewrite next_end by lia. reflexivity.
  - rewrite <- Ec in *. assert (E1 : field = pre ++ 32 :: 40 :: comment ++ [41]) by (rewrite E, Ec; reflexivity).
    destruct D as [D|D]; [congruence|]. destruct cd as [|cd']; [lia|]. clear D.
    destruct (in_field field pre 32 _ E1) as [B G].
    assert (E2 : field = (pre ++ [32]) ++ 40 :: comment ++ 41 :: []) by (rewrite <- app_assoc; exact E1).
    destruct (in_field field (pre ++ [32]) 40 _ E2) as [B2 G2].
    exists [32]. unfold gotonext. assert (Hf : exists f, loop_fuel field = S (S (S f))).
    { unfold loop_fuel. rewrite E1, app_length. cbn [length]. rewrite app_length. cbn [length]. exists (length pre + length comment + 1)%nat. lia. }
    destruct Hf as (f & ->). cbn [next_loop]. rewrite B, G. cbn [bind]. change (in_set 32 FWS) with true. change (in_set 32 CRLF) with false. cbn iota.
    replace (zlen pre + 1) with (zlen (pre ++ [32])) by (rewrite zlen_app; reflexivity). rewrite B2, G2. cbn [bind]. change (in_set 40 FWS) with false. cbn iota. cbn [Z.eqb Pos.eqb].
    rewrite (getcomment_run field O (fun x => x) comment cd' (pre ++ [32]) [] E2 C). cbn [bind]. rewrite <- E2. rewrite Z.ltb_irrefl.
    unfold list_of. now rewrite Ec.
Qed.
Lemma address_lead gd lead plist local domain comment f2 :
  field = lead ++ [32] ++ [60] ++ local ++ [64] ++ domain ++ [62] ++ suffix comment ->
  plist <> [] -> plain local -> plain domain -> comment_text comment -> (comment = [] \/ (0 < cd)%nat) ->
  (exists y r, field = y :: r /\ in_set y FWS = false /\ y <> 40) ->
  (0 < f2)%nat -> phrase_loop field cd (loop_fuel field) [] [] 0 = phrase_loop field cd f2 plist [] (zlen (lead ++ [32])) ->
  getaddress quote field cd (S gd) 0 = Ok ([(join [32] plist, local ++ [64] ++ domain)], list_of comment, L).
Proof.
  intros E N Pl Pd C D (y & r & Ey & Y1 & Y2) Hf Ep. cbn [getaddress].
  pose proof (next_none field cd [] [] y r Ey Y1 Y2) as Hn. change (zlen (@nil Z)) with 0 in Hn. rewrite Hn. cbn [bind]. unfold getphraselist. rewrite Ep. clear Ep.
  set (pre := lead ++ [32]) in *. assert (E2 : field = pre ++ 60 :: local ++ [64] ++ domain ++ [62] ++ suffix comment) by (unfold pre; rewrite <- !app_assoc; exact E).
  rewrite (phrase_stop field cd f2 plist [] pre 60 _ E2); [|repeat split; discriminate|exact Hf]. cbn [bind].
  rewrite (next_none field cd [] pre 60 _ E2) by (reflexivity || discriminate). cbn [bind]. cbv zeta.
  destruct (in_field field pre 60 _ E2) as [B G]. replace (L <=? zlen pre) with false by lia. rewrite G. cbn [bind Z.eqb Pos.eqb orb].
  rewrite (routeaddr_run field cd quote [] pre local domain (suffix comment) E2 Pl Pd). cbn [bind].
  destruct (next_suffix (pre ++ [60] ++ local ++ [64] ++ domain ++ [62]) comment) as (ws & Es); [rewrite <- !app_assoc; exact E2|exact C|exact D|].
  rewrite Es. cbn [bind]. rewrite Z.ltb_irrefl. cbn [bind]. rewrite app_nil_r. reflexivity.
Qed.
(** a quoted name *)
Lemma quote_run : forall name fuel acc pre rest, field = pre ++ escape name ++ 34 :: rest -> ~ In 13 name -> (length (escape name) < fuel)%nat ->
  delim_loop field no_comment [34; 13] false fuel acc false (zlen pre) = Ok (acc ++ name, zlen (pre ++ escape name ++ [34])).
Proof.
  induction name as [|x name IH]; intros fuel acc pre rest E N Hf.
  - cbn [escape flat_map app length] in *. destruct fuel as [|fuel]; [lia|]. cbn [delim_loop]. destruct (in_field field pre 34 rest E) as [-> ->]. cbn [bind]. change (in_set 34 [34; 13]) with true. cbn iota.
    rewrite app_nil_r, zlen_app. reflexivity.
  - assert (Nx : x <> 13) by (intros ->; apply N; now left). assert (Nn : ~ In 13 name) by (intros I; apply N; now right).
    change (escape (x :: name)) with ((if in_set x [92; 34] then [92; x] else [x]) ++ escape name) in *. rewrite <- app_assoc in E.
    destruct (in_set x [92; 34]) eqn:Q.
    + rewrite !app_length in Hf. cbn [length] in Hf. destruct fuel as [|[|fuel]]; [lia|lia|].
      destruct (in_field field pre 92 (x :: escape name ++ 34 :: rest) E) as [B G]. assert (E2 : field = (pre ++ [92]) ++ x :: escape name ++ 34 :: rest) by (rewrite <- app_assoc; exact E).
      destruct (in_field field (pre ++ [92]) x _ E2) as [B2 G2]. cbn [delim_loop]. rewrite B, G. cbn [bind andb]. change (in_set 92 [34; 13]) with false. cbn iota. cbn [Z.eqb Pos.eqb].
      replace (zlen pre + 1) with (zlen (pre ++ [92])) by (rewrite zlen_app; reflexivity). rewrite B2, G2. cbn [bind].
      replace (zlen (pre ++ [92]) + 1) with (zlen ((pre ++ [92]) ++ [x])) by (rewrite zlen_app; reflexivity).
      rewrite (IH fuel (acc ++ [x]) ((pre ++ [92]) ++ [x]) rest); [rewrite <- !app_assoc; reflexivity|rewrite <- app_assoc; exact E2|exact Nn|lia].
    + rewrite !app_length in Hf. cbn [length] in Hf. destruct fuel as [|fuel]; [lia|].
      destruct (in_field field pre x (escape name ++ 34 :: rest) E) as [B G]. cbn [delim_loop]. rewrite B, G. cbn [bind andb].
      unfold in_set in Q. cbn [existsb] in Q. unfold in_set. cbn [existsb]. replace (x =? 34) with false by lia. replace (x =? 13) with false by lia. cbn [orb]. replace (x =? 92) with false by lia.
      replace (zlen pre + 1) with (zlen (pre ++ [x])) by (rewrite zlen_app; reflexivity).
      rewrite (IH fuel (acc ++ [x]) (pre ++ [x]) rest); [rewrite <- !app_assoc; reflexivity|rewrite <- app_assoc; exact E|exact Nn|lia].
Qed.
Lemma getquote_run name pre rest : field = pre ++ 34 :: escape name ++ 34 :: rest -> ~ In 13 name ->
  getquote field (zlen pre) = Ok (name, zlen (pre ++ 34 :: escape name ++ [34])).
Proof.
  intros E N. unfold getquote, getdelimited. destruct (in_field field pre 34 _ E) as [_ ->]. cbn [bind Z.eqb Pos.eqb negb].
  assert (E1 : field = (pre ++ [34]) ++ escape name ++ 34 :: rest) by (rewrite <- app_assoc; exact E).
  replace (zlen pre + 1) with (zlen (pre ++ [34])) by (rewrite zlen_app; reflexivity).
  rewrite (quote_run name _ [] (pre ++ [34]) rest E1 N); [now rewrite <- app_assoc|]. exact (fuel_ok field (pre ++ [34]) (escape name) _ E1).
Qed.
Lemma address_quoted gd name local domain comment : field = 34 :: escape name ++ 34 :: [32; 60] ++ local ++ [64] ++ domain ++ [62] ++ suffix comment ->
  ~ In 13 name -> plain local -> plain domain -> comment_text comment -> (comment = [] \/ (0 < cd)%nat) ->
  getaddress quote field cd (S gd) 0 = Ok ([(name, local ++ [64] ++ domain)], list_of comment, L).
Proof.
  intros E N Pl Pd C D.
  assert (Hf : exists f, loop_fuel field = S (S (S f))).
  { assert (Hl : (2 <= length field)%nat) by (rewrite E; cbn [length]; rewrite app_length; cbn [length]; lia). unfold loop_fuel. destruct (length field) as [|[|k]]; [lia|lia|]. now exists k. }
  destruct Hf as (f & Hf).
  change name with (join [32] [name]) at 1.
  apply (address_lead gd (34 :: escape name ++ [34]) [name] local domain comment (S f)); [|discriminate|exact Pl|exact Pd|exact C|exact D| |lia|].
  - rewrite E. cbn [app]. rewrite <- app_assoc. reflexivity.
  - exists 34, (escape name ++ 34 :: [32; 60] ++ local ++ [64] ++ domain ++ [62] ++ suffix comment). split; [exact E|split; [reflexivity|discriminate]].
  - rewrite Hf. assert (E0 : field = [] ++ 34 :: escape name ++ 34 :: [32; 60] ++ local ++ [64] ++ domain ++ [62] ++ suffix comment) by exact E.
    pose proof (in_field field [] 34 _ E0) as [B G]. pose proof (getquote_run name [] _ E0 N) as Q. change (zlen (@nil Z)) with 0 in *.
    etransitivity; [|apply (phrase_step_space field cd (S f) [name] [] (34 :: escape name ++ [34]) (60 :: local ++ [64] ++ domain ++ [62] ++ suffix comment)); rewrite E; cbn [app]; rewrite <- app_assoc; reflexivity].
    set (g := S f) in *. cbn [phrase_loop]. rewrite B, G. cbn [bind]. change (in_set 34 FWS) with false. cbn iota. cbn [Z.eqb Pos.eqb]. rewrite Q. cbn [bind]. reflexivity.
Qed.
Lemma address_words gd words local domain comment : field = join [32] words ++ [32; 60] ++ local ++ [64] ++ domain ++ [62] ++ suffix comment ->
  words <> [] -> Forall plain words -> plain local -> plain domain -> comment_text comment -> (comment = [] \/ (0 < cd)%nat) ->
  getaddress quote field cd (S gd) 0 = Ok ([(join [32] words, local ++ [64] ++ domain)], list_of comment, L).
Proof.
  intros E N F Pl Pd C D.
  assert (E0 : field = join [32] words ++ [32] ++ ([60] ++ local ++ [64] ++ domain ++ [62] ++ suffix comment)) by exact E.
  pose proof (words_fuel field quote words _ F E0) as Hf.
  destruct (phrase_words field cd words [] [] [] _ (loop_fuel field) E0 F ltac:(lia)) as (f2 & Hf2 & Ep). change (zlen (@nil Z)) with 0 in Ep. cbn [app] in Ep.
  apply (address_lead gd (join [32] words) words local domain comment f2); [exact E0|exact N|exact Pl|exact Pd|exact C|exact D| | |exact Ep].
  - destruct words as [|w words]; [easy|]. pose proof (Forall_inv F) as Pw.
    assert (exists t, join [32] (w :: words) = w ++ t) as (t & Et) by (destruct words; [exists []; now rewrite app_nil_r|exists ([32] ++ join [32] (l :: words)); reflexivity]).
    rewrite Et, <- app_assoc in E. destruct (plain_next field quote w (t ++ [32; 60] ++ local ++ [64] ++ domain ++ [62] ++ suffix comment) Pw) as (y & r & Er & Y1 & Y2 & _).
    exists y, r. rewrite E. auto.
  - rewrite app_length in Hf. cbn [length] in Hf. lia.
Qed.
(** a bare address with a comment after it: the comment is read by getdomain *)
Lemma domain_go : forall n a sd cl pre tail fuel, (length a <= n)%nat -> field = pre ++ a ++ tail -> Forall plain_char a -> tail_ends (fun c => in_set c atomends = true) tail -> (length a < fuel)%nat ->
  exists f2, (fuel <= f2 + length a)%nat /\ domain_loop field cd fuel sd cl (zlen pre) = domain_loop field cd f2 (sd ++ a) cl (zlen (pre ++ a)).
Proof.
  induction n as [|n IH]; intros a sd cl pre tail fuel Hn E F C Hf.
  - destruct a; [|cbn in Hn; lia]. exists fuel. rewrite !app_nil_r. split; [lia|reflexivity].
  - assert (Hd : a = [] \/ a <> []) by (destruct a; [now left|right; discriminate]). destruct Hd as [->|Na].
    { apply (IH [] sd cl pre tail fuel); auto. cbn. lia. }
    destruct fuel as [|fuel]; [lia|].
    assert (NL : forall v, plain_char v -> in_set v LWS = false).
    { intros v Pv. apply Bool.not_true_iff_false. rewrite in_set_in. intros I. pose proof (plain_fws v Pv) as W. apply Bool.not_true_iff_false in W. apply W. apply in_set_in. unfold FWS. apply in_or_app. now left. }
    destruct (dotted_head a F Na) as [(a' & Ha)|(w & a' & Ha & Pw & Dw & O)].
    + rewrite Ha in *. destruct (in_field field pre 46 (a' ++ tail) E) as [Bp G]. cbn [domain_loop]. rewrite Bp, G. cbn [bind]. change (in_set 46 LWS) with false. cbn [Z.eqb Pos.eqb]. cbn iota.
      replace (zlen pre + 1) with (zlen (pre ++ [46])) by (rewrite zlen_app; reflexivity). pose proof (Forall_inv_tail F) as F2.
      destruct (IH a' (sd ++ [46]) cl (pre ++ [46]) tail fuel) as (f2 & Hf2 & E2); auto; [cbn [length] in Hn; lia|rewrite <- app_assoc; exact E|cbn [length] in Hf; lia|].
      exists f2. split; [cbn [length]; lia|]. rewrite E2, <- !app_assoc. reflexivity.
    + rewrite Ha in *. rewrite <- app_assoc in E. destruct w as [|z w]; [destruct Pw; easy|].
      assert (G0 : tail_ends (fun y => in_set y atomends = true) (a' ++ tail)).
      { destruct O as [->|(a2 & ->)]; [exact C|right; exists 46, (a2 ++ tail); split; reflexivity]. }
      destruct (in_field field pre z (w ++ a' ++ tail) E) as [Bp G]. cbn [domain_loop]. rewrite Bp, G. cbn [bind].
      assert (Dz : z <> 46) by exact (Forall_inv Dw). destruct Pw as [_ Pw]. pose proof (Forall_inv Pw) as Pz. rewrite (NL z Pz).
      pose proof (plain_no z 40 Pz ltac:(cbn; tauto)). pose proof (plain_no z 91 Pz ltac:(cbn; tauto)).
      replace (z =? 40) with false by lia. replace (z =? 91) with false by lia. replace (z =? 46) with false by lia. rewrite (plain_atom z Pz Dz). unfold getatom.
      rewrite (atom_tail field cd atomends (z :: w) _ [] pre (a' ++ tail)); [|exact E| |exact G0|exact (fuel_ok field pre (z :: w) (a' ++ tail) E)].
      2:{ apply Forall_forall. intros v Hv. apply plain_atom; [rewrite Forall_forall in Pw; auto|rewrite Forall_forall in Dw; auto]. }
      cbn [bind app]. apply Forall_app in F as [_ F2]. rewrite app_length in Hn, Hf. cbn [length] in Hn, Hf.
      destruct (IH a' (sd ++ z :: w) cl (pre ++ z :: w) tail fuel) as (f2 & Hf2 & E2); auto; [lia|rewrite <- app_assoc; exact E|lia|].
      exists f2. split; [cbn [length]; rewrite app_length; lia|]. rewrite E2, <- !app_assoc. reflexivity.
Qed.
Lemma domain_suffix sd pre comment fuel : field = pre ++ suffix comment -> comment_text comment -> comment <> [] -> (2 < fuel)%nat -> (0 < cd)%nat ->
  domain_loop field cd fuel sd [] (zlen pre) = Ok (sd, [comment], L).
Proof.
  intros E C N Hf D. destruct comment as [|x co] eqn:Ec; [easy|]. rewrite <- Ec in *. assert (E1 : field = pre ++ 32 :: 40 :: comment ++ [41]) by (rewrite E, Ec; reflexivity).
  destruct cd as [|cd']; [lia|]. destruct fuel as [|[|[|f]]]; [lia|lia|lia|]. destruct (in_field field pre 32 _ E1) as [B G].
  assert (E2 : field = (pre ++ [32]) ++ 40 :: comment ++ 41 :: []) by (rewrite <- app_assoc; exact E1).
  destruct (in_field field (pre ++ [32]) 40 _ E2) as [B2 G2].
  cbn [domain_loop]. rewrite B, G. cbn [bind]. change (in_set 32 LWS) with true. cbn iota.
  replace (zlen pre + 1) with (zlen (pre ++ [32])) by (rewrite zlen_app; reflexivity). rewrite B2, G2. cbn [bind]. change (in_set 40 LWS) with false. cbn iota. cbn [Z.eqb Pos.eqb].
  rewrite (getcomment_run field O (fun x => x) comment cd' (pre ++ [32]) [] E2 C). cbn [bind]. rewrite <- E2. rewrite Z.ltb_irrefl. reflexivity.
Qed.
Lemma address_bare gd local domain comment : field = local ++ [64] ++ domain ++ suffix comment -> plain local -> plain domain -> comment_text comment -> comment <> [] -> (0 < cd)%nat ->
  getaddress quote field cd (S gd) 0 = Ok ([(comment, local ++ [64] ++ domain)], [comment], L).
Proof.
  intros E Pl Pd C N D. cbn [getaddress].
  destruct (plain_next field quote local ([64] ++ domain ++ suffix comment) Pl) as (y & r & Er & Y1 & Y2 & _). rewrite <- E in Er.
  pose proof (next_none field cd [] [] y r Er Y1 Y2) as Hn. change (zlen (@nil Z)) with 0 in Hn. rewrite Hn. cbn [bind]. unfold getphraselist.
  set (rest := domain ++ suffix comment) in *.
  assert (E0 : field = [] ++ local ++ 64 :: rest) by exact E. assert (E1 : field = local ++ 64 :: rest) by exact E.
  assert (Hf : exists f, loop_fuel field = S (S f)). { unfold loop_fuel. rewrite E1, app_length. cbn [length]. exists (length local + length rest)%nat. lia. }
  destruct Hf as (f & Hf). pose proof (phrase_step_word field cd (S f) [] [] [] local 64 rest E0 Pl eq_refl) as Hw. change (zlen (@nil Z)) with 0 in Hw. rewrite <- Hf in Hw. rewrite Hw. cbn [app].
  rewrite (phrase_stop field cd (S f) [local] [] local 64 rest E1); [|repeat split; discriminate|lia]. cbn [bind].
  rewrite (next_none field cd [] local 64 rest E1) by (reflexivity || discriminate). cbn [bind]. cbv zeta.
  destruct (in_field field local 64 rest E1) as [B G]. replace (L <=? zlen local) with false by lia. rewrite G. cbn [bind Z.eqb Pos.eqb orb].
  assert (Ha : getaddrspec quote field cd [] 0 = Ok (local ++ [64] ++ domain, [comment], L)).
  { unfold getaddrspec. rewrite Hn. cbn [bind].
    destruct (spec_run field cd quote (length local) local [] [] [] 64 rest (loop_fuel field)) as (al & Es1 & Es2); [lia|exact E0|apply Pl|apply at_end|exact I|exact (fuel_ok field [] local _ E0)|].
    change (zlen (@nil Z)) with 0 in Es1. rewrite Es1. cbn [bind]. cbv zeta. cbn [rev concat app] in Es2. rewrite Es2. cbn [app]. rewrite G. replace (L <=? zlen local) with false by lia. cbn [bind Z.eqb Pos.eqb negb].
    replace (zlen local + 1) with (zlen (local ++ [64])) by (rewrite zlen_app; reflexivity).
    destruct (plain_next field quote domain (suffix comment) Pd) as (y2 & r2 & Er2 & Z1 & Z2 & _).
    assert (E3 : field = (local ++ [64]) ++ domain ++ suffix comment) by (rewrite <- app_assoc; exact E).
    rewrite (next_none field cd [] (local ++ [64]) y2 r2) by (auto; rewrite <- Er2; exact E3). cbn [bind]. unfold getdomain.
    destruct (domain_go (length domain) domain [] [] (local ++ [64]) (suffix comment) (loop_fuel field)) as (f2 & Hf2 & Ed); [lia|exact E3|apply Pd| |exact (fuel_ok field _ domain _ E3)|].
    { right. destruct comment as [|x co]; [easy|]. exists 32, (40 :: (x :: co) ++ [41]). split; reflexivity. }
    rewrite Ed. cbn [app]. rewrite (domain_suffix domain ((local ++ [64]) ++ domain) comment f2); [reflexivity|rewrite <- app_assoc; exact E3|exact C|exact N| |exact D].
    unfold loop_fuel in Hf2. rewrite E3 in Hf2. rewrite !app_length in Hf2. destruct comment as [|x co]; [easy|]. cbn [suffix app length] in Hf2. lia. }
  rewrite Ha. cbn [bind]. rewrite (next_end field) by lia. cbn [bind]. rewrite Z.ltb_irrefl. reflexivity.
Qed.
End F.

(** removing a comment from a name *)
Lemma starts_some old l : starts_with old l = true <-> exists r, l = old ++ r.
Proof.
  unfold starts_with. destruct (strip_prefix old l) as [r|] eqn:P.
  - split; [|reflexivity]. intros _. exists r. now apply strip_prefix_some.
  - split; [discriminate|]. intros (r & ->). now rewrite strip_prefix_app in P.
Qed.
Lemma replace_none old new l : old <> [] -> ~ occurs old l -> replace old new l = l.
Proof.
  unfold replace. intros N. induction l as [|x l IH]; intros O; [reflexivity|]. cbn [replace_acc].
  destruct (starts_with old (x :: l)) eqn:S.
  - exfalso. apply O. apply starts_some in S as (r & Er). exists [], r. exact Er.
  - f_equal. apply IH. intros (a & b & E). apply O. exists (x :: a), b. cbn [app]. now rewrite E.
Qed.
Lemma replace_le old k l : (length (replace_acc old [] k l) <= length l)%nat.
Proof. revert k. induction l as [|x l IH]; intros k; [cbn; lia|]. cbn [replace_acc length]. destruct k as [|k]; [destruct (starts_with old (x :: l)); cbn [app length]|]; [specialize (IH (length old - 1)%nat)|specialize (IH O)|specialize (IH k)]; lia. Qed.
Lemma replace_lt old l : old <> [] -> occurs old l -> (length (replace old [] l) < length l)%nat.
Proof.
  unfold replace. intros N (a & b & E). revert l E. induction a as [|x a IH]; intros l E.
  - destruct old as [|o old]; [easy|]. cbn [app] in E. rewrite E. cbn [replace_acc].
    assert (starts_with (o :: old) (o :: old ++ b) = true) as -> by (apply starts_some; exists b; reflexivity).
    cbn [app length]. pose proof (replace_le (o :: old) (length (o :: old) - 1) (old ++ b)). cbn [length] in *. lia.
  - rewrite E. cbn [app replace_acc]. set (t := a ++ old ++ b) in *. destruct (starts_with old (x :: t)) eqn:S.
    + cbn [app length]. pose proof (replace_le old (length old - 1) t). lia.
    + cbn [length]. specialize (IH t eq_refl). lia.
Qed.
Lemma lstrip_len l : (length (lstrip l) <= length l)%nat.
Proof. induction l as [|x l IH]; cbn [lstrip]; [lia|]. destruct (is_space x); cbn [length] in *; lia. Qed.
Lemma strip_len l : (length (strip l) <= length l)%nat.
Proof. unfold strip. rewrite rev_length. etransitivity; [apply lstrip_len|]. rewrite rev_length. apply lstrip_len. Qed.
Lemma replace_whole old : old <> [] -> replace old [] old = [].
Proof.
  intros N. unfold replace. destruct old as [|x old]; [easy|]. cbn [replace_acc].
  assert (starts_with (x :: old) (x :: old) = true) as -> by (apply starts_some; exists []; now rewrite app_nil_r).
  cbn [app length]. replace (S (length old) - 1)%nat with (length old) by lia.
  assert (K : forall o l k, (length l <= k)%nat -> replace_acc o [] k l = []).
  { intros o l. induction l as [|y l IH]; intros k Hk; [reflexivity|]. destruct k; cbn [length] in Hk; [lia|]. cbn [replace_acc]. apply IH. lia. }
  apply K. lia.
Qed.
Lemma ascii_true t : ascii t -> is_ascii t = true.
Proof. intros A. unfold is_ascii. apply forallb_forall. intros x I. unfold ascii in A. rewrite Forall_forall in A. specialize (A x I). lia. Qed.
Lemma ascii_iff t : is_ascii t = true <-> ascii t.
Proof. unfold is_ascii, ascii. rewrite forallb_forall, Forall_forall. split; intros H x I; specialize (H x I); cbn beta in *; lia. Qed.
Lemma marks_set c : in_set c addr_specials = true <-> In c marks.
Proof. rewrite in_set_in. unfold addr_specials, marks. cbn [In]. intuition auto. Qed.
Lemma escape_none name : Forall (fun c => ~ In c marks) name -> escape name = name.
Proof.
  intros F. induction F as [|x l Hx F IH]; [reflexivity|]. change (escape (x :: l)) with ((if in_set x [92; 34] then [92; x] else [x]) ++ escape l). rewrite IH.
  replace (in_set x [92; 34]) with false; [reflexivity|]. symmetry. apply Bool.not_true_iff_false. rewrite in_set_in. intros I. apply Hx. cbn in I. unfold marks. cbn [In]. tauto.
Qed.
Lemma join_forall (P : Z -> Prop) words : P 32 -> Forall (Forall P) words -> Forall P (join [32] words).
Proof.
  intros S F. induction F as [|w ws Fw F IH]; [constructor|]. destruct ws as [|w2 ws]; [exact Fw|].
  change (join [32] (w :: w2 :: ws)) with (w ++ [32] ++ join [32] (w2 :: ws)). apply Forall_app. split; [exact Fw|]. apply Forall_app. split; [now constructor|exact IH].
Qed.
Lemma suffix_end comment r : match comment with [] => r | _ => r ++ [32; 40] ++ comment ++ [41] end = r ++ suffix comment.
Proof. destruct comment; [now rewrite app_nil_r|reflexivity]. Qed.
Lemma join_one comment : join [32] (list_of comment) = comment.
Proof. now destruct comment. Qed.
Lemma strip_join_nonempty words : words <> [] -> Forall plain words -> join [32] words <> [].
Proof. intros N F. destruct words as [|w ws]; [easy|]. destruct (Forall_inv F) as [Nw _]. destruct w; [easy|]. destruct ws; discriminate. Qed.

(** what is read from what _make_user_id wrote *)
Lemma made_reads he quote cd gd name address comment :
  writable_name name -> writable_address address -> comment_text comment -> (comment = [] \/ (0 < cd)%nat) ->
  exists uid, make_user_id he name address comment = Ok uid /\
    parse_user_id quote cd (S gd) uid = Ok (strip (match comment with [] => name | _ => match name with [] => [] | _ => replace comment [] name end end), address, comment).
Proof.
  intros Hn (local & domain & -> & Pl & Pd & Aa) C D. unfold make_user_id, formataddr. rewrite (ascii_true _ Aa). cbn [negb].
  assert (Fin : forall uid nm pos, name <> [] -> nm = name -> getaddress quote uid cd (S gd) 0 = Ok ([(nm, local ++ [64] ++ domain)], list_of comment, pos) ->
    parse_user_id quote cd (S gd) uid = Ok (strip (match comment with [] => name | _ => match name with [] => [] | _ => replace comment [] name end end), local ++ [64] ++ domain, comment)).
  { intros uid nm pos Nn -> Ea. unfold parse_user_id. rewrite Ea. cbn [bind]. rewrite get_cons_0. cbn [bind]. cbv zeta. rewrite join_one. destruct comment; [reflexivity|]. destruct name; [easy|reflexivity]. }
  destruct Hn as [|words N F Aw Mw|name An Mk Cr St].
  - cbn [bind]. eexists. split; [reflexivity|]. rewrite suffix_end. destruct comment as [|x co] eqn:Ec.
    + cbn [suffix]. rewrite app_nil_r. etransitivity; [apply (parse_bare quote cd gd local domain Pl Pd)|]. reflexivity.
    + rewrite <- Ec in *. assert (Nc : comment <> []) by congruence. destruct D as [D|D]; [congruence|]. unfold parse_user_id.
      rewrite (address_bare ((local ++ [64] ++ domain) ++ suffix comment) cd quote gd local domain comment); [|rewrite <- !app_assoc; reflexivity|assumption|assumption|assumption|assumption|assumption].
      cbn [bind]. rewrite get_cons_0. cbn [bind]. cbv zeta. cbn [join]. rewrite (replace_whole comment Nc). destruct comment; [easy|reflexivity].
  - pose proof (strip_join_nonempty words N F) as Nj. pose proof (join_forall (fun c => c < 128) words eq_refl Aw) as Aj.
    assert (Fs : Forall (fun c => ~ In c marks) (join [32] words)) by (apply join_forall; [intros I0; cbn in I0; lia|exact Mw]).
    destruct (join [32] words) as [|j0 js] eqn:Ej; [easy|]. rewrite <- Ej in *. rewrite (ascii_true _ Aj). cbn [negb].
    assert (existsb (fun c => in_set c addr_specials) (join [32] words) = false) as ->.
    { apply Bool.not_true_iff_false. rewrite existsb_exists. intros (x & I & Sx). apply marks_set in Sx. rewrite Forall_forall in Fs. exact (Fs x I Sx). }
    cbv zeta. cbn [app bind]. eexists. split; [reflexivity|]. rewrite suffix_end, (escape_none _ Fs).
    eapply (Fin _ (join [32] words)); [exact Nj|reflexivity|].
    apply (address_words _ cd quote gd words local domain comment); [|exact N|exact F|exact Pl|exact Pd|exact C|exact D].
    cbn [app]. repeat (rewrite <- app_assoc; cbn [app]). reflexivity.
  - assert (Nn : name <> []) by (intros ->; inversion Mk). destruct name as [|j0 js] eqn:Ej; [easy|]. rewrite <- Ej in *. rewrite (ascii_true _ An). cbn [negb].
    assert (existsb (fun c => in_set c addr_specials) name = true) as ->.
    { apply existsb_exists. apply Exists_exists in Mk as (x & I & Mx). exists x. split; [exact I|now apply marks_set]. }
    cbv zeta. cbn [app bind]. eexists. split; [reflexivity|]. rewrite suffix_end.
    eapply (Fin _ name); [exact Nn|reflexivity|].
    apply (address_quoted _ cd quote gd name local domain comment); [|exact Cr|exact Pl|exact Pd|exact C|exact D].
    cbn [app]. repeat (rewrite <- app_assoc; cbn [app]). reflexivity.
Qed.
Lemma name_stripped name : writable_name name -> strip name = name.
Proof. intros [|words N F _ _|nm _ _ _ S]; [reflexivity|now apply strip_join|exact S]. Qed.
