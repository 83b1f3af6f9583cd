(** Proofs: what conventional user ids are parsed to. *)
From Verif Require Import Base BaseProofs Text TextProofs UserId SpecUserId UserIdProofs.

Lemma get_mid (pre : text) c rest : get (pre ++ c :: rest) (zlen pre) = Ok c.
Proof.
  unfold get. pose proof (zlen_nonneg pre). replace (zlen pre <? 0) with false by lia. cbv zeta.
  rewrite zlen_app, zlen_cons. pose proof (zlen_nonneg rest). replace ((zlen pre <? 0) || (zlen pre + (1 + zlen rest) <=? zlen pre)) with false by lia.
  rewrite to_nat_zlen, nth_error_app2, Nat.sub_diag by lia. reflexivity.
Qed.
Lemma plain_not_end c : plain_char c -> in_set c phraseends = false.
Proof.
  intros [S N]. apply Bool.not_true_iff_false. rewrite in_set_in. intros I. apply N.
  unfold phraseends, atomends, specials, LWS, CRLF in I. cbn [filter app negb Z.eqb Pos.eqb In] in I. unfold is_space in S. cbn [In]. lia.
Qed.
Lemma plain_atom c : plain_char c -> c <> 46 -> in_set c atomends = false.
Proof. intros P N. destruct (atom_not_phrase c (plain_not_end c P)); [assumption|contradiction]. Qed.
Lemma plain_fws c : plain_char c -> in_set c FWS = false.
Proof.
  intros [S N]. apply Bool.not_true_iff_false. rewrite in_set_in. intros I. unfold FWS, LWS, CRLF in I. cbn [app In] in I. unfold is_space in S. lia.
Qed.
Lemma plain_blank w : plain w -> is_blank w = false.
Proof. intros [N F]. destruct w as [|c w]; [easy|]. inversion F as [|? ? [S _] _]; subst. unfold is_blank. cbn [forallb]. now rewrite S. Qed.
Lemma plain_no c d : plain_char c -> In d [40; 41; 60; 62; 64; 44; 58; 59; 34; 91; 93] -> c <> d.
Proof. intros [_ N] I ->. contradiction. Qed.

Section F.
Variable field : text.
Variable cd : nat.
Notation L := (zlen field).
Lemma in_field pre c rest : field = pre ++ c :: rest -> (zlen pre <? L) = true /\ get field (zlen pre) = Ok c.
Proof. intros ->. split; [|apply get_mid]. rewrite zlen_app, zlen_cons. pose proof (zlen_nonneg rest). lia. Qed.
Definition tail_ends (P : Z -> Prop) (tail : text) : Prop := tail = [] \/ exists c rest, tail = c :: rest /\ P c.
Lemma at_tail pre tail (P : Z -> Prop) : field = pre ++ tail -> tail_ends P tail -> (zlen pre <? L) = false \/ exists c, (zlen pre <? L) = true /\ get field (zlen pre) = Ok c /\ P c.
Proof.
  intros E [->|(c & rest & -> & H)]; [left|right]. { rewrite E, app_nil_r. lia. }
  exists c. destruct (in_field pre c rest E) as [A B]. auto.
Qed.
Lemma atom_tail ends : forall a fuel acc pre tail, field = pre ++ a ++ tail -> Forall (fun x => in_set x ends = false) a -> tail_ends (fun c => in_set c ends = true) tail ->
  (length a < fuel)%nat -> atom_loop field fuel ends acc (zlen pre) = Ok (acc ++ a, zlen (pre ++ a)).
Proof.
  induction a as [|x a IH]; intros fuel acc pre tail E F C Hf; (destruct fuel as [|fuel]; [cbn in Hf; lia|]); cbn [atom_loop].
  - rewrite !app_nil_r. destruct (at_tail pre tail _ E C) as [->|(c & -> & -> & H)]; [reflexivity|]. cbn [bind]. now rewrite H.
  - destruct (in_field pre x (a ++ tail) E) as [-> ->]. cbn [bind]. pose proof (Forall_inv F) as F1; pose proof (Forall_inv_tail F) as F2. rewrite F1.
    replace (zlen pre + 1) with (zlen (pre ++ [x])) by (rewrite zlen_app; reflexivity).
    rewrite (IH fuel (acc ++ [x]) (pre ++ [x]) tail); [now rewrite <- !app_assoc|now rewrite <- app_assoc|assumption|assumption|cbn in Hf; lia].
Qed.
Lemma atom_run ends : forall a fuel acc pre c rest, field = pre ++ a ++ c :: rest -> Forall (fun x => in_set x ends = false) a -> in_set c ends = true ->
  (length a < fuel)%nat -> atom_loop field fuel ends acc (zlen pre) = Ok (acc ++ a, zlen (pre ++ a)).
Proof.
  induction a as [|x a IH]; intros fuel acc pre c rest E F C Hf; (destruct fuel as [|fuel]; [cbn in Hf; lia|]); cbn [atom_loop].
  - destruct (in_field pre c rest E) as [-> ->]. cbn [bind]. rewrite C, !app_nil_r. reflexivity.
  - destruct (in_field pre x (a ++ c :: rest) E) as [-> ->]. cbn [bind]. pose proof (Forall_inv F) as F1; pose proof (Forall_inv_tail F) as F2. rewrite F1.
    replace (zlen pre + 1) with (zlen (pre ++ [x])) by (rewrite zlen_app; reflexivity).
    rewrite (IH fuel (acc ++ [x]) (pre ++ [x]) c rest); [now rewrite <- !app_assoc|now rewrite <- app_assoc|assumption|assumption|cbn in Hf; lia].
Qed.
Lemma fuel_ok pre a rest : field = pre ++ a ++ rest -> (length a < loop_fuel field)%nat.
Proof. intros ->. unfold loop_fuel. rewrite !app_length. lia. Qed.
Lemma next_none cl pre c rest : field = pre ++ c :: rest -> in_set c FWS = false -> c <> 40 -> gotonext field cd cl (zlen pre) = Ok ([], cl, zlen pre).
Proof.
  intros E F A. destruct (in_field pre c rest E) as [B G]. apply (next_stay (fun x => x) field cd cl (zlen pre) c); auto. pose proof (zlen_nonneg pre). lia.
Qed.
Lemma next_space cl pre c rest : field = pre ++ [32] ++ c :: rest -> in_set c FWS = false -> c <> 40 -> gotonext field cd cl (zlen pre) = Ok ([32], cl, zlen (pre ++ [32])).
Proof.
  intros E F A. destruct (in_field pre 32 (c :: rest) E) as [B G]. assert (E2 : field = (pre ++ [32]) ++ c :: rest) by (now rewrite <- app_assoc).
  destruct (in_field _ c rest E2) as [B2 G2]. unfold gotonext. pose proof (fuel_ok (pre) ([32] ++ c :: rest) [] ltac:(now rewrite app_nil_r)) as Hf.
  cbn [app length] in Hf. destruct (loop_fuel field) as [|[|f]]; [lia|lia|]. cbn [next_loop]. rewrite B, G. cbn [bind]. change (in_set 32 FWS) with true. change (in_set 32 CRLF) with false. cbn iota.
  replace (zlen pre + 1) with (zlen (pre ++ [32])) by (rewrite zlen_app; reflexivity). rewrite B2, G2. cbn [bind]. rewrite F. replace (c =? 40) with false by lia. reflexivity.
Qed.
Lemma next_end cl pos : L <= pos -> gotonext field cd cl pos = Ok ([], cl, pos).
Proof. intros H. unfold gotonext, loop_fuel. cbn [next_loop]. replace (pos <? L) with false by lia. reflexivity. Qed.

(** a phrase: the words, up to the character that ends it *)
Definition stop_char (c : Z) : Prop := in_set c phraseends = true /\ in_set c FWS = false /\ c <> 34 /\ c <> 40.
Lemma phrase_stop fuel pl cl pre c rest : field = pre ++ c :: rest -> stop_char c -> (0 < fuel)%nat -> phrase_loop field cd fuel pl cl (zlen pre) = Ok (pl, cl, zlen pre).
Proof.
  intros E (S1 & S2 & S3 & S4) F. destruct fuel as [|fuel]; [lia|]. destruct (in_field pre c rest E) as [B G]. cbn [phrase_loop]. rewrite B, G. cbn [bind]. rewrite S2.
  replace (c =? 34) with false by lia. replace (c =? 40) with false by lia. now rewrite S1.
Qed.
Lemma phrase_step_space fuel pl cl pre rest : field = pre ++ 32 :: rest -> phrase_loop field cd (S fuel) pl cl (zlen pre) = phrase_loop field cd fuel pl cl (zlen (pre ++ [32])).
Proof.
  intros E. destruct (in_field pre 32 rest E) as [B G]. cbn [phrase_loop]. rewrite B, G. cbn [bind]. change (in_set 32 FWS) with true. cbn iota.
  now replace (zlen pre + 1) with (zlen (pre ++ [32])) by (rewrite zlen_app; reflexivity).
Qed.
Lemma phrase_step_word fuel pl cl pre w c rest : field = pre ++ w ++ c :: rest -> plain w -> in_set c phraseends = true ->
  phrase_loop field cd (S fuel) pl cl (zlen pre) = phrase_loop field cd fuel (pl ++ [w]) cl (zlen (pre ++ w)).
Proof.
  intros E [N F] C. destruct w as [|x w]; [easy|]. destruct (in_field pre x (w ++ c :: rest) E) as [B G]. cbn [phrase_loop]. rewrite B, G. cbn [bind].
  pose proof (Forall_inv F) as F1; pose proof (Forall_inv_tail F) as F2. rewrite (plain_fws x F1). pose proof (plain_no x 34 F1 ltac:(cbn; tauto)). pose proof (plain_no x 40 F1 ltac:(cbn; tauto)).
  replace (x =? 34) with false by lia. replace (x =? 40) with false by lia. rewrite (plain_not_end x F1). unfold getatom.
  rewrite (atom_run phraseends (x :: w) _ [] pre c rest); [reflexivity|exact E| |exact C|exact (fuel_ok pre (x :: w) (c :: rest) E)].
  eapply Forall_impl; [|exact F]. apply plain_not_end.
Qed.
Lemma phrase_words : forall words pl cl pre rest fuel, field = pre ++ join [32] words ++ [32] ++ rest -> Forall plain words -> (2 * length words + 1 <= fuel)%nat ->
  exists f2, (fuel <= f2 + 2 * length words + 1)%nat /\ phrase_loop field cd fuel pl cl (zlen pre) = phrase_loop field cd f2 (pl ++ words) cl (zlen (pre ++ join [32] words ++ [32])).
Proof.
  induction words as [|w ws IH]; intros pl cl pre rest fuel E F Hf.
  - cbn [join app length] in *. destruct fuel as [|fuel]; [lia|]. exists fuel. split; [lia|]. rewrite app_nil_r. now apply phrase_step_space with (rest := rest).
  - pose proof (Forall_inv F) as F1; pose proof (Forall_inv_tail F) as F2. destruct fuel as [|[|fuel]]; [cbn in Hf; lia|cbn in Hf; lia|]. destruct ws as [|w2 ws].
    + cbn [join] in *. rewrite (phrase_step_word _ pl cl pre w 32 rest) by (assumption || reflexivity). exists fuel. split; [cbn [length]; lia|].
      rewrite (phrase_step_space fuel (pl ++ [w]) cl (pre ++ w) rest) by (rewrite <- app_assoc; exact E). now rewrite <- app_assoc.
    + assert (Ej : join [32] (w :: w2 :: ws) = w ++ [32] ++ join [32] (w2 :: ws)) by reflexivity. rewrite Ej in *. rewrite <- !app_assoc in E.
      rewrite (phrase_step_word _ pl cl pre w 32 (join [32] (w2 :: ws) ++ [32] ++ rest)) by (assumption || reflexivity).
      rewrite (phrase_step_space fuel (pl ++ [w]) cl (pre ++ w) (join [32] (w2 :: ws) ++ [32] ++ rest)) by (rewrite <- app_assoc; exact E).
      destruct (IH (pl ++ [w]) cl ((pre ++ w) ++ [32]) rest fuel) as (f2 & Hf2 & E2); [rewrite <- !app_assoc; exact E|exact F2|cbn [length] in *; lia|].
      exists f2. split; [cbn [length] in *; lia|]. rewrite E2. rewrite <- !app_assoc. reflexivity.
Qed.
(** dotted names in addresses: both loops read them whole *)
Definition part_end (c : Z) : Prop := in_set c atomends = true /\ in_set c FWS = false /\ c <> 40 /\ c <> 46 /\ c <> 34 /\ c <> 91.
(** split a non-empty dotted text at its start: one atom, or one dot *)
Lemma dotted_head a : Forall plain_char a -> a <> [] -> (exists a', a = 46 :: a') \/ exists w a', a = w ++ a' /\ plain w /\ Forall (fun x => x <> 46) w /\ (a' = [] \/ exists a2, a' = 46 :: a2).
Proof.
  intros F N. destruct a as [|x a]; [easy|]. destruct (Z.eq_dec x 46) as [->|Hx]; [left; eauto|]. right. clear N. revert x F Hx. induction a as [|y a IH]; intros x F Hx.
  - exists [x], []. repeat split; auto. discriminate.
  - destruct (Z.eq_dec y 46) as [->|Hy].
    + exists [x], (46 :: a). split; [reflexivity|]. split; [split; [discriminate|inversion F; constructor; auto]|]. split; [auto|]. right. eauto.
    + inversion F as [|? ? F1 F2]; subst. destruct (IH y F2 Hy) as (w & a' & E & [_ P] & D & O). exists (x :: w), a'. rewrite E. split; [reflexivity|]. split; [split; [discriminate|constructor; assumption]|]. split; [constructor; assumption|exact O].
Qed.
Variable quote : text -> text.
Lemma spec_run : forall n a al cl pre c rest fuel, (length a <= n)%nat -> field = pre ++ a ++ c :: rest -> Forall plain_char a -> part_end c ->
  (match al with [] => True | t :: _ => is_blank t = false end) -> (length a < fuel)%nat ->
  exists al', spec_loop quote field cd fuel al cl (zlen pre) = Ok (al', cl, zlen (pre ++ a)) /\ concat (rev al') = concat (rev al) ++ a.
Proof.
  induction n as [|n IH]; intros a al cl pre c rest fuel Hn E F C B Hf.
  - destruct a; [|cbn in Hn; lia]. cbn [app] in E. destruct fuel as [|fuel]; [lia|]. destruct (in_field pre c rest E) as [Bp G]. cbn [spec_loop]. rewrite Bp, G. cbn [bind].
    destruct C as (C1 & C2 & C3 & C4 & C5 & C6). replace (c =? 46) with false by lia. replace (c =? 34) with false by lia. rewrite C1, !app_nil_r.
    exists al. split; [|reflexivity]. unfold pop_blank. destruct al as [|t al]; [reflexivity|]. now rewrite B.
  - assert (Hd : a = [] \/ a <> []) by (destruct a; [now left|right; discriminate]). destruct Hd as [->|Na].
    { apply (IH [] al cl pre c rest fuel); auto. cbn. lia. }
    destruct fuel as [|fuel]; [lia|]. destruct (dotted_head a F) as [(a' & Ha)|(w & a' & Ha & Pw & Dw & O)]; [exact Na| |].
    + rewrite Ha in *. destruct (in_field pre 46 (a' ++ c :: rest) E) as [Bp G]. cbn [spec_loop]. rewrite Bp, G. cbn [bind Z.eqb Pos.eqb].
      assert (Fn : exists y r, a' ++ c :: rest = y :: r /\ in_set y FWS = false /\ y <> 40).
      { pose proof (Forall_inv_tail F) as F2. destruct a' as [|y a'']; cbn [app]; [exists c, rest; split; [reflexivity|]; destruct C as (_ & C2 & C3 & _); auto|].
        pose proof (Forall_inv F2) as Fy. eexists; eexists. split; [reflexivity|]. split; [now apply plain_fws|]. apply plain_no; [assumption|cbn; tauto]. }
      destruct Fn as (y & r & Er & Y1 & Y2). replace (zlen pre + 1) with (zlen (pre ++ [46])) by (rewrite zlen_app; reflexivity).
      rewrite (next_none cl (pre ++ [46]) y r) by (auto; rewrite <- app_assoc, <- Er; exact E). cbn [bind].
      pose proof (Forall_inv_tail F) as F2. destruct (IH a' ([46] :: pop_blank al) cl (pre ++ [46]) c rest fuel) as (al' & E1 & E2); auto.
      * cbn [length] in Hn. lia.
      * rewrite <- app_assoc. exact E.
      * cbn [length] in Hf. lia.
      * exists al'. split; [rewrite E1; now rewrite <- app_assoc|]. rewrite E2. cbn [rev]. rewrite concat_app. cbn [concat app]. rewrite <- app_assoc.
        unfold pop_blank. destruct al as [|t al]; [reflexivity|]. rewrite B. reflexivity.
    + rewrite Ha in *. rewrite <- app_assoc in E. destruct w as [|z w]; [destruct Pw; easy|].
      assert (G0 : exists y r, a' ++ c :: rest = y :: r /\ in_set y atomends = true /\ in_set y FWS = false /\ y <> 40).
      { destruct C as (C1 & C2 & C3 & _). destruct O as [->|(a2 & ->)]; [exists c, rest; auto|]. exists 46, (a2 ++ c :: rest). repeat split; discriminate. }
      destruct G0 as (y & r & Er & Y1 & Y2 & Y3). rewrite Er in E. destruct (in_field pre z (w ++ y :: r) E) as [Bp G]. cbn [spec_loop]. rewrite Bp, G. cbn [bind].
      assert (Dz : z <> 46) by exact (Forall_inv Dw). destruct Pw as [_ Pw]. pose proof (Forall_inv Pw) as Pz. pose proof (plain_no z 34 Pz ltac:(cbn [In]; tauto)).
      replace (z =? 46) with false by lia. replace (z =? 34) with false by lia. rewrite (plain_atom z Pz Dz). unfold getatom.
      rewrite (atom_run atomends (z :: w) _ [] pre y r); [|exact E| |exact Y1|exact (fuel_ok pre (z :: w) (y :: r) E)].
      2:{ apply Forall_forall. intros v Hv. apply plain_atom; [rewrite Forall_forall in Pw; auto|rewrite Forall_forall in Dw; auto]. }
      cbn [bind app]. rewrite (next_none cl (pre ++ z :: w) y r) by (auto; rewrite <- app_assoc; exact E). cbn [bind].
      apply Forall_app in F as [_ F2]. destruct (IH a' ((z :: w) :: al) cl (pre ++ z :: w) c rest fuel) as (al' & E1 & E2); auto.
      * rewrite app_length in Hn. cbn [length] in Hn. lia.
      * rewrite <- app_assoc, Er. exact E.
      * apply plain_blank. split; [discriminate|exact Pw].
      * rewrite app_length in Hf. cbn [length] in Hf. lia.
      * exists al'. split; [cbn [app]; rewrite E1; now rewrite <- app_assoc|]. rewrite E2. cbn [rev]. rewrite concat_app. cbn [concat]. rewrite app_nil_r, <- app_assoc. reflexivity.
Qed.
Lemma domain_run : forall n a sd cl pre tail fuel, (length a <= n)%nat -> field = pre ++ a ++ tail -> Forall plain_char a -> tail_ends part_end tail -> (length a < fuel)%nat ->
  domain_loop field cd fuel sd cl (zlen pre) = Ok (sd ++ a, cl, zlen (pre ++ a)).
Proof.
  induction n as [|n IH]; intros a sd cl pre tail fuel Hn E F C Hf.
  - destruct a; [|cbn in Hn; lia]. cbn [app] in E. destruct fuel as [|fuel]; [lia|]. cbn [domain_loop]. rewrite !app_nil_r.
    destruct (at_tail pre tail _ E C) as [->|(c & -> & -> & CC)]; [reflexivity|]. cbn [bind]. destruct CC as (C1 & C2 & C3 & C4 & C5 & C6). assert (in_set c LWS = false) as ->.
    { apply Bool.not_true_iff_false. rewrite in_set_in. intros I. apply Bool.not_true_iff_false in C2. apply C2. apply in_set_in. unfold FWS. apply in_or_app. now left. }
    replace (c =? 40) with false by lia. replace (c =? 91) with false by lia. replace (c =? 46) with false by lia. rewrite C1. reflexivity.
  - assert (Hd : a = [] \/ a <> []) by (destruct a; [now left|right; discriminate]). destruct Hd as [->|Na].
    { apply (IH [] sd cl pre tail fuel); auto. cbn. lia. }
    destruct fuel as [|fuel]; [lia|].
    assert (NL : forall v, plain_char v -> in_set v LWS = false).
    { intros v Pv. apply Bool.not_true_iff_false. rewrite in_set_in. intros I. pose proof (plain_fws v Pv) as W. apply Bool.not_true_iff_false in W. apply W. apply in_set_in. unfold FWS. apply in_or_app. now left. }
    destruct (dotted_head a F) as [(a' & Ha)|(w & a' & Ha & Pw & Dw & O)]; [exact Na| |].
    + rewrite Ha in *. destruct (in_field pre 46 (a' ++ tail) E) as [Bp G]. cbn [domain_loop]. rewrite Bp, G. cbn [bind]. change (in_set 46 LWS) with false. cbn [Z.eqb Pos.eqb]. cbn iota.
      replace (zlen pre + 1) with (zlen (pre ++ [46])) by (rewrite zlen_app; reflexivity). pose proof (Forall_inv_tail F) as F2.
      rewrite (IH a' (sd ++ [46]) cl (pre ++ [46]) tail fuel); auto; [now rewrite <- !app_assoc|cbn [length] in Hn; lia|rewrite <- app_assoc; exact E|cbn [length] in Hf; lia].
    + rewrite Ha in *. rewrite <- app_assoc in E. destruct w as [|z w]; [destruct Pw; easy|].
      assert (G0 : tail_ends (fun y => in_set y atomends = true) (a' ++ tail)).
      { destruct O as [->|(a2 & ->)]; [|right; exists 46, (a2 ++ tail); split; reflexivity]. destruct C as [->|(c & rest & -> & C)]; [left; reflexivity|right; exists c, rest; split; [reflexivity|apply C]]. }
      destruct (in_field pre z (w ++ a' ++ tail) E) as [Bp G]. cbn [domain_loop]. rewrite Bp, G. cbn [bind].
      assert (Dz : z <> 46) by exact (Forall_inv Dw). destruct Pw as [_ Pw]. pose proof (Forall_inv Pw) as Pz. rewrite (NL z Pz).
      pose proof (plain_no z 40 Pz ltac:(cbn; tauto)). pose proof (plain_no z 91 Pz ltac:(cbn; tauto)).
      replace (z =? 40) with false by lia. replace (z =? 91) with false by lia. replace (z =? 46) with false by lia. rewrite (plain_atom z Pz Dz). unfold getatom.
      rewrite (atom_tail atomends (z :: w) _ [] pre (a' ++ tail)); [|exact E| |exact G0|exact (fuel_ok pre (z :: w) (a' ++ tail) E)].
      2:{ apply Forall_forall. intros v Hv. apply plain_atom; [rewrite Forall_forall in Pw; auto|rewrite Forall_forall in Dw; auto]. }
      cbn [bind app]. apply Forall_app in F as [_ F2].
      rewrite (IH a' (sd ++ z :: w) cl (pre ++ z :: w) tail fuel); auto; [now rewrite <- !app_assoc|rewrite app_length in Hn; cbn [length] in Hn; lia|rewrite <- app_assoc; exact E|rewrite app_length in Hf; cbn [length] in Hf; lia].
Qed.
Lemma gt_end : part_end 62.  Proof. repeat split; discriminate. Qed.
Lemma at_end : part_end 64.  Proof. repeat split; discriminate. Qed.
(** the first character of a plain text stops white space *)
Lemma plain_next w rest : plain w -> exists y r, w ++ rest = y :: r /\ in_set y FWS = false /\ y <> 40 /\ plain_char y.
Proof.
  intros [N F]. destruct w as [|y w]; [easy|]. inversion F as [|? ? P _]; subst. exists y, (w ++ rest). split; [reflexivity|]. split; [now apply plain_fws|]. split; [|exact P].
  apply plain_no; [assumption|cbn; tauto].
Qed.
(** local@domain before a character that ends an address *)
Lemma addrspec_run cl pre local domain tail : field = pre ++ local ++ [64] ++ domain ++ tail -> plain local -> plain domain -> tail_ends part_end tail ->
  getaddrspec quote field cd cl (zlen pre) = Ok (local ++ [64] ++ domain, cl, zlen (pre ++ local ++ [64] ++ domain)).
Proof.
  intros E Pl Pd C. unfold getaddrspec.
  destruct (plain_next local ([64] ++ domain ++ tail) Pl) as (y & r & Er & Y1 & Y2 & _).
  rewrite (next_none cl pre y r) by (auto; rewrite <- Er; exact E). cbn [bind].
  destruct (spec_run (length local) local [] cl pre 64 (domain ++ tail) (loop_fuel field)) as (al & E1 & E2); [lia|exact E|apply Pl|apply at_end|exact I|exact (fuel_ok pre local _ E)|].
  rewrite E1. cbn [bind]. cbv zeta. cbn [rev concat app] in E2. rewrite E2.
  assert (E3 : field = (pre ++ local) ++ 64 :: domain ++ tail) by (rewrite <- app_assoc; exact E).
  destruct (in_field (pre ++ local) 64 _ E3) as [B G]. replace (L <=? zlen (pre ++ local)) with false by lia. rewrite G. cbn [bind Z.eqb Pos.eqb negb].
  replace (zlen (pre ++ local) + 1) with (zlen ((pre ++ local) ++ [64])) by (rewrite zlen_app; reflexivity).
  destruct (plain_next domain tail Pd) as (y2 & r2 & Er2 & Z1 & Z2 & _).
  rewrite (next_none cl ((pre ++ local) ++ [64]) y2 r2) by (auto; rewrite <- Er2, <- app_assoc; exact E3). cbn [bind]. unfold getdomain.
  rewrite (domain_run (length domain) domain [] cl ((pre ++ local) ++ [64]) tail (loop_fuel field)); [|lia|rewrite <- app_assoc; exact E3|apply Pd|exact C|].
  - cbn [bind app]. rewrite <- !app_assoc. reflexivity.
  - apply (fuel_ok ((pre ++ local) ++ [64]) domain tail). rewrite <- app_assoc. exact E3.
Qed.
Lemma routeaddr_run cl pre local domain rest : field = pre ++ [60] ++ local ++ [64] ++ domain ++ [62] ++ rest -> plain local -> plain domain ->
  getrouteaddr quote field cd cl (zlen pre) = Ok (local ++ [64] ++ domain, cl, zlen (pre ++ [60] ++ local ++ [64] ++ domain ++ [62])).
Proof.
  intros E Pl Pd. unfold getrouteaddr. replace (zlen pre + 1) with (zlen (pre ++ [60])) by (rewrite zlen_app; reflexivity).
  assert (E1 : field = (pre ++ [60]) ++ local ++ [64] ++ domain ++ 62 :: rest) by (rewrite <- app_assoc; exact E).
  destruct (plain_next local ([64] ++ domain ++ 62 :: rest) Pl) as (y & r & Er & Y1 & Y2 & Py).
  assert (E2 : field = (pre ++ [60]) ++ y :: r) by (rewrite <- Er; exact E1).
  rewrite (next_none cl (pre ++ [60]) y r) by assumption. cbn [bind]. unfold loop_fuel. cbn [Nat.mul Nat.add]. cbn [route_loop].
  destruct (in_field (pre ++ [60]) y r E2) as [B G]. rewrite B, G. cbn [bind].
  pose proof (plain_no y 62 Py ltac:(cbn; tauto)). pose proof (plain_no y 64 Py ltac:(cbn; tauto)). pose proof (plain_no y 58 Py ltac:(cbn; tauto)).
  replace (y =? 62) with false by lia. replace (y =? 64) with false by lia. replace (y =? 58) with false by lia.
  rewrite (addrspec_run cl (pre ++ [60]) local domain (62 :: rest) E1 Pl Pd ltac:(right; exists 62, rest; split; [reflexivity|apply gt_end])). cbn [bind]. f_equal. f_equal.
  rewrite !zlen_app. change (zlen [60]) with 1. change (zlen [62]) with 1. change (zlen [64]) with 1. lia.
Qed.
Lemma comment_run : forall comment fuel acc pre rest nested, field = pre ++ comment ++ 41 :: rest -> comment_text comment -> (length comment < fuel)%nat ->
  delim_loop field nested [41; 13] true fuel acc false (zlen pre) = Ok (acc ++ comment, zlen (pre ++ comment ++ [41])).
Proof.
  induction comment as [|x co IH]; intros fuel acc pre rest nested E F Hf; (destruct fuel as [|fuel]; [cbn in Hf; lia|]); cbn [delim_loop].
  - destruct (in_field pre 41 rest E) as [-> ->]. cbn [bind]. change (in_set 41 [41; 13]) with true. cbn iota. rewrite app_nil_r. rewrite zlen_app. reflexivity.
  - destruct (in_field pre x (co ++ 41 :: rest) E) as [-> ->]. cbn [bind]. pose proof (Forall_inv F) as F1; pose proof (Forall_inv_tail F) as F2.
    assert (in_set x [41; 13] = false) as -> by (apply Bool.not_true_iff_false; rewrite in_set_in; cbn [In] in *; tauto).
    replace (x =? 40) with false by (cbn [In] in F1; lia). replace (x =? 92) with false by (cbn [In] in F1; lia). cbn [andb].
    replace (zlen pre + 1) with (zlen (pre ++ [x])) by (rewrite zlen_app; reflexivity).
    rewrite (IH fuel (acc ++ [x]) (pre ++ [x]) rest nested); [now rewrite <- !app_assoc|now rewrite <- app_assoc|assumption|cbn in Hf; lia].
Qed.
Lemma getcomment_run comment cd' pre rest : field = pre ++ 40 :: comment ++ 41 :: rest -> comment_text comment ->
  getcomment field (S cd') (zlen pre) = Ok (comment, zlen (pre ++ 40 :: comment ++ [41])).
Proof.
  intros E F. cbn [getcomment]. unfold getdelimited. destruct (in_field pre 40 (comment ++ 41 :: rest) E) as [_ ->]. cbn [bind Z.eqb Pos.eqb negb].
  assert (E1 : field = (pre ++ [40]) ++ comment ++ 41 :: rest) by (rewrite <- app_assoc; exact E).
  replace (zlen pre + 1) with (zlen (pre ++ [40])) by (rewrite zlen_app; reflexivity).
  rewrite (comment_run comment _ [] (pre ++ [40]) rest _ E1 F); [now rewrite <- app_assoc|]. exact (fuel_ok (pre ++ [40]) comment _ E1).
Qed.
Lemma words_fuel (words : list text) rest : Forall plain words -> field = join [32] words ++ [32] ++ rest -> (2 * length words + 1 + length rest <= loop_fuel field)%nat.
Proof.
  intros F ->. unfold loop_fuel. rewrite !app_length. cbn [length]. assert (H : (2 * length words <= length (join [32%Z] words) + 1)%nat); [|lia].
  induction F as [|w ws [N _] F IH]; [cbn; lia|]. destruct ws as [|w2 ws].
  - cbn [join length]. destruct w; [easy|cbn [length]; lia].
  - change (join [32] (w :: w2 :: ws)) with (w ++ [32] ++ join [32] (w2 :: ws)). rewrite !app_length. cbn [length] in *. destruct w; [easy|cbn [length]; lia].
Qed.
(** the address that ends the field *)
Lemma address_name gd (words : list text) (cm : text) (cl : list text) local domain : field = join [32] words ++ [32] ++ cm ++ [60] ++ local ++ [64] ++ domain ++ [62] ->
  words <> [] -> Forall plain words -> plain local -> plain domain ->
  (forall pl fuel, (length cm < fuel)%nat -> exists f2, (0 < f2)%nat /\
     phrase_loop field cd fuel pl [] (zlen (join [32] words ++ [32])) = phrase_loop field cd f2 pl cl (zlen (join [32] words ++ [32] ++ cm))) ->
  exists pos, getaddress quote field cd (S gd) 0 = Ok ([(join [32] words ++ match cl with [] => [] | _ => [32; 40] ++ join [32] cl ++ [41] end, local ++ [64] ++ domain)], cl, pos).
Proof.
  intros E N F Pl Pd Hc. cbn [getaddress]. destruct words as [|w words]; [easy|].
  assert (Hs : exists y r, field = y :: r /\ in_set y FWS = false /\ y <> 40).
  { pose proof (Forall_inv F) as Pw. assert (exists t, join [32] (w :: words) = w ++ t) as (t & Et) by (destruct words; [exists []; now rewrite app_nil_r|exists ([32] ++ join [32] (l :: words)); reflexivity]).
    rewrite Et, <- app_assoc in E. destruct (plain_next w (t ++ [32] ++ cm ++ [60] ++ local ++ [64] ++ domain ++ [62]) Pw) as (y & r & Er & Y1 & Y2 & _). exists y, r. rewrite E. auto. }
  destruct Hs as (y & r & Ey & Y1 & Y2). pose proof (next_none [] [] y r Ey Y1 Y2) as Hn. change (zlen (@nil Z)) with 0 in Hn. rewrite Hn. cbn [bind].
  pose proof (words_fuel (w :: words) _ F E) as Hf. unfold getphraselist.
  destruct (phrase_words (w :: words) [] [] [] _ (loop_fuel field) E F ltac:(lia)) as (f2 & Hf2 & Ep). change (zlen (@nil Z)) with 0 in Ep. rewrite Ep. clear Ep. cbn [app].
  destruct (Hc (w :: words) f2) as (f3 & Hf3 & Ec). { rewrite app_length in Hf. rewrite app_length in Hf. cbn [length] in *. lia. }
  rewrite Ec. clear Ec Hc.
  set (pre := join [32] (w :: words) ++ [32] ++ cm) in *.
  assert (E2 : field = pre ++ 60 :: local ++ [64] ++ domain ++ [62]). { unfold pre. rewrite <- !app_assoc. exact E. }
  rewrite (phrase_stop f3 (w :: words) cl pre 60 _ E2); [|repeat split; discriminate|exact Hf3]. cbn [bind].
  rewrite (next_none cl pre 60 _ E2) by (reflexivity || discriminate). cbn [bind]. cbv zeta.
  destruct (in_field pre 60 _ E2) as [B G]. replace (L <=? zlen pre) with false by lia. rewrite G. cbn [bind Z.eqb Pos.eqb orb].
  assert (E3 : field = pre ++ [60] ++ local ++ [64] ++ domain ++ [62] ++ []). { rewrite app_nil_r. exact E2. }
  rewrite (routeaddr_run cl pre local domain [] E3 Pl Pd). cbn [bind].
  assert (EL : zlen (pre ++ [60] ++ local ++ [64] ++ domain ++ [62]) = L). { rewrite E2. reflexivity. }
  rewrite EL, next_end by lia. cbn [bind]. replace (L <? L) with false by lia. cbn [bind]. eexists. reflexivity.
Qed.
Lemma no_comment_run : forall pl fuel w, (length (@nil Z) < fuel)%nat -> exists f2, (0 < f2)%nat /\ phrase_loop field cd fuel pl [] (zlen (w ++ [32])) = phrase_loop field cd f2 pl [] (zlen (w ++ [32] ++ [])).
Proof. intros pl fuel w H. exists fuel. split; [exact H|]. reflexivity. Qed.
End F.
Lemma comment_phrase field cd' comment w rest : field = w ++ [32] ++ (40 :: comment ++ [41; 32]) ++ 60 :: rest -> comment_text comment ->
  forall pl fuel, (length (40%Z :: comment ++ [41%Z; 32%Z]) < fuel)%nat -> exists f2, (0 < f2)%nat /\
     phrase_loop field (S cd') fuel pl [] (zlen (w ++ [32])) = phrase_loop field (S cd') f2 pl [comment] (zlen (w ++ [32] ++ 40 :: comment ++ [41; 32])).
Proof.
  intros E F pl fuel Hf. destruct fuel as [|[|[|fuel]]]; cbn [length] in Hf; [lia|rewrite app_length in Hf; cbn [length] in Hf; lia|rewrite app_length in Hf; cbn [length] in Hf; lia|].
  exists (S fuel). split; [lia|].
  assert (E1 : field = (w ++ [32]) ++ 40 :: comment ++ 41 :: 32 :: 60 :: rest). { rewrite E, <- !app_assoc. cbn [app]. rewrite <- app_assoc. reflexivity. }
  cbn [phrase_loop]. destruct (in_field field (w ++ [32]) 40 _ E1) as [B G]. rewrite B, G. cbn [bind]. change (in_set 40 FWS) with false. cbn [Z.eqb Pos.eqb]. cbn iota.
  rewrite (getcomment_run field O (fun x => x) comment cd' (w ++ [32]) (32 :: 60 :: rest) E1 F). cbn [bind].
  set (pre := (w ++ [32]) ++ 40 :: comment ++ [41]). assert (E2 : field = pre ++ 32 :: 60 :: rest). { unfold pre. rewrite E1, <- !app_assoc. cbn [app]. rewrite <- app_assoc. reflexivity. }
  destruct (in_field field pre 32 _ E2) as [B2 G2]. rewrite B2, G2. cbn [bind]. change (in_set 32 FWS) with true. cbn iota.
  replace (zlen (w ++ [32] ++ 40 :: comment ++ [41; 32])) with (zlen pre + 1); [reflexivity|].
  unfold pre. rewrite !zlen_app, !zlen_cons, !zlen_app. change (zlen [41; 32]) with 2. change (zlen [41]) with 1. lia.
Qed.

(** stripping and replacing *)
Lemma strip_ends l : (match l with [] => True | c :: _ => is_space c = false end) -> (match rev l with [] => True | c :: _ => is_space c = false end) -> strip l = l.
Proof.
  intros A B. unfold strip. assert (lstrip l = l) as -> by (destruct l; cbn [lstrip]; [reflexivity|now rewrite A]).
  assert (lstrip (rev l) = rev l) as -> by (destruct (rev l); cbn [lstrip]; [reflexivity|now rewrite B]). apply rev_involutive.
Qed.
Lemma join_first words : Forall plain words -> match join [32] words with [] => True | c :: _ => is_space c = false end.
Proof.
  intros F. destruct words as [|w ws]; [exact I|]. pose proof (Forall_inv F) as [N Fw]. destruct w as [|x w]; [easy|]. pose proof (Forall_inv Fw) as [S _].
  destruct ws; cbn [join app]; exact S.
Qed.
Lemma join_last words : Forall plain words -> match rev (join [32] words) with [] => True | c :: _ => is_space c = false end.
Proof.
  intros F. induction F as [|w ws [N Fw] F IH]; [exact I|].
  assert (Hw : exists x r, rev w = x :: r /\ is_space x = false).
  { destruct (rev w) as [|x r] eqn:R; [apply (f_equal (@rev Z)) in R; rewrite rev_involutive in R; contradiction|]. exists x, r. split; [reflexivity|].
    rewrite Forall_forall in Fw. apply Fw. apply in_rev. rewrite R. now left. }
  destruct Hw as (x & r & R & S). destruct ws as [|w2 ws]; [cbn [join]; now rewrite R|].
  change (join [32] (w :: w2 :: ws)) with (w ++ [32] ++ join [32] (w2 :: ws)). rewrite !rev_app_distr.
  pose proof (Forall_inv F) as [N2 _]. destruct (rev (join [32] (w2 :: ws))) as [|z zs] eqn:R2; [|exact IH].
  apply (f_equal (@rev Z)) in R2. rewrite rev_involutive in R2. cbn in R2. destruct ws; cbn [join] in R2; destruct w2; easy.
Qed.
Lemma strip_join words : Forall plain words -> strip (join [32] words) = join [32] words.
Proof. intros F. apply strip_ends; [now apply join_first|now apply join_last]. Qed.
Lemma starts_stop (c : Z) (b : text) : forall old a, ~ In c old -> starts_with old (a ++ c :: b) = starts_with old a.
Proof.
  unfold starts_with. induction old as [|x old IH]; intros a N; [reflexivity|]. destruct a as [|y a]; cbn [app strip_prefix].
  - replace (x =? c) with false; [reflexivity|]. symmetry. apply Z.eqb_neq. intros ->. apply N. now left.
  - destruct (x =? y); [|reflexivity]. apply IH. intros I. apply N. now right.
Qed.
Lemma replace_stop (c : Z) old new b : old <> [] -> ~ In c old -> forall a k, (k <= length a)%nat -> replace_acc old new k (a ++ c :: b) = replace_acc old new k a ++ c :: replace_acc old new 0 b.
Proof.
  intros N H. induction a as [|x a IH]; intros k Hk.
  - destruct k; [|cbn in Hk; lia]. cbn [app]. cbn [replace_acc]. rewrite (starts_stop c b old [] H) || idtac.
    replace (starts_with old (c :: b)) with false; [reflexivity|]. symmetry. pose proof (starts_stop c b old [] H) as E. cbn [app] in E. rewrite E. unfold starts_with. destruct old; [easy|reflexivity].
  - cbn [app replace_acc]. destruct k as [|k]; [|apply IH; cbn [length] in Hk; lia].
    change (x :: a ++ c :: b) with ((x :: a) ++ c :: b). rewrite (starts_stop c b old (x :: a) H).
    destruct (starts_with old (x :: a)) eqn:S; [|rewrite IH by lia; reflexivity].
    rewrite IH; [now rewrite <- app_assoc|]. unfold starts_with in S. destruct (strip_prefix old (x :: a)) eqn:P; [|discriminate]. apply strip_prefix_some in P.
    apply (f_equal (@length Z)) in P. rewrite app_length in P. cbn [length] in P. lia.
Qed.
Lemma replace_self old new b c : old <> [] -> ~ In c old -> replace_acc old new 0 (old ++ c :: b) = new ++ c :: replace_acc old new 0 b.
Proof.
  intros N H. rewrite (replace_stop c old new b N H) by lia. f_equal. destruct old as [|x old]; [easy|]. cbn [replace_acc].
  unfold starts_with. pose proof (strip_prefix_app (x :: old) []) as P. rewrite app_nil_r in P. rewrite P.
  assert (K : forall o k l, (length l <= k)%nat -> replace_acc o new k l = []). { intros o k. revert k. intros k l. revert k. induction l as [|y l IH]; intros k Hk; [reflexivity|]. destruct k; cbn [length] in Hk; [lia|]. cbn [replace_acc]. apply IH. lia. }
  rewrite K, app_nil_r; [reflexivity|]. cbn [length]. lia.
Qed.
Lemma lstrip_tail a c b : is_space c = false -> lstrip (a ++ c :: b) = lstrip a ++ c :: b.
Proof. intros S. induction a as [|x a IH]; cbn [app lstrip]; [now rewrite S|]. destruct (is_space x); [exact IH|reflexivity]. Qed.
Lemma strip_parens a : strip (a ++ [40; 41]) = lstrip a ++ [40; 41].
Proof.
  unfold strip. rewrite (lstrip_tail a 40 [41]) by reflexivity. rewrite rev_app_distr. cbn [rev app]. cbn [lstrip]. change (is_space 41) with false. cbn iota.
  cbn [rev]. rewrite rev_involutive. rewrite <- !app_assoc. reflexivity.
Qed.

(** the three conventional forms *)
Lemma parse_name_addr quote cd gd words local domain : words <> [] -> Forall plain words -> plain local -> plain domain ->
  parse_user_id quote cd (S gd) (name_addr words local domain) = Ok (join [32] words, local ++ [64] ++ domain, []).
Proof.
  intros N F Pl Pd. unfold parse_user_id.
  destruct (address_name (name_addr words local domain) cd quote gd words [] [] local domain eq_refl N F Pl Pd) as (pos & E).
  { intros pl fuel H. now apply no_comment_run. }
  rewrite E. cbn [bind]. rewrite app_nil_r, get_cons_0. cbn [bind]. cbn [join]. now rewrite strip_join.
Qed.
Lemma parse_name_comment_addr quote cd gd words comment local domain : words <> [] -> Forall plain words -> comment_text comment -> comment <> [] -> plain local -> plain domain ->
  parse_user_id quote (S cd) (S gd) (name_comment_addr words comment local domain) =
  Ok (lstrip (replace comment [] (join [32] words ++ [32])) ++ [40; 41], local ++ [64] ++ domain, comment).
Proof.
  intros N F C Nc Pl Pd. unfold parse_user_id. set (field := name_comment_addr words comment local domain).
  assert (E0 : field = join [32] words ++ [32] ++ (40 :: comment ++ [41; 32]) ++ [60] ++ local ++ [64] ++ domain ++ [62]).
  { unfold field, name_comment_addr. rewrite <- ?app_assoc. cbn [app]. rewrite <- app_assoc. reflexivity. }
  destruct (address_name field (S cd) quote gd words (40 :: comment ++ [41; 32]) [comment] local domain E0 N F Pl Pd) as (pos & E).
  { exact (comment_phrase field cd comment (join [32] words) (local ++ [64] ++ domain ++ [62]) E0 C). }
  rewrite E. cbn [bind]. rewrite get_cons_0. cbn [bind]. cbn [join]. destruct comment as [|x co] eqn:Ec; [easy|]. rewrite <- Ec in *. f_equal. f_equal. f_equal.
  assert (Hi : forall c, In c [40; 41; 92; 13] -> ~ In c comment). { intros c Ic Ib. unfold comment_text in C. rewrite Forall_forall in C. exact (C c Ib Ic). }
  assert (Er : replace comment [] (join [32] words ++ [32; 40] ++ comment ++ [41]) = replace comment [] (join [32] words ++ [32]) ++ [40; 41]).
  { unfold replace. replace (join [32] words ++ [32; 40] ++ comment ++ [41]) with ((join [32] words ++ [32]) ++ 40 :: comment ++ 41 :: []) by (rewrite <- app_assoc; reflexivity).
    rewrite (replace_stop 40 comment [] (comment ++ [41])) by (auto using Nat.le_0_l || (apply Hi; cbn; tauto)).
    rewrite (replace_self comment [] [] 41) by (auto || (apply Hi; cbn; tauto)). reflexivity. }
  etransitivity; [apply (f_equal strip); exact Er|]. apply strip_parens.
Qed.
Lemma parse_bare quote cd gd local domain : plain local -> plain domain ->
  parse_user_id quote cd (S gd) (local ++ [64] ++ domain) = Ok ([], local ++ [64] ++ domain, []).
Proof.
  intros Pl Pd. unfold parse_user_id. set (field := local ++ [64] ++ domain). cbn [getaddress].
  destruct (plain_next field quote local ([64] ++ domain) Pl) as (y & r & Er & Y1 & Y2 & _).
  pose proof (next_none field cd [] [] y r Er Y1 Y2) as Hn. change (zlen (@nil Z)) with 0 in Hn. rewrite Hn. cbn [bind]. unfold getphraselist.
  assert (E0 : field = [] ++ local ++ 64 :: domain) by reflexivity. assert (E1 : field = local ++ 64 :: domain) by reflexivity.
  assert (Hf : exists f, loop_fuel field = S (S f)). { unfold loop_fuel, field. rewrite app_length. cbn [app length]. destruct (length local + S (length domain))%nat as [|f] eqn:Q; [lia|]. now exists f. }
  destruct Hf as (f & Hf). pose proof (phrase_step_word field cd (S f) [] [] [] local 64 domain E0 Pl eq_refl) as Hw. change (zlen (@nil Z)) with 0 in Hw. rewrite <- Hf in Hw. rewrite Hw. cbn [app].
  rewrite (phrase_stop field cd (S f) [local] [] local 64 domain E1); [|repeat split; discriminate|lia]. cbn [bind].
  rewrite (next_none field cd [] local 64 domain E1) by (reflexivity || discriminate). cbn [bind]. cbv zeta.
  destruct (in_field field local 64 domain E1) as [B G]. replace (zlen field <=? zlen local) with false by lia. rewrite G. cbn [bind Z.eqb Pos.eqb orb].
  assert (E2 : field = [] ++ local ++ [64] ++ domain ++ []) by (rewrite app_nil_r; reflexivity).
  pose proof (addrspec_run field cd quote [] [] local domain [] E2 Pl Pd (or_introl eq_refl)) as Ha. change (zlen (@nil Z)) with 0 in Ha. rewrite Ha. cbn [bind].
  change (zlen ([] ++ local ++ [64] ++ domain)) with (zlen field). rewrite (next_end field) by lia. cbn [bind]. replace (zlen field <? zlen field) with false by lia. cbn [bind]. rewrite get_cons_0. reflexivity.
Qed.
