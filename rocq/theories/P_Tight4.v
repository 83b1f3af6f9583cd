(** More theorems for C66 (user ids), C63 (passphrases) and C50 (signature attributes), which wrong programs had survived. *)
From Coq Require Import Lia.
From Verif Require Import Base BaseProofs Spec Text TextProofs UserId SpecUserId UserIdProofs UserIdForms SpecTight4.

Lemma white_fws c : In c [32; 9; 13; 10] -> in_set c FWS = true /\ in_set c phraseends = true.
Proof. intros I. cbn [In] in I. destruct I as [<-|[<-|[<-|[<-|[]]]]]; split; reflexivity. Qed.
Section W.
Variables (field : text) (cd : nat).
Lemma next_white : forall w fuel ws cl pre c rest, field = pre ++ w ++ c :: rest -> white w -> in_set c FWS = false -> c <> 40 -> (length w < fuel)%nat ->
  exists ws', next_loop field cd fuel ws cl (zlen pre) = Ok (ws', cl, zlen (pre ++ w)).
Proof.
  induction w as [|x w IH]; intros fuel ws cl pre c rest E W F A Hf; (destruct fuel as [|fuel]; [cbn in Hf; lia|]); cbn [next_loop].
  - cbn [app] in E. destruct (in_field field pre c rest E) as [-> ->]. cbn [bind]. rewrite F. replace (c =? 40) with false by lia. exists ws. rewrite app_nil_r. reflexivity.
  - cbn [app] in E. destruct (in_field field pre x (w ++ c :: rest) E) as [-> ->]. cbn [bind]. pose proof (Forall_inv W) as W1. pose proof (Forall_inv_tail W) as W2. rewrite (proj1 (white_fws x W1)).
    replace (zlen pre + 1) with (zlen (pre ++ [x])) by (rewrite zlen_app; reflexivity). replace (pre ++ x :: w) with ((pre ++ [x]) ++ w) by (rewrite <- app_assoc; reflexivity).
    apply (IH fuel _ cl (pre ++ [x]) c rest); [rewrite <- app_assoc; exact E|exact W2|exact F|exact A|cbn in Hf; lia].
Qed.
Lemma phrase_white : forall w fuel pl cl pre rest, field = pre ++ w ++ rest -> white w -> phrase_loop field cd (length w + fuel) pl cl (zlen pre) = phrase_loop field cd fuel pl cl (zlen (pre ++ w)).
Proof.
  induction w as [|x w IH]; intros fuel pl cl pre rest E W; [rewrite app_nil_r; reflexivity|]. cbn [length Nat.add phrase_loop]. cbn [app] in E. destruct (in_field field pre x (w ++ rest) E) as [-> ->]. cbn [bind].
  pose proof (Forall_inv W) as W1. pose proof (Forall_inv_tail W) as W2. rewrite (proj1 (white_fws x W1)).
  replace (zlen pre + 1) with (zlen (pre ++ [x])) by (rewrite zlen_app; reflexivity). replace (pre ++ x :: w) with ((pre ++ [x]) ++ w) by (rewrite <- app_assoc; reflexivity).
  apply (IH fuel pl cl (pre ++ [x]) rest); [rewrite <- app_assoc; exact E|exact W2].
Qed.
Lemma phrase_layout : forall l fuel pl cl pre c rest, field = pre ++ laid_out l ++ c :: rest -> layout l -> stop_char c -> (length (laid_out l) < fuel)%nat ->
  phrase_loop field cd fuel pl cl (zlen pre) = Ok (pl ++ map fst l, cl, zlen (pre ++ laid_out l)).
Proof.
  induction l as [|[w g] l IH]; intros fuel pl cl pre c rest E F S Hf.
  - cbn [laid_out map concat app] in *. rewrite !app_nil_r. apply (phrase_stop field cd fuel pl cl pre c rest E S). lia.
  - pose proof (Forall_inv F) as (Pw & Wg & Ng). pose proof (Forall_inv_tail F) as F2. cbn [fst snd] in Pw, Wg, Ng.
    change (laid_out ((w, g) :: l)) with ((w ++ g) ++ laid_out l) in *. rewrite <- !app_assoc in E. destruct g as [|y g]; [contradiction|].
    destruct fuel as [|fuel]; [lia|]. rewrite (phrase_step_word field cd fuel pl cl pre w y (g ++ laid_out l ++ c :: rest) E Pw (proj2 (white_fws y (Forall_inv Wg)))).
    assert (Lw : (0 < length w)%nat) by (destruct Pw as [Nw _]; destruct w; [contradiction|cbn; lia]). rewrite !app_length in Hf.
    replace fuel with (length (y :: g) + (fuel - length (y :: g)))%nat by lia.
    rewrite (phrase_white (y :: g) _ (pl ++ [w]) cl (pre ++ w) (laid_out l ++ c :: rest)); [|rewrite <- app_assoc; exact E|exact Wg].
    rewrite (IH _ (pl ++ [w]) cl ((pre ++ w) ++ y :: g) c rest); [|rewrite <- !app_assoc; exact E|exact F2|exact S|lia].
    cbn [map fst]. rewrite <- !app_assoc. reflexivity.
Qed.
End W.

(** White space before the name, between its words and before the address, of whatever kind and length, does not matter. *)
Theorem c66_white_space_partial : forall quote cd gd lead l local domain, white lead -> layout l -> l <> [] -> plain local -> plain domain ->
  parse_user_id quote cd (S gd) (lead ++ laid_out l ++ [60] ++ local ++ [64] ++ domain ++ [62]) = Ok (join [32] (map fst l), local ++ [64] ++ domain, []).
Proof.
  intros quote cd gd lead l local domain Wl Ll Nl Pl Pd. set (field := lead ++ laid_out l ++ [60] ++ local ++ [64] ++ domain ++ [62]).
  assert (Fw : Forall plain (map fst l)) by (apply Forall_map; eapply Forall_impl; [|exact Ll]; intros a (A & _); exact A).
  assert (X : exists pos, getaddress quote field cd (S gd) 0 = Ok ([(join [32] (map fst l), local ++ [64] ++ domain)], [], pos)).
  { cbn [getaddress]. destruct l as [|[w g] l']; [contradiction|]. set (l := (w, g) :: l') in *.
    pose proof (Forall_inv Ll) as (Pw & _). cbn [fst] in Pw.
    assert (Hs : exists y r, laid_out l ++ [60] ++ local ++ [64] ++ domain ++ [62] = y :: r /\ in_set y FWS = false /\ y <> 40).
    { change (laid_out l) with ((w ++ g) ++ laid_out l'). rewrite <- !app_assoc. destruct (plain_next field quote w (g ++ laid_out l' ++ [60] ++ local ++ [64] ++ domain ++ [62]) Pw) as (y & r & Er & Y1 & Y2 & _). exists y, r. auto. }
    destruct Hs as (y & r & Ey & Y1 & Y2).
    assert (E1 : field = [] ++ lead ++ y :: r) by (cbn [app]; rewrite <- Ey; reflexivity).
    destruct (next_white field cd lead (loop_fuel field) [] [] [] y r E1 Wl Y1 Y2 (fuel_ok field [] lead (y :: r) E1)) as (ws & En). change (zlen (@nil Z)) with 0 in En. unfold gotonext at 1. rewrite En. cbn [bind app].
    assert (E2 : field = lead ++ laid_out l ++ 60 :: local ++ [64] ++ domain ++ [62]) by reflexivity.
    unfold getphraselist. rewrite (phrase_layout field cd l (loop_fuel field) [] [] lead 60 (local ++ [64] ++ domain ++ [62]) E2 Ll); [|repeat split; discriminate|exact (fuel_ok field lead (laid_out l) (60 :: local ++ [64] ++ domain ++ [62]) E2)]. cbn [bind app].
    set (pre := lead ++ laid_out l) in *. assert (E3 : field = pre ++ 60 :: local ++ [64] ++ domain ++ [62]) by (unfold pre; rewrite <- app_assoc; exact E2).
    rewrite (next_none field cd [] pre 60 _ E3) by (reflexivity || discriminate). cbn [bind]. cbv zeta. destruct (in_field field pre 60 _ E3) as [B G]. replace (zlen field <=? zlen pre) with false by lia. rewrite G. cbn [bind Z.eqb Pos.eqb orb].
    assert (E4 : field = pre ++ [60] ++ local ++ [64] ++ domain ++ [62] ++ []) by (rewrite app_nil_r; exact E3). rewrite (routeaddr_run field cd quote [] pre local domain [] E4 Pl Pd). cbn [bind].
    assert (EL : zlen (pre ++ [60] ++ local ++ [64] ++ domain ++ [62]) = zlen field) by (rewrite E3; reflexivity).
    rewrite EL, next_end by lia. cbn [bind]. replace (zlen field <? zlen field) with false by lia. cbn [bind]. rewrite app_nil_r. eexists. reflexivity. }
  destruct X as (pos & X). unfold parse_user_id. rewrite X. cbn [bind]. rewrite get_cons_0. cbn [bind join]. rewrite (strip_join _ Fw). reflexivity.
Qed.
Print Assumptions c66_white_space_partial.
Example c66_white_space_met : layout [([66; 111; 98], [9; 32]); ([66], [13; 10; 32])] /\ white [32; 9] /\
  parse_user_id (fun t => t) 1 1 ([32; 9] ++ laid_out [([66; 111; 98], [9; 32]); ([66], [13; 10; 32])] ++ [60] ++ [98] ++ [64] ++ [120] ++ [62]) = Ok ([66; 111; 98; 32; 66], [98; 64; 120], []).
Proof.
  assert (P : forall c, In c [66; 111; 98; 120; 46; 114; 103] -> plain_char c).
  { intros c I. split; [|intros J; cbn [In] in I, J; lia]. cbn [In] in I. repeat destruct I as [<-|I]; try reflexivity. contradiction. }
  split; [|split; [|vm_compute; reflexivity]].
  - constructor; [|constructor; [|constructor]]; (split; [split; [discriminate|apply Forall_forall; intros c I; apply P; cbn [In fst] in *; tauto]|]); (split; [apply Forall_forall; intros c I; cbn [In snd] in *; tauto|discriminate]).
  - apply Forall_forall; intros c I; cbn [In] in *; tauto.
Qed.

From Verif Require Import Utils Framing Armor S2k Cipher SymCipher SessionKeys KeyPackets DataPackets SigPackets Packets Message SigAttrs KeyProofs.
(** The message that symmetric_encrypt makes has one session key, with the cipher that was asked for and the specifier that was asked for; a type that is
    neither simple, salted nor iterated is refused. *)
Theorem c63_specifier : forall E sha1 H fl rec m alg pass sk iv integrity ty hash sym salt count,
  (forall M, symmetric_encrypt E sha1 H fl rec m alg pass sk iv integrity ty hash sym salt count = Ok M ->
     exists s esk d, M = MEncrypted [SKSym alg s esk] d /\ specifier ty hash sym salt count s) /\
  (ty <> 0 -> ty <> 1 -> ty <> 3 -> symmetric_encrypt E sha1 H fl rec m alg pass sk iv integrity ty hash sym salt count = Err (if ty =? 101 then TypeError else KeyError)).
Proof.
  intros E sha1 H fl rec m alg pass sk iv integrity ty hash sym salt count. unfold symmetric_encrypt. split.
  - intros M X. apply bind_ok in X as (s & Es & X). apply bind_ok in X as (esk & _ & X). apply bind_ok in X as (d & _ & X). apply bind_ok in X as (ed & _ & X). apply ok_inj in X. subst M. exists s, esk, ed. split; [reflexivity|].
    unfold new_s2k in Es. unfold specifier. destruct (ty =? 0) eqn:B0; [apply ok_inj in Es; left; split; [lia|auto]|]. destruct (ty =? 1) eqn:B1; [apply ok_inj in Es; right; left; split; [lia|auto]|]. destruct (ty =? 3) eqn:B3; [apply ok_inj in Es; right; right; split; [lia|auto]|].
    destruct (ty =? 101); discriminate.
  - intros N0 N1 N3. unfold new_s2k. replace (ty =? 0) with false by lia. replace (ty =? 1) with false by lia. replace (ty =? 3) with false by lia. destruct (ty =? 101); reflexivity.
Qed.
Print Assumptions c63_specifier.
(** Refuted: a message with two passphrases opens with either. Only the first passphrase session key is tried, whatever follows it. *)
Theorem c63_second_passphrase_refuted : forall E sha1 od H alg s esk rest rest' d x,
  get_message E sha1 od H (MEncrypted (SKSym alg s esk :: rest) d) x = get_message E sha1 od H (MEncrypted (SKSym alg s esk :: rest') d) x.
Proof.
  intros. cbn [get_message get_message_loop is_pub_key]. destruct (algorithm_and_key E H (SKSym alg s esk) x) as [[a k]|e]; [reflexivity|]. destruct e; reflexivity.
Qed.
Print Assumptions c63_second_passphrase_refuted.
(** Only an encrypted or a signed message has another message in it that get_message gives. *)
Theorem c63_not_encrypted : forall E sha1 od H m x m', get_message E sha1 od H m x = Ok m' ->
  (exists keys d, m = MEncrypted keys d) \/ exists ops sigs, m = MSigned ops (Some m') sigs.
Proof. intros E sha1 od H m x m' X. destruct m; cbn in X; try discriminate X; eauto. match goal with Y : option message |- _ => destruct Y; [|discriminate X] end. apply ok_inj in X. subst. eauto. Qed.
Print Assumptions c63_not_encrypted.

(** Assigning any value to an attribute of a signature that has its subpacket, and writing the signature, writes that subpacket with the value, or raises the
    exception of the table; the other subpackets are untouched. *)
Theorem c50_value_kinds : forall p v old c r, assigned p v old = Some r ->
  exists s', set_prop (sig_obj_of [Sub (home p) c old] []) p v = Ok s' /\ written s' = (do b <- r;; Ok ([Sub (home p) c b], [])).
Proof.
  intros p v old c r A.
  assert (T : forall w, truthy w = py_true w).
  { intros [|z|b|t|l]; try reflexivity; cbn. - destruct z; reflexivity. - destruct b; reflexivity. - destruct t; [reflexivity|]. rewrite zlen_cons. pose proof (zlen_nonneg t). replace (1 + zlen t =? 0) with false by lia. reflexivity. - destruct l; [reflexivity|]. rewrite zlen_cons. pose proof (zlen_nonneg l). replace (1 + zlen l =? 0) with false by lia. reflexivity. }
  destruct p, old; cbn -[py_true plain_text number] in A; try discriminate A;
    first [ injection A as <-; rewrite <- (T v); eexists; (split; [reflexivity|]); reflexivity
          | destruct v as [| |[]| |]; cbn in A; try discriminate A; injection A as <-; eexists; (split; [reflexivity|]); reflexivity ].
Qed.
Print Assumptions c50_value_kinds.
Example c50_value_kinds_met : assigned P_revocation_code (VBool true) (SbReason 0 []) = Some (Ok (SbReason 1 [])) /\ assigned P_policy_uri (VInt 3) (SbUri [104]) = Some (Err AttributeError) /\ assigned P_preferred_hash (VInt 3) (SbAlgs [8]) = Some (Err TypeError).
Proof. repeat split. Qed.
