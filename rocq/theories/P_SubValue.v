(** C113: the attributes of a signature that was read are what RFC 4880 says its octets mean. *)
From Coq Require Import String.
From Verif Require SessionKeysProofs DumpTells MsgEncProofs.
From Verif Require Import Base BaseProofs Spec Utils UtilsProofs CodecProofs HexProofs SpecFraming FramingProofs Text S2k Utf8 SpecUtf8 Utf8Proofs SpecKey KeyProofs DataProofs SigPackets SpecSig SigProofs SigStable P_Sig SigAttrs SigLists SpecSubValue.
Open Scope Z_scope.

Ltac arm := match goal with |- context[if ?b then _ else _] => first [match b with (_ =? ?k) => let E := fresh in destruct b eqn:E; [apply Z.eqb_eq in E|apply Z.eqb_neq in E] end] end.

Lemma bool_acc d : wf d -> (exists b, bool_from d = Ok b) <-> d = [0] \/ d = [1].
Proof.
  intros W. unfold bool_from. split.
  - intros [b H]. destruct (zlen d =? 1) eqn:E; [|discriminate H]. destruct (SigStable.single d ltac:(lia)) as [x ->]. rewrite get_cons_0 in H. cbn [negb bind] in H.
    pose proof (Forall_inv W) as B. destruct (Z.land x 254 =? 0) eqn:L; [|discriminate H].
    pose proof (byte_all (fun x => implb (Z.land x 254 =? 0) ((x =? 0) || (x =? 1))) ltac:(vm_compute; reflexivity) x B) as Q. cbv beta in Q. rewrite L in Q. cbn [implb] in Q. assert (x = 0 \/ x = 1) by lia. destruct H0; subst; auto.
  - intros [-> | ->]; eexists; reflexivity.
Qed.
Lemma nonempty_len (d : bytes) : (0 <? zlen d) = true <-> d <> [].
Proof. destruct d as [|x d]; [split; [discriminate|congruence]|]. rewrite zlen_cons. pose proof (zlen_nonneg d). split; [congruence|lia]. Qed.
Lemma utf8_acc d : wf d -> (exists s, utf8_decode d = Ok s) <-> valid_utf8 d.
Proof.
  intros W. split; [intros [s H]; exists s; now apply decode_ok_inv|]. intros (s & F & ->). exists s. now apply decode_utf8.
Qed.
Lemma two (d : bytes) : 2 <= zlen d -> exists a b r, d = a :: b :: r.
Proof. destruct d as [|a [|b r]]; cbv [zlen length Z.of_nat]; intros; [lia|lia|eauto]. Qed.
Lemma get_last {A} (l : list A) x : get (l ++ [x]) (-1) = Ok x.
Proof. exact (SessionKeysProofs.get_last1 l x). Qed.
(** octets in hexadecimal, after the first two *)
Lemma hex_after2 a b x y n : wf x -> n = 2 * zlen x -> bytearray_to_hex (a :: b :: x ++ y) 2 (Some n) = Ok (hex_text x).
Proof. intros W N. exact (bytearray_to_hex_at [a; b] x y n W N). Qed.
Lemma digest_table h : hash_lengths h = rfc_digest_length h.
Proof.
  unfold hash_lengths. repeat match goal with |- context[h =? ?k] => destruct (h =? k) eqn:?; [assert (h = k) as -> by lia; reflexivity|] end.
  unfold rfc_digest_length. destruct h as [|q|q]; try reflexivity. do 4 (destruct q as [q|q|]; try reflexivity; try discriminate).
Qed.

Lemma body_accepted emb ty d : wf d -> (exists b, subbody_from emb ty d = Ok b) <-> accepted (fun d => exists s, emb d = Ok s) ty d.
Proof.
  intros W. unfold accepted.
  destruct ((ty =? 2) || (ty =? 3) || (ty =? 9)) eqn:T1.
  { rewrite time_parse by (cbn; lia). split; [intros [b H]; destruct (zlen d =? 4) eqn:E; [lia|discriminate H]|]. intros E. rewrite E. cbn [Z.eqb negb Pos.eqb]. destruct (proj2 (long_to_int_err_iff d 0 ltac:(lia)) ltac:(lia)) as [t ->]. eexists; reflexivity. }
  destruct ((ty =? 4) || (ty =? 7) || (ty =? 25)) eqn:T2.
  { rewrite boolean_parse by (cbn; lia). rewrite <- (bool_acc d W). split; intros [b H]; [destruct (bool_from d); [eauto|discriminate H]|rewrite H; eexists; reflexivity]. }
  destruct (ty =? 5) eqn:T3; [|destruct (ty =? 6) eqn:T4; [|destruct (ty =? 10) eqn:T5; [|destruct (ty =? 12) eqn:T6; [|destruct (ty =? 16) eqn:T7; [|destruct (ty =? 20) eqn:T8; [|destruct (ty =? 28) eqn:T9;
   [|destruct ((ty =? 23) || (ty =? 24) || (ty =? 26) || (ty =? 27) || (ty =? 29) || (ty =? 30)) eqn:T10; [|destruct (ty =? 31) eqn:T11; [|destruct (ty =? 32) eqn:T12]]]]]]]]].
  - apply Z.eqb_eq in T3 as ->. change (subbody_from emb 5 d) with (if negb (zlen d =? 2) then Err AssertionError else do a <- get d 0;; do b <- get d 1;; Ok (SbTrust a b)).
    split; [intros [b H]; destruct (zlen d =? 2) eqn:E; [lia|discriminate H]|]. intros E. destruct (two d ltac:(lia)) as (a & b & r & ->). rewrite E. cbn [Z.eqb Pos.eqb negb]. rewrite get_cons_0. cbn [bind]. rewrite get_cons_S by lia. cbn [Z.sub]. rewrite get_cons_0. eexists; reflexivity.
  - apply Z.eqb_eq in T4 as ->. change (subbody_from emb 6 d) with (if negb (0 <? zlen d) then Err AssertionError else do z <- get d (-1);; if negb (z =? 0) then Err AssertionError else Ok (SbRegex (ascii_decode_replace (slice d 0 (-1))))).
    split.
    + intros [b H]. destruct (list_eq_dec Z.eq_dec d []) as [->|N]; [discriminate H|]. destruct (exists_last N) as (p & z & ->). exists p.
      destruct (0 <? zlen (p ++ [z])); [|discriminate H]. cbn [negb] in H. rewrite get_last in H. cbn [bind] in H. destruct (z =? 0) eqn:E; [|discriminate H]. f_equal. f_equal. lia.
    + intros [p ->]. rewrite (proj2 (nonempty_len (p ++ [0]))) by now destruct p. cbn [negb]. rewrite get_last. cbn [bind]. eexists; reflexivity.
  - apply Z.eqb_eq in T5 as ->. change (subbody_from emb 10 d) with (do c <- get d 0;; do a <- get d 1;; do f <- bytearray_to_hex d 2 (Some 20);; Ok (SbAddRecip (bit c 128) a f)).
    split.
    + intros [b H]. apply bind_ok in H as (c & _ & H). apply bind_ok in H as (a & _ & H). apply bind_ok in H as (f & Hf & _). apply hex_bound in Hf; [|lia|lia]. change (20 / 2) with 10 in Hf. lia.
    + intros L. destruct (two d ltac:(lia)) as (a & b & r & ->). rewrite !zlen_cons in L. rewrite get_cons_0. cbn [bind]. rewrite get_cons_S by lia. cbn [Z.sub]. rewrite get_cons_0. cbn [bind].
      rewrite <- (firstn_skipn 10 r). rewrite hex_after2; [eexists; reflexivity| |].
      * apply Forall_inv_tail, Forall_inv_tail in W. rewrite <- (firstn_skipn 10 r) in W. now apply wf_app in W.
      * unfold zlen in *. rewrite firstn_length. lia.
  - apply Z.eqb_eq in T6 as ->. change (subbody_from emb 12 d) with (if negb (zlen d =? 22) then @Err subbody AssertionError else Err TypeError). split; [intros [b H]; destruct (zlen d =? 22); discriminate H|contradiction].
  - apply Z.eqb_eq in T7 as ->. rewrite issuer_parse. split; [intros [b H]; destruct (zlen d =? 8) eqn:E; [lia|discriminate H]|]. intros E. rewrite E. cbn [Z.eqb Pos.eqb negb].
    pose proof (bytearray_to_hex_at [] d [] 16 W ltac:(lia)) as Q. rewrite app_nil_r in Q. cbn [app] in Q. change (zlen (@nil Z)) with 0 in Q. rewrite Q. eexists; reflexivity.
  - apply Z.eqb_eq in T8 as ->. split.
    + intros [b H]. destruct (notation_inv emb d b W H) as (f & nl & vl & name & value & Ed & Ef & L1 & L2 & L3 & L4 & _). exists f, nl, vl, name, value. auto 10.
    + intros (f & nl & vl & name & value & -> & Ef & L1 & L2 & L3 & L4). eexists. now apply (notation_parse emb f nl vl name value).
  - apply Z.eqb_eq in T9 as ->. change (subbody_from emb 28 d) with (do s <- utf8_decode d;; Ok (SbUserId s)). rewrite <- (utf8_acc d W). split; intros [b H]; [destruct (utf8_decode d); [eauto|discriminate H]|rewrite H; eexists; reflexivity].
  - assert (C : ty = 23 \/ In ty [24; 26] \/ ty = 27 \/ ty = 29 \/ ty = 30) by (cbn; lia). rewrite <- nonempty_len.
    destruct C as [-> | [C | [-> | [-> | ->]]]].
    + change (subbody_from emb 23 d) with (if negb (0 <? zlen d) then Err AssertionError else do b <- get d 0;; Ok (SbNoModify (bit b 128))). destruct (0 <? zlen d) eqn:E; cbn [negb]; [|split; [intros [b H]; discriminate H|discriminate]].
      split; [auto|]. intros _. destruct (get_lt_ok d 0 ltac:(lia)) as [a ->]. eexists; reflexivity.
    + rewrite (uri_parse emb ty d C). destruct (0 <? zlen d) eqn:E; cbn [negb]; split; try discriminate; eauto. intros [b H]; discriminate H.
    + change (subbody_from emb 27 d) with (if negb (0 <? zlen d) then Err AssertionError else do k <- get d 0;; Ok (SbFlags (bit k 1) (bit k 2) (bit k 4) (bit k 8) (bit k 32) (bit k 16) (bit k 128))). destruct (0 <? zlen d) eqn:E; cbn [negb]; [|split; [intros [b H]; discriminate H|discriminate]].
      split; [auto|]. intros _. destruct (get_lt_ok d 0 ltac:(lia)) as [a ->]. eexists; reflexivity.
    + change (subbody_from emb 29 d) with (do c <- get d 0;; Ok (SbReason c (utf8_decode_replace (slice_from d 1)))). split.
      * intros [b H]. destruct (get d 0) as [c|] eqn:G; [|discriminate H]. apply get_ok_lt in G; [|lia]. lia.
      * intros E. destruct (get_lt_ok d 0 ltac:(lia)) as [a ->]. eexists; reflexivity.
    + change (subbody_from emb 30 d) with (if negb (0 <? zlen d) then Err AssertionError else do b <- get d 0;; Ok (SbFeatures (bit b 1))). destruct (0 <? zlen d) eqn:E; cbn [negb]; [|split; [intros [b H]; discriminate H|discriminate]].
      split; [auto|]. intros _. destruct (get_lt_ok d 0 ltac:(lia)) as [a ->]. eexists; reflexivity.
  - apply Z.eqb_eq in T11 as ->.
    change (subbody_from emb 31 d) with (if negb (2 <? zlen d) then Err AssertionError else do a <- get d 0;; do h <- get d 1;;
      do l <- (match hash_lengths h with None => Ok (zlen d - 2) | Some n => if n =? zlen d - 2 then Ok n else Err AssertionError end);; do x <- bytearray_to_hex d 2 (Some (zlen d - 2));; Ok (SbTarget a h x (Some l))).
    destruct (2 <? zlen d) eqn:E2; cbn [negb]; [|split; [intros [b H]; discriminate H|lia]].
    destruct (two d ltac:(lia)) as (a & h & r & ->). rewrite get_cons_0. cbn [bind]. rewrite get_cons_S by lia. cbn [Z.sub]. rewrite get_cons_0. cbn [bind]. rewrite digest_table.
    rewrite !zlen_cons in *. replace (1 + (1 + zlen r) - 2) with (zlen r) by lia.
    assert (Hx : bytearray_to_hex (a :: h :: r) 2 (Some (zlen r)) = if Z.even (zlen r) then Ok (hex_text (firstn (Z.to_nat (zlen r / 2)) r)) else Err AssertionError).
    { destruct (Z.even (zlen r)) eqn:Ev.
      - pose proof (Zmod_even (zlen r)) as M. rewrite Ev in M. etransitivity; [|apply (hex_after2 a h (firstn (Z.to_nat (zlen r / 2)) r) (skipn (Z.to_nat (zlen r / 2)) r) (zlen r))].
        + now rewrite firstn_skipn.
        + apply Forall_inv_tail, Forall_inv_tail in W. rewrite <- (firstn_skipn (Z.to_nat (zlen r / 2)) r) in W. now apply wf_app in W.
        + unfold zlen in *. rewrite firstn_length. lia.
      - unfold bytearray_to_hex. pose proof (Zmod_even (zlen r)) as M. rewrite Ev in M. rewrite M. reflexivity. }
    rewrite Hx. clear Hx. replace (Z.even (1 + (1 + zlen r))) with (Z.even (zlen r)) by (rewrite !Z.even_add; cbn [Z.even Bool.eqb]; now destruct (Z.even (zlen r))).
    split.
    + intros [b H]. split; [lia|]. apply bind_ok in H as (l & Hl & H). destruct (Z.even (zlen r)); [|discriminate H]. split; [reflexivity|]. exists a, h, r. split; [reflexivity|]. destruct (rfc_digest_length h) as [n|]; [|auto]. destruct (n =? zlen r) eqn:En; [|discriminate Hl]. right. f_equal. lia.
    + intros (_ & -> & a' & h' & r' & Q & D). injection Q as <- <- <-. destruct D as [-> | ->]; cbn [bind]; [eexists; reflexivity|]. rewrite Z.eqb_refl. eexists; reflexivity.
  - apply Z.eqb_eq in T12 as ->. change (subbody_from emb 32 d) with (do s <- emb d;; Ok (SbEmbedded s)). split; intros [b H]; [destruct (emb d); [eauto|discriminate H]|rewrite H; eexists; reflexivity].
  - assert (C : In ty [11; 21; 22] \/ ~ In ty known_subs) by (cbn; lia). split; [auto|]. intros _. destruct C as [C|C]; [rewrite (algs_parse emb ty d C)|rewrite (unknown_parse emb ty d C)]; eexists; reflexivity.
Qed.

Lemma area_wf ts es : rfc_area ts es -> wf (concat es) -> Forall (fun t : triple => wf (snd t)) ts.
Proof.
  induction 1 as [|t e ts es R _ IH]; intros W; [constructor|]. cbn [concat] in W. apply wf_app in W as [W1 W2]. constructor; [|auto].
  destruct R as (_ & l & _ & ->). apply wf_app in W1 as [_ W1]. now apply wf_app in W1 as [_ W1].
Qed.
Lemma mapM_all {A B} (f : A -> res B) l : (exists r, mapM f l = Ok r) <-> Forall (fun x => exists y, f x = Ok y) l.
Proof.
  induction l as [|x l IH]; [split; [constructor|exists []; reflexivity]|]. cbn [mapM]. split.
  - intros [r H]. apply bind_ok in H as (y & Hy & H). apply bind_ok in H as (r' & Hr & _). constructor; [eauto|]. apply IH. eauto.
  - intros F. destruct (Forall_inv F) as [y ->]. cbn [bind]. destruct (proj2 IH (Forall_inv_tail F)) as [r ->]. eexists; reflexivity.
Qed.
Lemma sub_acc t : wf (snd t) -> (exists y, SpecSig.sub_of sig_from_content t = Ok y) <-> accepted (fun d => exists s, sig_from_content d = Ok s) (fst (fst t)) (snd t).
Proof.
  intros W. rewrite <- (body_accepted sig_from_content _ _ W). unfold SpecSig.sub_of. split; intros [b H]; [destruct (subbody_from _ _ _); [eauto|discriminate H]|rewrite H; eexists; reflexivity].
Qed.
(** the two lists, read *)
Lemma holds_read data h u : holds_subpackets data h u -> Forall (fun t : triple => wf (snd t)) (h ++ u) /\
  exists st pk ha h2 ms, sig_from_content data = do hs <- mapM (SpecSig.sub_of sig_from_content) h;; do us <- mapM (SpecSig.sub_of sig_from_content) u;; Ok (SigV4 4 st pk ha h2 ms hs us).
Proof.
  intros (st & pk & ha & es1 & es2 & h2 & ms & encs & A1 & A2 & M & R). split.
  - destruct R as (l1 & l2 & -> & _ & _ & _ & _ & _ & W). apply wf_app in W as [_ W]. apply wf_app in W as [_ W]. apply wf_app in W as [W1 W]. apply wf_app in W as [_ W]. apply wf_app in W as [W2 _].
    apply Forall_app. split; eapply area_wf; eauto.
  - exists st, pk, ha, h2, ms. exact (c31_read st pk ha h es1 u es2 h2 ms encs data A1 A2 M R).
Qed.

(** Which signatures are taken: a version 4 body is read exactly when every subpacket's content is of the form listed for its type. *)
Theorem c113_accepted : forall data h u, holds_subpackets data h u ->
  (exists s, read_as data s) <-> Forall (fun t : triple => accepted (fun d => exists s, sig_from_content d = Ok s) (fst (fst t)) (snd t)) (h ++ u).
Proof.
  intros data h u P. destruct (holds_read data h u P) as (W & st & pk & ha & h2 & ms & E).
  assert (Q : Forall (fun t : triple => accepted (fun d => exists s, sig_from_content d = Ok s) (fst (fst t)) (snd t)) (h ++ u) <-> Forall (fun t => exists y, SpecSig.sub_of sig_from_content t = Ok y) (h ++ u)).
  { rewrite !Forall_forall. rewrite Forall_forall in W. split; intros F t I; specialize (F t I); now apply (sub_acc t (W t I)). }
  rewrite Q, Forall_app, <- !mapM_all. unfold read_as. split.
  - intros (s & v & st' & pk' & ha' & h2' & ms' & hs & us & H & _). rewrite E in H. apply bind_ok in H as (hs' & -> & H). apply bind_ok in H as (us' & -> & _). eauto.
  - intros [[hs Hh] [us Hu]]. rewrite Hh, Hu in E. cbn [bind] in E. do 9 eexists. split; [exact E|reflexivity].
Qed.
Print Assumptions c113_accepted.

(** the objects of a type *)
Lemma subs_of emb ty ts ss : mapM (SpecSig.sub_of emb) ts = Ok ss -> mapM (SpecSig.sub_of emb) (filter (fun t : triple => fst (fst t) =? ty) ts) = Ok (filter (fun s => sub_type s =? ty) ss).
Proof.
  revert ss. induction ts as [|t ts IH]; intros ss H; [apply ok_inj in H as <-; reflexivity|]. cbn [mapM] in H. apply bind_ok in H as (s & Hs & H). apply bind_ok in H as (r & Hr & H). apply ok_inj in H as <-. specialize (IH r Hr). cbn [filter].
  assert (T : sub_type s = fst (fst t)) by (unfold SpecSig.sub_of in Hs; apply bind_ok in Hs as (b & _ & Hs); apply ok_inj in Hs as <-; reflexivity). rewrite T. destruct (fst (fst t) =? ty); [|exact IH]. cbn [mapM]. rewrite Hs. cbn [bind]. rewrite IH. reflexivity.
Qed.
Lemma mapM_app {A B} (f : A -> res B) a b x y : mapM f a = Ok x -> mapM f b = Ok y -> mapM f (a ++ b) = Ok (x ++ y).
Proof.
  revert x. induction a as [|t a IH]; intros x H K; [apply ok_inj in H as <-; exact K|]. cbn [mapM app] in *. apply bind_ok in H as (s & -> & H). apply bind_ok in H as (r & Hr & H). apply ok_inj in H as <-. cbn [bind]. rewrite (IH r Hr K). reflexivity.
Qed.
Lemma read_objs data h u s : holds_subpackets data h u -> read_as data s -> forall ty, exists l, mapM (SpecSig.sub_of sig_from_content) (filter (fun t : triple => fst (fst t) =? ty) (h ++ u)) = Ok l /\ get_subs s ty = map obj_of l.
Proof.
  intros P (v & st' & pk' & ha' & h2' & ms' & hs & us & H & ->) ty. destruct (holds_read data h u P) as (W & st & pk & ha & h2 & ms & E). rewrite E in H. apply bind_ok in H as (hs' & Eh & H). apply bind_ok in H as (us' & Eu & H). apply ok_inj in H. injection H as _ _ _ _ _ _ -> ->.
  exists (filter (fun s => sub_type s =? ty) (hs ++ us)). split; [apply subs_of; now apply mapM_app|]. unfold get_subs, sig_obj_of. cbn [so_hashed so_unhashed]. rewrite <- map_app. generalize (hs ++ us). clear. induction l as [|x l IH]; [reflexivity|]. cbn [map filter].
  assert (T : so_type (obj_of x) = sub_type x) by (destruct x as [t c b]; destruct b; reflexivity). rewrite T. destruct (sub_type x =? ty); cbn [map]; now rewrite IH.
Qed.
Lemma first_filter ty ts d : first_of ty ts d -> exists c r, filter (fun t : triple => fst (fst t) =? ty) ts = (ty, c, d) :: r.
Proof.
  intros (a & c & b & -> & N). rewrite filter_app. exists c. assert (F : filter (fun t : triple => fst (fst t) =? ty) a = []).
  { induction N as [|x a X _ IH]; [reflexivity|]. cbn [filter]. destruct (fst (fst x) =? ty) eqn:E; [lia|exact IH]. }
  unfold triple in *. rewrite F. cbn [filter app fst]. rewrite Z.eqb_refl. eauto.
Qed.
Lemma none_filter ty ts : none_of ty ts -> filter (fun t : triple => fst (fst t) =? ty) ts = [].
Proof. induction 1 as [|x a X _ IH]; [reflexivity|]. cbn [filter]. destruct (fst (fst x) =? ty) eqn:E; [lia|exact IH]. Qed.
Lemma bit_flag o n : byte o -> In n [0; 1; 2; 3; 4; 5; 7] -> bit o (2 ^ n) = flag o n.
Proof.
  intros B I. apply Bool.eqb_prop. pose proof (byte_all (fun o => forallb (fun n => Bool.eqb (bit o (2 ^ n)) (flag o n)) [0; 1; 2; 3; 4; 5; 7]) ltac:(vm_compute; reflexivity) o B) as Q. cbv beta in Q. rewrite forallb_forall in Q. exact (Q n I).
Qed.
Lemma says_body emb p d v c b : In p reported -> rfc_says p d v -> wf d -> subbody_from emb (rfc_place p) d = Ok b -> fst (getter p) = rfc_place p /\ need (snd (getter p)) (obj_of (Sub (rfc_place p) c b)) = Ok v.
Proof.
  intros I S W H. cbn [In reported] in I.
  repeat (destruct I as [<- | I]; [split; [reflexivity|]; cbn [rfc_place] in H; cbn [rfc_says] in S|]); [..|contradiction].
  all: try (destruct S as [[-> ->]|[-> ->]]; rewrite boolean_parse in H by (cbn; tauto); apply ok_inj in H as <-; reflexivity).
  all: try (subst v; rewrite algs_parse in H by (cbn; tauto); apply ok_inj in H as <-; reflexivity).
  all: try (destruct S as (t & N & F & -> & ->); rewrite uri_parse in H by (cbn; tauto); rewrite (proj2 (Z.ltb_lt 0 _) (utf8_nonempty t N F)) in H; apply ok_inj in H as <-; rewrite decode_replace_utf8 by exact F; reflexivity).
  all: try (destruct S as (t & F & -> & ->); change (subbody_from emb 28 (utf8 t)) with (do s <- utf8_decode (utf8 t);; Ok (SbUserId s)) in H; rewrite decode_utf8 in H by exact F; apply ok_inj in H as <-; reflexivity).
  all: destruct S as (o & r & -> & ->); pose proof (Forall_inv W) as B.
  all: match type of H with
       | subbody_from _ 23 ?d = _ => change (subbody_from emb 23 d) with (if negb (0 <? zlen d) then Err AssertionError else do b <- get d 0;; Ok (SbNoModify (bit b (2 ^ 7)))) in H
       | subbody_from _ 27 ?d = _ => change (subbody_from emb 27 d) with (if negb (0 <? zlen d) then Err AssertionError else do k <- get d 0;; Ok (SbFlags (bit k (2 ^ 0)) (bit k (2 ^ 1)) (bit k (2 ^ 2)) (bit k (2 ^ 3)) (bit k (2 ^ 5)) (bit k (2 ^ 4)) (bit k (2 ^ 7)))) in H
       | subbody_from _ 29 ?d = _ => change (subbody_from emb 29 d) with (do c <- get d 0;; Ok (SbReason c (utf8_decode_replace (slice_from d 1)))) in H
       | subbody_from _ 30 ?d = _ => change (subbody_from emb 30 d) with (if negb (0 <? zlen d) then Err AssertionError else do b <- get d 0;; Ok (SbFeatures (bit b (2 ^ 0)))) in H
       end; try rewrite (proj2 (nonempty_len (o :: r))) in H by discriminate; rewrite get_cons_0 in H; cbn [negb bind] in H; apply ok_inj in H as <-;
       repeat rewrite bit_flag by (exact B || (cbn; tauto)); reflexivity.
Qed.

(** What a signature reports: where it has a subpacket for an attribute, the value is what the RFC says the octets of the first one mean;
    and None where it has no such subpacket. (Partial: trust depth and amount, the reason for revocation and whether the signature is revocable
    are refuted below; and the RFC prefers the last of several.) *)
Theorem c113_reports_partial : forall data h u s p, holds_subpackets data h u -> read_as data s -> In p reported ->
  (forall d v, first_of (rfc_place p) (h ++ u) d -> rfc_says p d v -> get_prop s p = Ok v) /\
  (none_of (rfc_place p) (h ++ u) -> get_prop s p = Ok VNone).
Proof.
  intros data h u s p P R I. assert (G : fst (getter p) = rfc_place p) by (cbn [In reported] in I; repeat (destruct I as [<- | I]; [reflexivity|]); contradiction).
  destruct (read_objs data h u s P R (rfc_place p)) as (l & E & S). destruct (holds_read data h u P) as (W & _). unfold get_prop, get_value. rewrite G, S. split.
  - intros d v F Y. destruct (first_filter _ _ _ F) as (c & r & Q). rewrite Q in E. cbn [mapM] in E. apply bind_ok in E as (x & Hx & E). apply bind_ok in E as (y & Hy & E). apply ok_inj in E as <-. cbn [map].
    unfold SpecSig.sub_of in Hx. cbn [fst snd] in Hx. apply bind_ok in Hx as (b & Hb & Hx). apply ok_inj in Hx as <-. apply (says_body sig_from_content p d v c b I Y); [|exact Hb].
    destruct F as (a & c' & b' & EQ & _). rewrite EQ in W. apply Forall_app in W as [_ W]. exact (Forall_inv W).
  - intros N. rewrite (none_filter _ _ N) in E. apply ok_inj in E as <-. reflexivity.
Qed.
Print Assumptions c113_reports_partial.

Lemma one_type (ty : Z) (ts : list triple) : Forall (fun t : triple => fst (fst t) = ty) (filter (fun t : triple => fst (fst t) =? ty) ts).
Proof. apply Forall_forall. intros t I. apply filter_In in I as [_ I]. lia. Qed.
Lemma wf_filter f (ts : list triple) : Forall (fun t : triple => wf (snd t)) ts -> Forall (fun t : triple => wf (snd t)) (filter f ts).
Proof. rewrite !Forall_forall. intros F t I. apply filter_In in I as [I _]. auto. Qed.

(** Times: the creation time is the (local reading of the) big-endian number of the first subpacket of type 2, and a signature without one has
    none to report; the expiration time is that plus the number of seconds in the first of type 3, with 0 and a missing one meaning never. *)
Lemma first_time data h u s ty d : holds_subpackets data h u -> read_as data s -> In ty [2; 3; 9] -> first_of ty (h ++ u) d -> get_value s ty ATime = Ok (VInt (be_val d)).
Proof.
  intros P R I F. destruct (read_objs data h u s P R ty) as (l & E & S). unfold get_value. rewrite S. destruct (first_filter _ _ _ F) as (c & r & Q). rewrite Q in E. cbn [mapM] in E. apply bind_ok in E as (x & Hx & E). apply bind_ok in E as (y & Hy & E). apply ok_inj in E as <-. cbn [map].
  unfold SpecSig.sub_of in Hx. cbn [fst snd] in Hx. apply bind_ok in Hx as (b & Hb & Hx). apply ok_inj in Hx as <-. rewrite (time_parse _ _ _ I) in Hb. destruct (zlen d =? 4) eqn:L; [|discriminate Hb]. cbn [negb] in Hb. 
  pose proof (DumpTells.long_front d [] ltac:(lia)) as T. rewrite app_nil_r in T. rewrite T in Hb. apply ok_inj in Hb as <-. reflexivity.
Qed.
Lemma no_value data h u s ty a : holds_subpackets data h u -> read_as data s -> none_of ty (h ++ u) -> get_value s ty a = Ok VNone.
Proof. intros P R N. destruct (read_objs data h u s P R ty) as (l & E & S). unfold get_value. rewrite S. rewrite (none_filter _ _ N) in E. apply ok_inj in E as <-. reflexivity. Qed.
Theorem c113_times : forall local data h u s d, holds_subpackets data h u -> read_as data s -> first_of 2 (h ++ u) d ->
  get_creation_time local s = local (be_val d) /\
  (forall e c, first_of 3 (h ++ u) e -> local (be_val d) = Ok c -> get_expiration_time local s = Ok (if be_val e =? 0 then None else Some (c + be_val e * 1000000))) /\
  (none_of 3 (h ++ u) -> get_expiration_time local s = Ok None).
Proof.
  intros local data h u s d P R F. pose proof (first_time data h u s 2 d P R ltac:(cbn; tauto) F) as T.
  assert (C : get_creation_time local s = local (be_val d)) by (unfold get_creation_time; rewrite T; reflexivity). split; [exact C|]. split.
  - intros e c Fe Lc. unfold get_expiration_time. rewrite (first_time data h u s 3 e P R ltac:(cbn; tauto) Fe). cbn [bind truthy]. destruct (be_val e =? 0); [reflexivity|]. cbn [negb as_int bind]. rewrite C, Lc. reflexivity.
  - intros N. unfold get_expiration_time. rewrite (no_value data h u s 3 ATime P R N). reflexivity.
Qed.
Print Assumptions c113_times.
Theorem c113_no_creation_time_refuted : forall local data h u s, holds_subpackets data h u -> read_as data s -> none_of 2 (h ++ u) -> get_creation_time local s = Err TypeError.
Proof. intros local data h u s P R N. unfold get_creation_time. rewrite (no_value data h u s 2 ATime P R N). reflexivity. Qed.
Print Assumptions c113_no_creation_time_refuted.

(** Issuers: all the key ids of both areas, in order, as 16 hexadecimal digits each. *)
Theorem c113_issuers : forall data h u s, holds_subpackets data h u -> read_as data s -> get_issuer_key_ids s = Ok (map hex_text (all_of 16 (h ++ u))).
Proof.
  intros data h u s P R. destruct (read_objs data h u s P R 16) as (l & E & S). destruct (holds_read data h u P) as (W & _). apply (wf_filter (fun t : triple => fst (fst t) =? 16)) in W. pose proof (one_type 16 (h ++ u)) as T.
  unfold get_issuer_key_ids, get_values. rewrite S. unfold all_of. revert l E S W T. generalize (filter (fun t : triple => fst (fst t) =? 16) (h ++ u)). clear.
  intros ts. enough (K : forall l, mapM (SpecSig.sub_of sig_from_content) ts = Ok l -> Forall (fun t : triple => wf (snd t)) ts -> Forall (fun t : triple => fst (fst t) = 16) ts -> mapM (need AKeyId) (map obj_of l) = Ok (map (fun t => VText (hex_text (snd t))) ts)).
  { intros l E _ W T. rewrite (K l E W T). cbn [bind]. clear. induction ts as [|t ts IH]; [reflexivity|]. cbn [map texts mapM bind]. unfold texts in IH. rewrite IH. reflexivity. }
  induction ts as [|[[ty c] d] ts IH]; intros l E W T; [apply ok_inj in E as <-; reflexivity|]. cbn [mapM] in E. apply bind_ok in E as (x & Hx & E). apply bind_ok in E as (y & Hy & E). apply ok_inj in E as <-. cbn [map mapM].
  pose proof (Forall_inv T) as T1. pose proof (Forall_inv W) as W1. cbn [fst snd] in T1, W1. subst ty. unfold SpecSig.sub_of in Hx. cbn [fst snd] in Hx. apply bind_ok in Hx as (b & Hb & Hx). apply ok_inj in Hx as <-. rewrite issuer_parse in Hb. destruct (zlen d =? 8) eqn:L; [|discriminate Hb]. cbn [negb] in Hb.
  pose proof (bytearray_to_hex_at [] d [] 16 W1 ltac:(lia)) as Q. rewrite app_nil_r in Q. cbn [app] in Q. change (zlen (@nil Z)) with 0 in Q. rewrite Q in Hb. apply ok_inj in Hb as <-.
  rewrite (IH y Hy (Forall_inv_tail W) (Forall_inv_tail T)). reflexivity.
Qed.
Print Assumptions c113_issuers.

(** Notations that are not critical and human readable: names, name spaces and values, in order. *)
Lemma note_read t n x : rfc_note t n -> SpecSig.sub_of sig_from_content t = Ok x -> note_of (obj_of x) = Ok (Note (n_name n) (n_space n) true (n_value n)).
Proof.
  intros (f & nl & vl & name & value & nm & -> & L1 & L2 & L3 & L4 & S1 & S2 & Ff & Hh & N & <- & <- & Sp) H. unfold SpecSig.sub_of in H. cbn [fst snd] in H. rewrite (notation_parse _ f nl vl (utf8 name) (utf8 (n_value n)) Ff L1 L2 L3 L4) in H. apply ok_inj in H as <-.
  unfold notation_of. rewrite !decode_replace_utf8 by assumption. destruct Sp as [[-> ->]|(sp & -> & ->)]; [rewrite split_none by exact N|rewrite split_some by exact N]; reflexivity.
Qed.
Lemma notes_read ts ns l : Forall2 rfc_note ts ns -> mapM (SpecSig.sub_of sig_from_content) ts = Ok l -> mapM note_of (map obj_of l) = Ok (map (fun n => Note (n_name n) (n_space n) true (n_value n)) ns).
Proof.
  intros F. revert l. induction F as [|t n ts ns N _ IH]; intros l E; [apply ok_inj in E as <-; reflexivity|]. cbn [mapM] in E. apply bind_ok in E as (x & Hx & E). apply bind_ok in E as (y & Hy & E). apply ok_inj in E as <-. cbn [map mapM]. rewrite (note_read t n x N Hx). cbn [bind]. rewrite (IH y Hy). reflexivity.
Qed.
Theorem c113_notations_partial : forall data h u s ns, holds_subpackets data h u -> read_as data s ->
  Forall2 rfc_note (filter (fun t : triple => fst (fst t) =? 20) (h ++ u)) ns -> Forall (fun n => n_human n = true) ns -> get_notations s = Ok ns.
Proof.
  intros data h u s ns P R F H. destruct (read_objs data h u s P R 20) as (l & E & S). unfold get_notations. rewrite S, (notes_read _ _ _ F E). f_equal. clear -H. induction H as [|n ns N _ IH]; [reflexivity|]. cbn [map]. rewrite IH. destruct n. cbn in *. now subst.
Qed.
Print Assumptions c113_notations_partial.
(** refuted: a notation that is not human readable is reported as one that is *)
Theorem c113_binary_notation_refuted : forall data h u s ns, holds_subpackets data h u -> read_as data s ->
  Forall2 rfc_note (filter (fun t : triple => fst (fst t) =? 20) (h ++ u)) ns -> exists l, get_notations s = Ok l /\ Forall (fun n => n_human n = true) l /\ length l = length ns.
Proof.
  intros data h u s ns P R F. destruct (read_objs data h u s P R 20) as (l & E & S). unfold get_notations. rewrite S, (notes_read _ _ _ F E). eexists. split; [reflexivity|]. split; [|now rewrite map_length]. apply Forall_forall. intros n I. apply in_map_iff in I as (x & <- & _). reflexivity.
Qed.
Print Assumptions c113_binary_notation_refuted.

(** Regular expressions: the octets before the final zero, those beyond ASCII shown as U+FFFD. *)
Theorem c113_regexes : forall compile data h u s ps, holds_subpackets data h u -> read_as data s -> all_of 6 (h ++ u) = map (fun p => p ++ [0]) ps ->
  Forall (fun p => compile (map shown_octet p) = Ok tt) ps -> get_regexes compile s = Ok (map (map shown_octet) ps).
Proof.
  intros compile data h u s ps P R A C. destruct (read_objs data h u s P R 6) as (l & E & S). pose proof (one_type 6 (h ++ u)) as T. unfold all_of in A. unfold get_regexes, get_values. rewrite S.
  revert l ps E S A C T. generalize (filter (fun t : triple => fst (fst t) =? 6) (h ++ u)). clear.
  intros ts. assert (K : forall l ps, mapM (SpecSig.sub_of sig_from_content) ts = Ok l -> map snd ts = map (fun p => p ++ [0]) ps -> Forall (fun t : triple => fst (fst t) = 6) ts -> mapM (need APattern) (map obj_of l) = Ok (map (fun p => VText (map shown_octet p)) ps)).
  { induction ts as [|[[ty c] d] ts IH]; intros l ps E A T; [apply ok_inj in E as <-; destruct ps; [reflexivity|discriminate A]|]. cbn [mapM] in E. apply bind_ok in E as (x & Hx & E). apply bind_ok in E as (y & Hy & E). apply ok_inj in E as <-. cbn [map mapM] in *.
    destruct ps as [|p ps]; [discriminate A|]. cbn [map] in A. injection A as A1 A2. pose proof (Forall_inv T) as T1. cbn [fst snd] in T1, A1. subst ty d. unfold SpecSig.sub_of in Hx. cbn [fst snd] in Hx. apply bind_ok in Hx as (b & Hb & Hx). apply ok_inj in Hx as <-.
    change (subbody_from sig_from_content 6 (p ++ [0])) with (if negb (0 <? zlen (p ++ [0])) then Err AssertionError else do z <- get (p ++ [0]) (-1);; if negb (z =? 0) then Err AssertionError else Ok (SbRegex (ascii_decode_replace (slice (p ++ [0]) 0 (-1))))) in Hb.
    rewrite (proj2 (nonempty_len (p ++ [0]))) in Hb by now destruct p. cbn [negb] in Hb. rewrite get_last in Hb. cbn [bind Z.eqb negb] in Hb. apply ok_inj in Hb as <-.
    replace (slice (p ++ [0]) 0 (-1)) with p.
    2: { symmetry. exact (MsgEncProofs.slice_but_last p 0). }
    rewrite (IH y ps Hy A2 (Forall_inv_tail T)). reflexivity. }
  intros l ps E _ A C T. rewrite (K l ps E A T). cbn [bind]. unfold texts. assert (Q : forall qs, mapM (fun v => match v with VText t => Ok t | _ => Err TypeError end) (map (fun p : list Z => VText (map shown_octet p)) qs) = Ok (map (map shown_octet) qs)).
  { clear. induction qs as [|q qs IH]; [reflexivity|]. cbn [map mapM bind]. rewrite IH. reflexivity. }
  rewrite Q. cbn [bind]. assert (M : exists r, mapM compile (map (map shown_octet) ps) = Ok r). { apply mapM_all. apply Forall_map. eapply Forall_impl; [|exact C]. cbv beta. intros a ->. eauto. } destruct M as [r ->]. reflexivity.
Qed.
Print Assumptions c113_regexes.
(** refuted: they are written without that zero (and other characters than ASCII as question marks), so that none of them can be read again
    unless it ends in one *)
Theorem c113_regex_written_refuted : forall fl c p, zlen p < 4294967295 -> exists enc, sub_bytes fl (Sub 6 c (SbRegex p)) = Ok enc /\ rfc_sub 6 c (map written_char p) enc /\
  ((forall q, p <> q ++ [0]) -> forall s o, sub_from_data sig_from_content enc 0 <> Ok (s, o)).
Proof.
  intros fl c p L. destruct (sub_frame_rfc 6 c (map written_char p)) as (enc & E & R & _); [lia|unfold zlen in *; rewrite map_length; exact L|]. exists enc. split; [exact E|]. split; [exact R|]. intros N s o H.
  pose proof (sub_at sig_from_content 6 c _ enc [] [] R) as Q. rewrite app_nil_r in Q. cbn [app] in Q. change (zlen (@nil Z)) with 0 in Q. rewrite Q in H. apply bind_ok in H as (b & H & _).
  assert (A : map written_char p <> [] -> exists q z, p = q ++ [z] /\ map written_char p = map written_char q ++ [written_char z]).
  { intros M. destruct (exists_last (l := p)) as (q & z & ->); [intros ->; apply M; reflexivity|]. exists q, z. split; [reflexivity|]. apply map_app. }
  change (subbody_from sig_from_content 6 (map written_char p)) with (if negb (0 <? zlen (map written_char p)) then Err AssertionError else do z <- get (map written_char p) (-1);; if negb (z =? 0) then Err AssertionError else Ok (SbRegex (ascii_decode_replace (slice (map written_char p) 0 (-1))))) in H.
  destruct (0 <? zlen (map written_char p)) eqn:Z; [|discriminate H]. destruct (A (proj1 (nonempty_len _) Z)) as (q & z & -> & Em). rewrite Em in H. rewrite get_last in H. cbn [negb bind] in H. destruct (written_char z =? 0) eqn:Zz; [|discriminate H]. apply (N q). unfold written_char in Zz. destruct (z <? 128); [|lia]. f_equal. f_equal. lia.
Qed.
Print Assumptions c113_regex_written_refuted.

(** refuted: the RFC recommends the last of several conflicting subpackets; the first is reported *)
Theorem c113_last_refuted : forall data h u s p d d' v v', holds_subpackets data h u -> read_as data s -> In p reported -> first_of (rfc_place p) (h ++ u) d -> rfc_says p d v ->
  (exists a c b, h ++ u = a ++ (rfc_place p, c, d') :: b /\ none_of (rfc_place p) b) -> rfc_says p d' v' -> v <> v' -> get_prop s p <> Ok v'.
Proof. intros data h u s p d d' v v' P R I F S _ _ N H. rewrite (proj1 (c113_reports_partial data h u s p P R I) d v F S) in H. apply ok_inj in H. auto. Qed.
Print Assumptions c113_last_refuted.
(** refuted: a signature with a trust subpacket cannot tell its trust depth or amount, nor its reason for revocation *)
Theorem c113_trust_refuted : forall data h u s p d, holds_subpackets data h u -> read_as data s -> In p [P_trust_depth; P_trust_amount; P_revocation_reason] -> first_of 5 (h ++ u) d -> get_prop s p = Err AttributeError.
Proof.
  intros data h u s p d P R I F. destruct (read_objs data h u s P R 5) as (l & E & S). destruct (first_filter _ _ _ F) as (c & r & Q). rewrite Q in E. cbn [mapM] in E. apply bind_ok in E as (x & Hx & E). apply bind_ok in E as (y & Hy & E). apply ok_inj in E as <-. cbn [map] in S.
  unfold SpecSig.sub_of in Hx. cbn [fst snd] in Hx. apply bind_ok in Hx as (b & Hb & Hx). apply ok_inj in Hx as <-.
  change (subbody_from sig_from_content 5 d) with (if negb (zlen d =? 2) then Err AssertionError else do a <- get d 0;; do b <- get d 1;; Ok (SbTrust a b)) in Hb. destruct (zlen d =? 2); [|discriminate Hb]. cbn [negb] in Hb. apply bind_ok in Hb as (z1 & _ & Hb). apply bind_ok in Hb as (z2 & _ & Hb). apply ok_inj in Hb as <-.
  cbn [In] in I. destruct I as [<- | [<- | [<- | []]]]; unfold get_prop, get_value; cbn [getter fst snd]; rewrite S; reflexivity.
Qed.
Print Assumptions c113_trust_refuted.
(** refuted: whether a signature can be revoked is never reported: the attribute repeats whether it can be exported; and a reason for revocation is None *)
Theorem c113_revocable_refuted : forall data h u s d v, holds_subpackets data h u -> read_as data s ->
  (first_of 7 (h ++ u) d -> rfc_says P_revocable d v -> none_of 4 (h ++ u) -> get_prop s P_revocable = Ok VNone) /\
  (forall e w, first_of 4 (h ++ u) e -> rfc_says P_exportable e w -> get_prop s P_revocable = Ok w) /\
  (first_of 29 (h ++ u) d -> rfc_says P_revocation_reason d v -> none_of 5 (h ++ u) -> get_prop s P_revocation_reason = Ok VNone).
Proof.
  intros data h u s d v P R. split; [|split].
  - intros _ _ N. exact (no_value data h u s 4 AExportable P R N).
  - intros e w F S. exact (proj1 (c113_reports_partial data h u s P_exportable P R ltac:(cbn; tauto)) e w F S).
  - intros _ _ N. exact (no_value data h u s 5 AReason P R N).
Qed.
Print Assumptions c113_revocable_refuted.
(** refuted: of the digest of a signature target, and of the fingerprint of an additional recipient, half is read *)
Theorem c113_half_refuted : forall c enc s o, sub_from_data sig_from_content enc 0 = Ok (s, o) ->
  (forall a h r, wf (a :: h :: r) -> rfc_sub 31 c (a :: h :: r) enc -> exists n, s = Sub 31 c (SbTarget a h (hex_text (firstn (Z.to_nat (zlen r / 2)) r)) n)) /\
  (forall a b f, wf (a :: b :: f) -> zlen f = 20 -> rfc_sub 10 c (a :: b :: f) enc -> s = Sub 10 c (SbAddRecip (flag a 7) b (hex_text (firstn 10 f)))).
Proof.
  intros c enc s o H. split.
  - intros a h r W R. pose proof (sub_at sig_from_content 31 c _ enc [] [] R) as Q. rewrite app_nil_r in Q. cbn [app] in Q. change (zlen (@nil Z)) with 0 in Q. rewrite Q in H. apply bind_ok in H as (b & H & HH). apply ok_inj in HH. injection HH as <- _.
    change (subbody_from sig_from_content 31 (a :: h :: r)) with (if negb (2 <? zlen (a :: h :: r)) then Err AssertionError else do a <- get (a :: h :: r) 0;; do h' <- get (a :: h :: r) 1;;
      do l <- (match hash_lengths h' with None => Ok (zlen (a :: h :: r) - 2) | Some n => if n =? zlen (a :: h :: r) - 2 then Ok n else Err AssertionError end);; do x <- bytearray_to_hex (a :: h :: r) 2 (Some (zlen (a :: h :: r) - 2));; Ok (SbTarget a h' x (Some l))) in H.
    destruct (2 <? zlen (a :: h :: r)); [|discriminate H]. cbn [negb] in H. apply bind_ok in H as (a' & Ha & H). apply bind_ok in H as (h' & Hh & H). apply bind_ok in H as (l & _ & H). apply bind_ok in H as (x & Hx & H). apply ok_inj in H as <-.
    rewrite get_cons_0 in Ha. apply ok_inj in Ha as <-. rewrite get_cons_S in Hh by lia. cbn [Z.sub] in Hh. rewrite get_cons_0 in Hh. apply ok_inj in Hh as <-. exists (Some l). do 2 f_equal.
    rewrite !zlen_cons in Hx. replace (1 + (1 + zlen r) - 2) with (zlen r) in Hx by lia. destruct (Z.even (zlen r)) eqn:Ev.
    + pose proof (Zmod_even (zlen r)) as M. rewrite Ev in M. rewrite <- (firstn_skipn (Z.to_nat (zlen r / 2)) r) in Hx at 1. rewrite hex_after2 in Hx; [now apply ok_inj in Hx as <-| |].
      * apply Forall_inv_tail, Forall_inv_tail in W. rewrite <- (firstn_skipn (Z.to_nat (zlen r / 2)) r) in W. now apply wf_app in W.
      * unfold zlen in *. rewrite firstn_length. lia.
    + unfold bytearray_to_hex in Hx. pose proof (Zmod_even (zlen r)) as M. rewrite Ev in M. rewrite M in Hx. discriminate Hx.
  - intros a b f W L R. pose proof (sub_at sig_from_content 10 c _ enc [] [] R) as Q. rewrite app_nil_r in Q. cbn [app] in Q. change (zlen (@nil Z)) with 0 in Q. rewrite Q in H. apply bind_ok in H as (b' & H & HH). apply ok_inj in HH. injection HH as <- _.
    change (subbody_from sig_from_content 10 (a :: b :: f)) with (do c <- get (a :: b :: f) 0;; do a' <- get (a :: b :: f) 1;; do f' <- bytearray_to_hex (a :: b :: f) 2 (Some 20);; Ok (SbAddRecip (bit c (2 ^ 7)) a' f')) in H.
    rewrite get_cons_0 in H. cbn [bind] in H. rewrite get_cons_S in H by lia. cbn [Z.sub] in H. rewrite get_cons_0 in H. cbn [bind] in H. rewrite <- (firstn_skipn 10 f) in H at 1. rewrite hex_after2 in H.
    + apply ok_inj in H as <-. rewrite bit_flag; [reflexivity|exact (Forall_inv W)|cbn; tauto].
    + apply Forall_inv_tail, Forall_inv_tail in W. rewrite <- (firstn_skipn 10 f) in W. now apply wf_app in W.
    + unfold zlen in *. rewrite firstn_length. lia.
Qed.
Print Assumptions c113_half_refuted.

(** A concrete signature: creation time, flags, a notation, a regular expression, two conflicting primary user id subpackets, an issuer. *)
Definition sv_h : list triple := [(2, false, [0; 0; 3; 232]); (27, true, [35]); (20, false, [128; 0; 0; 0; 0; 3; 0; 1; 97; 64; 98; 99]); (6, false, [97; 200; 0]); (25, false, [1]); (25, false, [0]); (7, false, [0])].
Definition sv_u : list triple := [(16, false, [1; 2; 3; 4; 5; 6; 7; 171])].
Definition sv_e1 : list bytes := [[5; 2; 0; 0; 3; 232]; [2; 155; 35]; [13; 20; 128; 0; 0; 0; 0; 3; 0; 1; 97; 64; 98; 99]; [4; 6; 97; 200; 0]; [2; 25; 1]; [2; 25; 0]; [2; 7; 0]].
Definition sv_e2 : list bytes := [[9; 16; 1; 2; 3; 4; 5; 6; 7; 171]].
Definition sv_data : bytes := [4; 16; 1; 2] ++ [0; 37] ++ concat sv_e1 ++ [0; 10] ++ concat sv_e2 ++ [17; 34] ++ [0; 3; 5].
Lemma sv_sub ty c d enc : 0 <= ty < 128 -> zlen d + 1 < 192 -> enc = (zlen d + 1) :: (ty + (if c : bool then 128 else 0)) :: d -> rfc_sub ty c d enc.
Proof. intros T L ->. split; [exact T|]. exists [zlen d + 1]. split; [|reflexivity]. pose proof (zlen_nonneg d). constructor. lia. Qed.
Example sv_holds : holds_subpackets sv_data sv_h sv_u.
Proof.
  exists 16, 1, 2, sv_e1, sv_e2, [17; 34], [5], [[0; 3; 5]]. split; [|split; [|split]].
  - unfold rfc_area, sv_h, sv_e1. repeat (constructor; [apply sv_sub; [cbn; lia|reflexivity|reflexivity]|]). constructor.
  - unfold rfc_area, sv_u, sv_e2. repeat (constructor; [apply sv_sub; [cbn; lia|reflexivity|reflexivity]|]). constructor.
  - repeat constructor. exists [0; 3], [5]. repeat split; repeat constructor; lia.
  - exists [0; 37], [0; 10]. split; [reflexivity|]. repeat (split; [reflexivity|]). apply Forall_forall. intros x I. assert (F : forallb (fun x => (0 <=? x) && (x <? 256)) sv_data = true) by reflexivity. rewrite forallb_forall in F. specialize (F x I). unfold byte. lia.
Qed.
Example sv_read : exists s, read_as sv_data s /\ get_prop s P_sign = Ok (VBool true) /\ get_prop s P_comms = Ok (VBool false) /\ get_prop s P_auth = Ok (VBool true) /\ get_prop s P_primary_user_id = Ok (VBool true) /\ get_prop s P_revocable = Ok VNone /\
  get_issuer_key_ids s = Ok [str "01020304050607AB"] /\ get_notations s = Ok [Note [97] (Some [98]) true [99]] /\ get_regexes (fun _ => Ok tt) s = Ok [[97; 65533]].
Proof. eexists. split; [do 8 eexists; split; [vm_compute; reflexivity|reflexivity]|]. repeat (split; [vm_compute; reflexivity|]). vm_compute. reflexivity. Qed.
Example sv_hyps : first_of 25 (sv_h ++ sv_u) [1] /\ rfc_says P_primary_user_id [1] (VBool true) /\ first_of 27 (sv_h ++ sv_u) [35] /\ rfc_says P_auth [35] (VBool true) /\ none_of 5 (sv_h ++ sv_u) /\
  all_of 6 (sv_h ++ sv_u) = map (fun p => p ++ [0]) [[97; 200]] /\ exists n, Forall2 rfc_note (filter (fun t : triple => fst (fst t) =? 20) (sv_h ++ sv_u)) [n] /\ n_human n = true.
Proof.
  split; [exists [(2, false, [0; 0; 3; 232]); (27, true, [35]); (20, false, [128; 0; 0; 0; 0; 3; 0; 1; 97; 64; 98; 99]); (6, false, [97; 200; 0])], false; eexists; split; [reflexivity|repeat constructor; cbn; discriminate]|].
  split; [right; split; reflexivity|]. split; [exists [(2, false, [0; 0; 3; 232])], true; eexists; split; [reflexivity|repeat constructor; cbn; discriminate]|]. split; [exists 35, []; split; reflexivity|].
  split; [repeat constructor; cbn; discriminate|]. split; [reflexivity|].
  exists (Note [97] (Some [98]) true [99]). split; [|reflexivity]. constructor; [|constructor]. exists 128, [0; 3], [0; 1], [97; 64; 98], [99], [97]. 
  split; [reflexivity|]. repeat (split; [reflexivity|]). split; [repeat constructor; unfold scalar; lia|]. split; [repeat constructor; unfold scalar; lia|]. split; [now right|]. split; [reflexivity|]. split; [cbn; lia|]. split; [reflexivity|]. split; [reflexivity|]. right. exists [98]. split; reflexivity.
Qed.
