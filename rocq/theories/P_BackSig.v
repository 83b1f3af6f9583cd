(** C96: back signatures of subkeys *)
From Verif Require Import Base BaseProofs Text SigPackets SigAttrs SigLists SelfSig SpecAttrs BackSig SpecBackSig.

Lemma obj_ty s : so_type (obj_of s) = sub_type s.
Proof. destruct s as [ty c b]; destruct b; reflexivity. Qed.
Lemma subs_filter hs us ty : get_subs (sig_obj_of hs us) ty = map obj_of (filter (fun s => sub_type s =? ty) (hs ++ us)).
Proof.
  unfold get_subs, sig_obj_of. cbn [so_hashed so_unhashed]. rewrite <- map_app. induction (hs ++ us) as [|s l IH]; [reflexivity|].
  cbn. rewrite obj_ty. destruct (sub_type s =? ty); cbn; [f_equal|]; exact IH.
Qed.
Definition emb_body (s : subpkt) : embedded := match s with Sub _ _ (SbEmbedded g) => Emb true g | _ => Emb true (SigV4 0 0 0 0 [] [] [] []) end.
Lemma classed_32 s : well_classed s -> sub_type s = 32 -> exists c g, s = Sub 32 c (SbEmbedded g).
Proof.
  destruct s as [ty c b]. unfold well_classed. cbn. intros W ->. destruct b; cbn in W; try (exfalso; lia).
  now exists c, s.
Qed.
Lemma classed_27 s : well_classed s -> sub_type s = 27 -> exists c a1 a2 a3 a4 a5 a6 a7, s = Sub 27 c (SbFlags a1 a2 a3 a4 a5 a6 a7).
Proof.
  destruct s as [ty c b]. unfold well_classed. cbn. intros W ->. destruct b; cbn in W; try (exfalso; lia).
  now exists c, certify, sign, comms, storage, auth, split, multi.
Qed.
Lemma embedded_ok hs us : Forall well_classed (hs ++ us) -> get_embedded (sig_obj_of hs us) = Ok (map emb_body (filter (fun s => sub_type s =? 32) (hs ++ us))).
Proof.
  intros W. unfold get_embedded. rewrite subs_filter. induction (hs ++ us) as [|s l IH]; [reflexivity|]. cbn. pose proof (Forall_inv W) as W0. apply Forall_inv_tail in W.
  destruct (sub_type s =? 32) eqn:E; [|now apply IH]. apply Z.eqb_eq in E. destruct (classed_32 _ W0 E) as (c & g & ->). cbn. rewrite IH by exact W. reflexivity.
Qed.
Lemma back_ok h t l : back_loop h t l = Ok tt <-> ~ exists e, In e l /\ emb_type e = 25.
Proof.
  induction l as [|e l IH]; cbn [back_loop].
  - split; [intros _ (e & [] & _)|reflexivity].
  - destruct (emb_type e =? 25) eqn:E.
    + split.
      * destruct h; cbn; [|discriminate]. destruct t; cbn; discriminate.
      * intros N. exfalso. apply N. exists e. split; [now left|now apply Z.eqb_eq].
    + rewrite IH. apply Z.eqb_neq in E. split; intros N (x & X & K); apply N.
      * destruct X as [<-|X]; [contradiction|]. now exists x.
      * exists x. split; [now right|exact K].
Qed.
Lemma back_iff l : Forall well_classed l ->
  ((exists e, In e (map emb_body (filter (fun s => sub_type s =? 32) l)) /\ emb_type e = 25) <-> has_back_signature l).
Proof.
  intros W. split.
  - intros (e & I & T). apply in_map_iff in I as (s & <- & I). apply filter_In in I as (I & K). apply Z.eqb_eq in K.
    destruct (classed_32 s (proj1 (Forall_forall _ _) W s I) K) as (c & g & ->). exists c, g. split; [exact I|exact T].
  - intros (c & g & I & T). exists (Emb true g). split; [|exact T]. apply in_map_iff. exists (Sub 32 c (SbEmbedded g)). split; [reflexivity|]. apply filter_In. now split.
Qed.
Lemma sign_value hs us : Forall well_classed (hs ++ us) -> exists v, get_prop (sig_obj_of hs us) P_sign = Ok v /\ (truthy v = true <-> for_signing (hs ++ us)).
Proof.
  intros W. unfold get_prop, get_value. cbn [fst snd getter]. rewrite subs_filter. induction (hs ++ us) as [|s l IH].
  - exists VNone. split; [reflexivity|]. split; [discriminate|]. intros (b & c & ? & ? & ? & ? & ? & ? & r & E & _). destruct b; discriminate.
  - cbn. pose proof (Forall_inv W) as W0. apply Forall_inv_tail in W. destruct (sub_type s =? 27) eqn:E.
    + apply Z.eqb_eq in E. destruct (classed_27 _ W0 E) as (c & a1 & a2 & a3 & a4 & a5 & a6 & a7 & ->). cbn. exists (VBool a2). split; [reflexivity|]. cbn. split.
      * intros ->. now exists [], c, a1, a3, a4, a5, a6, a7, l.
      * intros (b & c' & b1 & b3 & b4 & b5 & b6 & b7 & r & Q & F). destruct b as [|x b]; [now inversion Q|]. inversion Q; subst x. apply Forall_inv in F. cbn in F. lia.
    + destruct (IH W) as (v & V & K). exists v. split; [exact V|]. rewrite K. apply Z.eqb_neq in E. split.
      * intros (b & c' & b1 & b3 & b4 & b5 & b6 & b7 & r & Q & F). exists (s :: b), c', b1, b3, b4, b5, b6, b7, r. split; [now rewrite Q|]. constructor; [exact E|exact F].
      * intros (b & c' & b1 & b3 & b4 & b5 & b6 & b7 & r & Q & F). destruct b as [|x b]; [inversion Q; subst s; cbn in E; lia|]. inversion Q; subst x. exists b, c', b1, b3, b4, b5, b6, b7, r.
        split; [reflexivity|now apply Forall_inv_tail in F].
Qed.
(** C96a. For every binding signature read from a packet, whatever else is on the subkey: the check passes exactly if the signature
    does not allow the subkey to sign and contains no back signature. *)
Theorem c96_passes : forall fl sigs i s hashed unhashed, from_packet s hashed unhashed ->
  (check_back_signatures fl sigs i s = Ok tt <-> ~ for_signing (hashed ++ unhashed) /\ ~ has_back_signature (hashed ++ unhashed)).
Proof.
  intros fl sigs i s hs us (Wh & Wu & ->). assert (W : Forall well_classed (hs ++ us)) by now apply Forall_app.
  unfold check_back_signatures. rewrite (embedded_ok hs us W). cbn [bind].
  set (L := map _ _). destruct (back_loop _ _ L) as [[]|e] eqn:B; cbn [bind].
  - apply back_ok in B. unfold L in B. rewrite back_iff in B by exact W. destruct (sign_value hs us W) as (v & -> & K). cbn [bind].
    destruct (truthy v); split; [discriminate|intros [N _]; exfalso; apply N, K; reflexivity| |reflexivity]. intros _. split; [|exact B]. intros F. apply K in F. discriminate.
  - split; [discriminate|]. intros [_ N]. rewrite <- back_iff in N by exact W. fold L in N. apply (back_ok (hashed_octets fl (sig_obj_of hs us)) (target_of sigs i (sig_obj_of hs us)) L) in N. congruence.
Qed.
Print Assumptions c96_passes.
Example c96_met : from_packet (sig_obj_of [Sub 27 false (SbFlags false false true true false false false)] []) [Sub 27 false (SbFlags false false true true false false false)] [].
Proof. split; [|split; [constructor|reflexivity]]. constructor; [reflexivity|constructor]. Qed.
(** C96b. The binding signature of a subkey that may sign is refused without a back signature, with the exception made for it. *)
Theorem c96_missing : forall fl sigs i s hashed unhashed, from_packet s hashed unhashed -> for_signing (hashed ++ unhashed) ->
  ~ has_back_signature (hashed ++ unhashed) -> check_back_signatures fl sigs i s = Err MissingBackSignature.
Proof.
  intros fl sigs i s hs us (Wh & Wu & ->) F N. assert (W : Forall well_classed (hs ++ us)) by now apply Forall_app.
  unfold check_back_signatures. rewrite (embedded_ok hs us W). cbn [bind]. rewrite (proj2 (back_ok _ _ _)) by (rewrite back_iff by exact W; exact N). cbn [bind].
  destruct (sign_value hs us W) as (v & -> & K). cbn [bind]. now rewrite (proj2 K F).
Qed.
Print Assumptions c96_missing.
(** C96c. ... and it is refused as well, by a TypeError or an error met before, if there is one: no such subkey ever passes. *)
Theorem c96_present_refuted : forall fl sigs i s hashed unhashed, from_packet s hashed unhashed -> has_back_signature (hashed ++ unhashed) ->
  check_back_signatures fl sigs i s <> Ok tt /\
  (forall o t, hashed_octets fl s = Ok o -> target_of sigs i s = Ok t -> check_back_signatures fl sigs i s = Err TypeError).
Proof.
  intros fl sigs i s hs us P H. split; [intros K; now apply (c96_passes fl sigs i s hs us P) in K as [_ K]|].
  destruct P as (Wh & Wu & ->). assert (W : Forall well_classed (hs ++ us)) by now apply Forall_app. intros o t O T.
  unfold check_back_signatures. rewrite (embedded_ok hs us W), O, T. cbn [bind]. rewrite <- back_iff in H by exact W.
  enough (back_loop (Ok o) (Ok t) (map emb_body (filter (fun s => sub_type s =? 32) (hs ++ us))) = Err TypeError) as -> by reflexivity.
  clear O T. induction (map emb_body _) as [|e l IH]; [destruct H as (e & [] & _)|]. cbn [back_loop]. destruct (emb_type e =? 25) eqn:E; [reflexivity|]. apply IH.
  destruct H as (x & [<-|X] & K); [apply Z.eqb_neq in E; contradiction|]. now exists x.
Qed.
Print Assumptions c96_present_refuted.
Example c96_present_met : has_back_signature [Sub 27 false (SbFlags false true false false false false false); Sub 32 false (SbEmbedded (SigV4 4 25 1 8 [0; 0] [5] [] []))]
  /\ for_signing [Sub 27 false (SbFlags false true false false false false false); Sub 32 false (SbEmbedded (SigV4 4 25 1 8 [0; 0] [5] [] []))].
Proof.
  split; [exists false, (SigV4 4 25 1 8 [0; 0] [5] [] []); split; [right; left; reflexivity|reflexivity]|].
  exists [], false, false, false, false, false, false, false. eexists. split; [reflexivity|constructor].
Qed.
