(** C111: an accepted signature is bound to the data, the type and the hashed attributes it was made for. *)
From Verif Require Import Base BaseProofs Spec Utils UtilsProofs S2k KeyPackets KeyProofs SigPackets SpecSig SigProofs Signable SpecSigned SignedProofs KeyOps SpecVerify VerifyProofs SignVerify DemoRsa P_Verify SpecBound.
From Verif Require SigAttrs SpecAttrs AttrsProofs P_Attrs P_Sig.

(** ** RFC 4880's prefixes tell the hash functions apart *)
Theorem c111_prefixes : forall H, tells_hashes H rfc_oid.
Proof.
  intros H ha ha' d d' L L' E.
  assert (C : forall x, hash_lengths x <> None -> x = 1 \/ x = 2 \/ x = 3 \/ x = 8 \/ x = 9 \/ x = 10 \/ x = 11).
  { clear. intros x. unfold hash_lengths. repeat match goal with |- context [x =? ?y] => destruct (x =? y) eqn:? end; intros N; try lia; now elim N. }
  apply C in L. apply C in L'. clear C.
  destruct L as [->|[->|[->|[->|[->|[->| ->]]]]]], L' as [->|[->|[->|[->|[->|[->| ->]]]]]]; try reflexivity; exfalso; apply (f_equal (firstn 9)) in E; vm_compute in E; discriminate E.
Qed.
Print Assumptions c111_prefixes.

Lemma ff_inj ps : forall ps' t t', Forall (eq 255) ps -> Forall (eq 255) ps' -> ps ++ [0] ++ t = ps' ++ [0] ++ t' -> t = t'.
Proof.
  induction ps as [|x ps IH]; intros [|y ps'] t t' F F' E; cbn [app] in E.
  - congruence.
  - inversion F'; subst. discriminate E.
  - inversion F; subst. discriminate E.
  - injection E as _ E. exact (IH ps' t t' (Forall_inv_tail F) (Forall_inv_tail F') E).
Qed.
Lemma em_inj k t t' em em' : wf t -> wf t' -> rfc_em k t em -> rfc_em k t' em' -> be_val em = be_val em' -> t = t'.
Proof.
  intros W W' (ps & E & F & _ & L) (ps' & E' & F' & _ & L') B.
  assert (Wp : forall l, Forall (eq 255) l -> wf l) by (intros l G; induction G as [|x l <- _ IH]; constructor; [unfold byte; lia|exact IH]).
  assert (X : em = em').
  { assert (Wem : forall q t, Forall (eq 255) q -> wf t -> wf ([0; 1] ++ q ++ [0] ++ t)).
    { intros q u G Wu. cbn [app]. apply Forall_cons; [unfold byte; lia|]. apply Forall_cons; [unfold byte; lia|]. apply Forall_app. split; [apply Wp, G|]. apply Forall_cons; [unfold byte; lia|exact Wu]. }
    apply be_val_inj; [rewrite E; now apply Wem|rewrite E'; now apply Wem|lia|exact B]. }
  subst em em'. injection X as X. exact (ff_inj ps ps' t t' F F' X).
Qed.
Lemma rsa_digest oid k ha ha' d d' x r r' : wf (oid ha ++ d) -> wf (oid ha' ++ d') -> In (k_alg k) [1; 3] -> pk_valid oid k ha d (x :: r) -> pk_valid oid k ha' d' (x :: r') -> oid ha ++ d = oid ha' ++ d'.
Proof.
  intros W W' A V V'. inversion V as [n e kb em s rest _ Hn He O M P Q|p q g y qb w r0 s A' _ _ _ _ _ _ _ _ _ Q]; subst; [|rewrite A' in A; cbn in A; lia].
  inversion V' as [n' e' kb' em' s' rest' _ Hn' He' O' M' P' Q'|p q g y qb w r0 s A' _ _ _ _ _ _ _ _ _ Q]; subst; [|rewrite A' in A; cbn in A; lia].
  rewrite Hn in Hn'. injection Hn' as <-. rewrite He in He'. injection He' as <-. rewrite (octets_unique _ _ _ O' O) in M'. rewrite P in P'. exact (em_inj kb _ _ em em' W W' M M' P').
Qed.
Lemma rfc_lib fl i c : covers fl i c -> lib_covered 4 c = Ok (rfc_covered 4 c).
Proof. destruct i; cbn [covers]; intros C; repeat match goal with C : exists _, _ |- _ => destruct C as (? & C) | C : _ /\ _ |- _ => destruct C as (? & C) end; try contradiction; subst c; reflexivity. Qed.
Lemma octets_same st pk ha h c st' pk' ha' h' c' : zlen h < 65536 -> zlen h' < 65536 -> rfc_v4_octets st pk ha h c = rfc_v4_octets st' pk' ha' h' c' -> rfc_covered 4 c = rfc_covered 4 c' /\ st = st' /\ pk = pk' /\ ha = ha' /\ h = h'.
Proof.
  intros L L' E. unfold rfc_v4_octets in E.
  assert (Z0 : forall a b d (x : bytes), zlen ([4; a; b; d] ++ be_bytes 2 (zlen x) ++ x) = zlen x + 6) by (intros; rewrite !zlen_app, be_bytes_len; change (zlen [4; a; b; d]) with 4; lia).
  rewrite !Z0 in E. apply (v4_trailer_inj (rfc_covered 4 c) (rfc_covered 4 c') st pk ha h st' pk' ha' h' 4); [change (2 ^ 32) with 4294967296; lia|change (2 ^ 32) with 4294967296; lia|].
  rewrite <- !app_assoc in E. exact E.
Qed.

(** C111 (RSA). If one integer is accepted as a signature twice - by whatever signature objects, over whatever data - then both name the same hash function,
    which gives the same digest for the two sequences of octets signed; and these are the same octets exactly if the signature type, the algorithm, the hashed
    subpackets and the data are the same. So another use of a signature takes a collision of the hash function. *)
Theorem c111_bound_partial : forall fl md5 sha1 H oid inv elg k s s' i i' c c' x r r',
  library_hashes H oid -> library_numbers fl inv k -> tells_hashes H oid -> In (k_alg k) [1; 3] -> so_version s = 4 -> so_version s' = 4 ->
  so_values s = x :: r -> so_values s' = x :: r' -> Forall (fun v => 0 <= v) (so_values s) -> Forall (fun v => 0 <= v) (so_values s') ->
  covers fl i c -> covers fl i' c' -> fits (so_type s) c -> fits (so_type s') c' -> sized c -> sized c' -> short_area fl s -> short_area fl s' ->
  verify fl md5 sha1 H oid inv elg k s i = Ok true -> verify fl md5 sha1 H oid inv elg k s' i' = Ok true ->
  exists o o', signed_octets fl s c o /\ signed_octets fl s' c' o' /\ so_hash s = so_hash s' /\ H (so_hash s) o = H (so_hash s) o' /\
    (o = o' <-> so_type s = so_type s' /\ so_pk s = so_pk s' /\ subs_bytes fl (so_hashed s) = subs_bytes fl (so_hashed s') /\ c = c').
Proof.
  intros fl md5 sha1 H oid inv elg k s s' i i' c c' x r r' LH LN TH A V V' X X' NN NN' C C' F F' S S' Sh Sh' E E'.
  assert (A20 : k_alg k <> 20) by (cbn in A; lia).
  assert (Hs : hash_supported (so_hash s) = true) by (apply verify_inv in E as (? & ? & ? & ? & _ & _ & _ & _ & _ & Y & _); exact Y).
  assert (Hs' : hash_supported (so_hash s') = true) by (apply verify_inv in E' as (? & ? & ? & ? & _ & _ & _ & _ & _ & Y & _); exact Y).
  destruct (c51_accepted_only_if_valid_partial fl md5 sha1 H oid inv elg k s i c LH LN V A20 NN C E) as (kid & h & _ & _ & Al & B & _ & P).
  destruct (c51_accepted_only_if_valid_partial fl md5 sha1 H oid inv elg k s' i' c' LH LN V' A20 NN' C' E') as (kid' & h' & _ & _ & Al' & B' & _ & P').
  rewrite X in P. rewrite X' in P'. destruct LH as (Ow & Hw & _).
  assert (W : forall ha d, wf (oid ha ++ H ha d)) by (intros; apply Forall_app; split; [apply Ow|apply Hw]).
  pose proof (rsa_digest oid k _ _ _ _ x r r' (W _ _) (W _ _) A P P') as D.
  assert (Ha : so_hash s = so_hash s').
  { assert (Sp : forall z, hash_supported z = true -> hash_lengths z <> None) by (intros z Y Y2; unfold hash_supported in Y; rewrite Y2 in Y; discriminate Y).
    exact (TH _ _ _ _ (Sp _ Hs) (Sp _ Hs') D). }
  exists (rfc_v4_octets (so_type s) (so_pk s) (so_hash s) h c), (rfc_v4_octets (so_type s') (so_pk s') (so_hash s') h' c'). split; [exists h; auto|]. split; [exists h'; auto|]. split; [exact Ha|]. split.
  - rewrite <- Ha in D |- *. exact (app_inv_head _ _ _ D).
  - split.
    + intros Q. destruct (octets_same _ _ _ _ _ _ _ _ _ _ (Sh h B) (Sh' h' B') Q) as (Qc & Qt & Qp & _ & Qh). split; [exact Qt|]. split; [exact Qp|]. split; [congruence|].
      rewrite <- Qt in F'. exact (lib_covered_v4_inj 4 c c' (so_type s) _ _ ltac:(lia) F F' S S' (rfc_lib fl i c C) (rfc_lib fl i' c' C') Qc).
    + intros (Qt & Qp & Qh & Qc). assert (h = h') by congruence. congruence.
Qed.
Print Assumptions c111_bound_partial.

(** ** Changing an attribute of a signature *)
Lemma area_inj fl l l' : Forall (sub_ok fl) l -> Forall (sub_ok fl) l' -> subs_bytes fl l = subs_bytes fl l' -> l = l'.
Proof.
  intros F F' E. destruct (P_Sig.c34_round_trip_partial fl l [] [] F) as (a & A & _ & R). destruct (P_Sig.c34_round_trip_partial fl l' [] [] F') as (a' & A' & _ & R'). assert (a = a') by congruence. subst a'.
  specialize (R (S (length ([] ++ a ++ []))) ltac:(lia)). specialize (R' (S (length ([] ++ a ++ []))) ltac:(lia)). rewrite R in R'. apply ok_inj in R'. congruence.
Qed.
Lemma sub_of_type o x : SigAttrs.sub_of o = Ok x -> sub_type x = SigAttrs.so_type o.
Proof. unfold SigAttrs.sub_of. intros E. apply bind_ok in E as (b & _ & E). apply ok_inj in E as <-. reflexivity. Qed.
Lemma upd_others ty a v l : Forall SpecAttrs.well_classed l -> forall l', mapM SigAttrs.sub_of (map (AttrsProofs.upd ty a v) (map SigAttrs.obj_of l)) = Ok l' ->
  (forall ty2, ty2 <> ty -> filter (fun s => sub_type s =? ty2) l' = filter (fun s => sub_type s =? ty2) l) /\ (Forall (fun s => sub_type s <> ty) l -> l' = l).
Proof.
  induction 1 as [|x l Wx F IH]; intros l' E; cbn [map mapM] in E.
  - apply ok_inj in E as <-. split; [reflexivity|reflexivity].
  - apply bind_ok in E as (y & Y & E). apply bind_ok in E as (t & T & E). apply ok_inj in E as <-. destruct (IH t T) as [I1 I2]. clear IH.
    pose proof (sub_of_type _ _ Y) as Ty. rewrite AttrsProofs.upd_type, AttrsProofs.obj_type in Ty.
    assert (K : sub_type x <> ty -> y = x).
    { intros N. unfold AttrsProofs.upd in Y. rewrite AttrsProofs.obj_type in Y. rewrite (proj2 (Z.eqb_neq _ _) N) in Y. rewrite (AttrsProofs.sub_of_obj x Wx) in Y. now apply ok_inj in Y. }
    split.
    + intros ty2 N. cbn [filter]. rewrite Ty, (I1 ty2 N). destruct (sub_type x =? ty2) eqn:Q; [|reflexivity]. rewrite K by lia. reflexivity.
    + intros G. rewrite (K (Forall_inv G)), (I2 (Forall_inv_tail G)). reflexivity.
Qed.
(** what an assignment does to the two lists *)
Lemma edit_lists h u p v s' h' u' : SpecAttrs.from_packet (SigAttrs.sig_obj_of h u) h u -> In p (SpecAttrs.single ++ SpecAttrs.own_flags) -> SigAttrs.set_prop (SigAttrs.sig_obj_of h u) p v = Ok s' -> SigAttrs.written s' = Ok (h', u') ->
  (forall ty, ty <> fst (SigAttrs.getter p) -> filter (fun s => sub_type s =? ty) (h' ++ u') = filter (fun s => sub_type s =? ty) (h ++ u)) /\
  (Forall (fun s => sub_type s <> fst (SigAttrs.getter p)) u -> u' = u) /\
  (Forall (fun s => sub_type s <> fst (SigAttrs.getter p)) h -> ~ Forall (fun s => sub_type s <> fst (SigAttrs.getter p)) u -> h' = h).
Proof.
  intros (Fh & Fu & _) I E W. unfold SigAttrs.set_prop in E. rewrite (AttrsProofs.set_setter p I) in E. set (ty0 := fst (SigAttrs.getter p)) in *. unfold SigAttrs.written in W. apply bind_ok in W as (a & Wa & W). apply bind_ok in W as (b & Wb & W). apply ok_inj in W. injection W as -> ->.
  destruct (AttrsProofs.update_cases _ _ _ _ _ E) as [[N ->]|(G & o & No & ->)]; cbn [SigAttrs.so_hashed SigAttrs.so_unhashed SigAttrs.sig_obj_of] in Wa, Wb.
  - destruct (upd_others _ _ _ h Fh h' Wa) as [A1 A2]. destruct (upd_others _ _ _ u Fu u' Wb) as [B1 B2]. split; [|split; [exact B2|intros X _; exact (A2 X)]].
    intros ty Nt. rewrite !AttrsProofs.filter_app', (A1 ty Nt), (B1 ty Nt). reflexivity.
  - rewrite (AttrsProofs.written_objs u Fu) in Wb. apply ok_inj in Wb as <-. split; [|split; [reflexivity|]].
    + intros ty Nt. assert (M : exists t, mapM SigAttrs.sub_of [o] = Ok t /\ h' = h ++ t).
      { clear -Wa Fh. revert h' Wa. induction Fh as [|x h Wx Fh IH]; intros h' Wa; [cbn [map app] in Wa; exists h'; auto|]. cbn [map app mapM] in Wa. rewrite (AttrsProofs.sub_of_obj x Wx) in Wa. cbn [bind] in Wa. apply bind_ok in Wa as (t & T & Wa). apply ok_inj in Wa as <-. destruct (IH t T) as (q & Q & ->). exists q. auto. }
      destruct M as (t & M & ->). cbn [mapM] in M. apply bind_ok in M as (y & Y & M). apply ok_inj in M as <-. pose proof (sub_of_type _ _ Y) as Ty. rewrite (AttrsProofs.new_type _ _ _ _ No) in Ty. fold ty0 in Ty.
      rewrite !AttrsProofs.filter_app'. cbn [filter]. replace (sub_type y =? ty) with false by lia. now rewrite app_nil_r.
    + intros Hh Hu. exfalso. apply Hu. unfold SigAttrs.get_subs, SigAttrs.sig_obj_of in G. cbn [SigAttrs.so_hashed SigAttrs.so_unhashed] in G. rewrite AttrsProofs.filter_app' in G. apply app_eq_nil in G as [_ G]. clear -G.
      induction u as [|x u IH]; [constructor|]. cbn [map filter] in G. rewrite AttrsProofs.obj_type in G. fold ty0 in G. destruct (sub_type x =? ty0) eqn:Q; [discriminate G|]. constructor; [lia|exact (IH G)].
Qed.
(** C111. Assigning another value to an attribute that is not in the unhashed area: the signature is accepted afterwards only if the hash function gives the same
    digest for two different sequences of octets. *)
Theorem c111_edit_partial : forall fl md5 sha1 H oid inv elg k s i c p v a h' u',
  library_hashes H oid -> library_numbers fl inv k -> tells_hashes H oid -> In (k_alg k) [1; 3] -> so_version s = 4 -> Forall (fun v => 0 <= v) (so_values s) ->
  covers fl i c -> fits (so_type s) c -> sized c ->
  SpecAttrs.from_packet (SigAttrs.sig_obj_of (so_hashed s) (so_unhashed s)) (so_hashed s) (so_unhashed s) -> In p (SpecAttrs.single ++ SpecAttrs.own_flags) ->
  SigAttrs.get_prop (SigAttrs.sig_obj_of (so_hashed s) (so_unhashed s)) p <> Ok v -> Forall (fun x => sub_type x <> fst (SigAttrs.getter p)) (so_unhashed s) ->
  SpecAttrs.proper p v -> SigAttrs.set_prop (SigAttrs.sig_obj_of (so_hashed s) (so_unhashed s)) p v = Ok a -> SigAttrs.written a = Ok (h', u') ->
  Forall (sub_ok fl) (so_hashed s) -> Forall (sub_ok fl) h' -> short_area fl s -> short_area fl (with_subpackets s h' u') ->
  verify fl md5 sha1 H oid inv elg k s i = Ok true -> verify fl md5 sha1 H oid inv elg k (with_subpackets s h' u') i = Ok true ->
  exists o o', signed_octets fl s c o /\ signed_octets fl (with_subpackets s h' u') c o' /\ o <> o' /\ H (so_hash s) o = H (so_hash s) o'.
Proof.
  intros fl md5 sha1 H oid inv elg k s i c p v a h' u' LH LN TH A V NN C F S FP I G Nu Pv E W Sk Sk' Sh Sh' Ve Ve'.
  assert (X : exists x r, so_values s = x :: r).
  { pose proof Ve as Y. destruct (c51_accepted_only_if_valid_partial fl md5 sha1 H oid inv elg k s i c LH LN V ltac:(cbn in A; lia) NN C Y) as (kid & h & _ & _ & _ & _ & _ & P). destruct (so_values s); [inversion P|eexists; eexists; reflexivity]. }
  destruct X as (x & r & X).
  destruct (c111_bound_partial fl md5 sha1 H oid inv elg k s (with_subpackets s h' u') i i c c x r r LH LN TH A V V X X NN NN C C F F S S Sh Sh' Ve Ve') as (o & o' & O & O' & _ & Hd & Eq). exists o, o'. split; [exact O|]. split; [exact O'|]. split; [|exact Hd].
  intros Q. apply Eq in Q as (_ & _ & Q & _). cbn [with_subpackets so_hashed] in Q. apply (area_inj fl _ _ Sk Sk') in Q.
  destruct (edit_lists _ _ p v a h' u' FP I E W) as (_ & U & _). specialize (U Nu). apply G.
  destruct (AttrsProofs.set_written _ _ _ p v a FP I Pv E) as (h2 & u2 & (_ & _ & K) & W2). rewrite W in W2. apply ok_inj in W2. injection W2 as <- <-. rewrite Q, <- U, <- K. unfold SigAttrs.set_prop in E. rewrite (AttrsProofs.set_setter p I) in E. exact (AttrsProofs.update_get _ _ _ _ _ E).
Qed.
Print Assumptions c111_edit_partial.
(** Refuted: an attribute that stands in the unhashed area is read like any other, and can be changed without the signature being refused. *)
Theorem c111_unhashed_edit_refuted : forall fl md5 sha1 H oid inv elg k s i p v,
  SpecAttrs.from_packet (SigAttrs.sig_obj_of (so_hashed s) (so_unhashed s)) (so_hashed s) (so_unhashed s) -> In p (SpecAttrs.single ++ SpecAttrs.own_flags) -> SpecAttrs.proper p v ->
  Forall (fun x => sub_type x <> fst (SigAttrs.getter p)) (so_hashed s) -> ~ Forall (fun x => sub_type x <> fst (SigAttrs.getter p)) (so_unhashed s) ->
  exists a u', SigAttrs.set_prop (SigAttrs.sig_obj_of (so_hashed s) (so_unhashed s)) p v = Ok a /\ SigAttrs.written a = Ok (so_hashed s, u') /\ SigAttrs.get_prop (SigAttrs.sig_obj_of (so_hashed s) u') p = Ok v /\
    verify fl md5 sha1 H oid inv elg k (with_subpackets s (so_hashed s) u') i = verify fl md5 sha1 H oid inv elg k s i.
Proof.
  intros fl md5 sha1 H oid inv elg k s i p v FP I Pv Nh Nu. destruct (P_Attrs.c50_survives_packet _ _ _ p v FP I Pv) as (a & h' & u' & E & W & K & G).
  destruct (edit_lists _ _ p v a h' u' FP I E W) as (T & _ & U). specialize (U Nh Nu). subst h'. exists a, u'. split; [exact E|]. split; [exact W|]. split; [exact G|].
  unfold verify. cbn [with_subpackets so_version so_type so_pk so_hash so_hash2 so_values so_hashed].
  assert (Id : issuer_key_ids (with_subpackets s (so_hashed s) u') = issuer_key_ids s).
  { unfold issuer_key_ids, get_subpackets. cbn [with_subpackets so_version so_hashed so_unhashed]. rewrite (T 16); [reflexivity|]. clear -I. intros Q. cbn in I. repeat destruct I as [<-|I]; try contradiction; cbn in Q; lia. }
  rewrite Id. reflexivity.
Qed.
Print Assumptions c111_unhashed_edit_refuted.
(** Refuted: verify does not look at the signature type. For a certification of a user id, and for the signature (of any type) of a document that consists of
    the octets such a certification covers, it gives the same answer; so a document signature of the key passes for a certification. *)
Theorem c111_kind_refuted : forall fl md5 sha1 H oid inv elg k s p d b, so_version s = 4 -> pub_content fl p = Ok b ->
  verify fl md5 sha1 H oid inv elg k s (IUserId p d) = verify fl md5 sha1 H oid inv elg k s (IBytes (rfc_covered 4 (Uid b d))).
Proof.
  intros fl md5 sha1 H oid inv elg k s p d b V B. unfold verify. rewrite V.
  rewrite (item_rfc fl (IUserId p d) 4 (Uid b d) ltac:(lia) ltac:(exists b; auto)). reflexivity.
Qed.
Print Assumptions c111_kind_refuted.
(** More integers than the one of RSA are ignored. *)
Theorem c111_more_integers_refuted : forall fl md5 sha1 H oid inv elg k s i x r r', In (k_alg k) [1; 3] -> so_values s = x :: r ->
  verify fl md5 sha1 H oid inv elg k (SigObj (so_version s) (so_type s) (so_pk s) (so_hash s) (so_hash2 s) (x :: r') (so_hashed s) (so_unhashed s)) i = verify fl md5 sha1 H oid inv elg k s i.
Proof.
  intros fl md5 sha1 H oid inv elg k s i x r r' A X. unfold verify. cbn [so_version so_type so_pk so_hash so_hash2 so_values so_hashed so_unhashed].
  change (issuer_key_ids (SigObj (so_version s) (so_type s) (so_pk s) (so_hash s) (so_hash2 s) (x :: r') (so_hashed s) (so_unhashed s))) with (issuer_key_ids s).
  destruct (obj_key_id fl md5 sha1 k) as [kid|]; [|reflexivity]. cbn [bind]. destruct (issuer_key_ids s) as [ids|]; [|reflexivity]. cbn [bind]. destruct (negb (existsb (zlist_eqb kid) ids)); [reflexivity|].
  destruct (k_alg k =? so_pk s) eqn:Q; [|reflexivity]. apply Z.eqb_eq in Q. cbn [negb]. rewrite X.
  assert (Vh : forall dg, verify_hash fl oid inv elg k (so_pk s) (so_hash s) dg (x :: r') = verify_hash fl oid inv elg k (so_pk s) (so_hash s) dg (x :: r)).
  { intros dg. unfold verify_hash. rewrite <- Q. assert (T : (k_alg k =? 1) || (k_alg k =? 3) = true) by (cbn in A; lia). rewrite T. reflexivity. }
  destruct (key_obj_ok k); [|reflexivity]. cbn [bind]. destruct (negb (hash_supported (so_hash s))); [reflexivity|]. destruct (item_signable fl i (so_version s)); [|reflexivity]. cbn [bind]. destruct (sig_signable fl (so_version s) (so_type s) (so_pk s) (so_hash s) (so_hashed s)); [|reflexivity]. cbn [bind].
  destruct (negb _); [reflexivity|]. now rewrite Vh.
Qed.
Print Assumptions c111_more_integers_refuted.

(** ** The hypotheses are met: a toy hash that names its algorithm, and collides *)
Definition toy_hash (ha : Z) (d : bytes) : bytes := [(16 * ha + fold_left (fun a b => (a + b) mod 16) d 0) mod 256].
Lemma sum_bound d : forall a, 0 <= a < 16 -> 0 <= fold_left (fun a b => (a + b) mod 16) d a < 16.
Proof. induction d as [|x d IH]; intros a B; [exact B|]. cbn [fold_left]. apply IH. apply Z.mod_pos_bound. lia. Qed.
Lemma toy_tells : tells_hashes toy_hash demo_oid.
Proof.
  intros ha ha' d d' L L' E. unfold demo_oid, toy_hash in E. cbn [app] in E.
  assert (B : forall x, hash_lengths x <> None -> 0 <= x < 16).
  { clear. intros x. unfold hash_lengths. repeat match goal with |- context [x =? ?y] => destruct (x =? y) eqn:? end; intros N; try lia; now elim N. }
  apply B in L. apply B in L'. pose proof (sum_bound d 0 ltac:(lia)) as S. pose proof (sum_bound d' 0 ltac:(lia)) as S'.
  set (x := fold_left (fun a b => (a + b) mod 16) d 0) in *. set (y := fold_left (fun a b => (a + b) mod 16) d' 0) in *. clearbody x y. clear -E L L' S S'.
  assert (E2 : (16 * ha + x) mod 256 = (16 * ha' + y) mod 256) by congruence. rewrite !Z.mod_small in E2 by lia. lia.
Qed.
Lemma toy_library : library_hashes toy_hash demo_oid.
Proof.
  split; [intros; constructor|]. split; [|discriminate]. intros ha d. constructor; [|constructor]. apply Z.mod_pos_bound. lia.
Qed.
Definition toy_verify := verify Z.log2 demo_sha1 demo_sha1 toy_hash demo_oid demo_inv demo_elg demo_rsa.
Definition toy_sign i := sign Z.log2 demo_sha1 demo_sha1 toy_hash demo_oid demo_inv false demo_rsa (SRsa 593) 0 5 i false 4 0 8.
Example c111_bound_example : library_hashes toy_hash demo_oid /\ library_numbers Z.log2 demo_inv demo_rsa /\ tells_hashes toy_hash demo_oid /\ exists s, toy_sign (IBytes [1; 2]) [] = Ok (s, []) /\
  toy_verify s (IBytes [1; 2]) = Ok true /\ toy_verify s (IBytes [2; 1]) = Ok true /\ toy_verify s (IBytes [2; 2]) = Err SignatureVerificationFailed /\ fits (so_type s) (Document [1; 2]).
Proof.
  split; [exact toy_library|]. split; [exact demo_rsa_numbers|]. split; [exact toy_tells|]. eexists. split; [vm_compute; reflexivity|]. split; [vm_compute; reflexivity|]. split; [vm_compute; reflexivity|]. split; [vm_compute; reflexivity|]. cbn. auto.
Qed.
(** a policy in the hashed area is bound; the same policy in the unhashed area is not *)
Example c111_edit_example : exists s given x y, toy_sign (IBytes [1; 2]) [Sub 26 false (SbUri [104])] = Ok (s, given) /\ so_hashed s = [x; y; Sub 26 false (SbUri [104])] /\
  toy_verify s (IBytes [1; 2]) = Ok true /\
  toy_verify (with_subpackets s [x; y; Sub 26 false (SbUri [105])] (so_unhashed s)) (IBytes [1; 2]) = Err SignatureVerificationFailed /\
  toy_verify (with_subpackets s (so_hashed s) [Sub 28 false (SbUserId [104])]) (IBytes [1; 2]) = Ok true /\
  SigAttrs.get_prop (SigAttrs.sig_obj_of (so_hashed s) [Sub 28 false (SbUserId [104])]) SigAttrs.P_issuer_user_id = Ok (SigAttrs.VText [104]).
Proof. do 4 eexists. split; [vm_compute; reflexivity|]. split; [reflexivity|]. split; [vm_compute; reflexivity|]. split; [vm_compute; reflexivity|]. split; [vm_compute; reflexivity|vm_compute; reflexivity]. Qed.
(** a document signature taken for a certification of a user id *)
Example c111_kind_example : exists b s, pub_content Z.log2 demo_rsa = Ok b /\ toy_sign (IBytes (rfc_covered 4 (Uid b [97]))) [] = Ok (s, []) /\ so_type s = 0 /\ toy_verify s (IUserId demo_rsa [97]) = Ok true.
Proof. eexists. eexists. split; [vm_compute; reflexivity|]. split; [vm_compute; reflexivity|]. split; [reflexivity|]. vm_compute. reflexivity. Qed.
Definition unhashed_sig := SigObj 4 0 1 8 [136] [1] [Sub 2 false (SbTime 5)] [Sub 26 false (SbUri [104])].
Example c111_unhashed_example : SpecAttrs.from_packet (SigAttrs.sig_obj_of (so_hashed unhashed_sig) (so_unhashed unhashed_sig)) (so_hashed unhashed_sig) (so_unhashed unhashed_sig) /\
  In SigAttrs.P_policy_uri (SpecAttrs.single ++ SpecAttrs.own_flags) /\ SpecAttrs.proper SigAttrs.P_policy_uri (SigAttrs.VText [105]) /\
  Forall (fun x => sub_type x <> fst (SigAttrs.getter SigAttrs.P_policy_uri)) (so_hashed unhashed_sig) /\ ~ Forall (fun x => sub_type x <> fst (SigAttrs.getter SigAttrs.P_policy_uri)) (so_unhashed unhashed_sig) /\
  SigAttrs.get_prop (SigAttrs.sig_obj_of (so_hashed unhashed_sig) (so_unhashed unhashed_sig)) SigAttrs.P_policy_uri = Ok (SigAttrs.VText [104]).
Proof.
  split; [split; [constructor; [cbn; auto|constructor]|split; [constructor; [cbn; auto|constructor]|reflexivity]]|]. split; [cbn; auto 20|]. split; [eexists; reflexivity|].
  split; [constructor; [cbn; discriminate|constructor]|]. split; [|reflexivity]. intros F. exact (Forall_inv F eq_refl).
Qed.
