(** C94: user attributes read into a key and written again. *)
From Verif Require Import Base BaseProofs Spec SpecFraming Text TextProofs UserAttr SpecAttr AttrProofs AttrItem SpecAttrItem.

Lemma before_image m : before_slash m = str "image" <-> mime_image m.
Proof.
  split.
  - intros H. assert (K : forall l m, before_slash m = l -> m = l \/ exists r, m = l ++ 47 :: r).
    { clear. intros l m. revert l. induction m as [|c m IH]; intros l H; cbn [before_slash] in H; [left; now subst|]. destruct (c =? 47) eqn:E.
      - subst l. right. exists m. apply Z.eqb_eq in E. now subst.
      - destruct l as [|x l]; [discriminate|]. injection H as <- H. destruct (IH l H) as [->|(r & ->)]; [now left|]. right. now exists r. }
    destruct (K _ _ H) as [->|(r & ->)]; [now left|]. right. exists r. reflexivity.
  - intros [->|(k & ->)]; reflexivity.
Qed.
Lemma ends_iff m : ends_jpeg m = true <-> mime_jpeg m.
Proof.
  unfold ends_jpeg, starts_with, mime_jpeg. split.
  - destruct (strip_prefix (rev (str "/jpeg")) (rev m)) as [r|] eqn:P; [|discriminate]. intros _. apply strip_prefix_some in P. exists (rev r).
    apply (f_equal (@rev Z)) in P. rewrite rev_involutive, rev_app_distr, rev_involutive in P. exact P.
  - intros (k & ->). rewrite rev_app_distr, strip_prefix_app. reflexivity.
Qed.
(** what one subpacket becomes *)
Lemma item_round magic (f : Z) data : exists i, item_from_subpacket magic (AImage 1 16 (Some f) data) = Ok i /\
  (item_to_subpacket i = Some (AImage 1 16 (Some f) data) <-> kept magic (AImage 1 16 (Some f) data)).
Proof.
  eexists. split; [reflexivity|]. unfold item_to_subpacket. cbn [mime_type idata kept]. destruct (f =? 1) eqn:E.
  - assert (f = 1) by lia. subst f. replace (ends_jpeg (str "image/jpeg")) with true by reflexivity. change (zlist_eqb (before_slash (str "image/jpeg")) (str "image")) with true. cbn [negb]. cbv iota. tauto.
  - set (m := magic (slice data 0 1024)). destruct (zlist_eqb (before_slash m) (str "image")) eqn:B; cbn [negb].
    + apply zlist_eqb_spec, before_image in B. destruct (ends_jpeg m) eqn:J.
      * apply ends_iff in J. split; [intros H; injection H as H; lia|]. intros [H|(_ & _ & H)]; [lia|contradiction].
      * assert (J' : ~ mime_jpeg m) by (intros K; apply ends_iff in K; congruence). split; [intros H; injection H as <-; right; auto|]. intros [H|(-> & _)]; [lia|reflexivity].
    + split; [discriminate|]. intros [H|(_ & H & _)]; [lia|]. apply before_image in H. rewrite H, zlist_eqb_refl in B. discriminate.
Qed.
Lemma items_run magic l : Forall attr_ok l -> Forall (fun a => exists f d, a = AImage 1 16 (Some f) d) l ->
  exists items, items_from_packet magic l = Ok items /\ length items = length l /\
   (Forall (kept magic) l -> map item_to_subpacket items = map Some l) /\
   (forall d, items_content items = Ok d -> exists l', map item_to_subpacket items = map Some l' /\ attrs_content l' = Ok d /\ Forall attr_ok l') /\
   (map item_to_subpacket items = map Some l -> Forall (kept magic) l).
Proof.
  intros F G. induction l as [|a l IH].
  - exists []. repeat split; auto. intros d H. exists []. cbn in H. apply (f_equal (fun r => match r with Ok x => x | Err _ => [] end)) in H. cbv beta iota in H. subst d. repeat split; auto.
  - pose proof (Forall_inv F) as Fa. pose proof (Forall_inv_tail F) as Fl. pose proof (Forall_inv G) as Ga. pose proof (Forall_inv_tail G) as Gl. destruct Ga as (f & im & ->).
    destruct (IH Fl Gl) as (items & E & Hlen & K1 & K2 & K3). destruct (item_round magic f im) as (i & Ei & Ki). exists (i :: items).
    unfold items_from_packet in *. cbn [mapM]. rewrite Ei. cbn [bind]. rewrite E. cbn [bind]. split; [reflexivity|]. split; [cbn [length]; now rewrite Hlen|]. split; [|split].
    + intros K. cbn [map]. rewrite (proj2 Ki (Forall_inv K)), (K1 (Forall_inv_tail K)). reflexivity.
    + intros d H. cbn [items_content] in H. destruct (item_to_subpacket i) as [a'|] eqn:Ea; [|discriminate].
      apply bind_ok in H as (x & Hx & H). apply bind_ok in H as (y & Hy & H). destruct (K2 y Hy) as (l' & El & Cl & Ol). exists (a' :: l'). cbn [map attrs_content]. rewrite Ea, El, Hx, Cl. cbn [bind]. split; [reflexivity|]. split; [exact H|].
      constructor; [|exact Ol]. unfold item_to_subpacket in Ea. destruct (negb _) in Ea; [discriminate|]. injection Ea as <-. assert (Ed : idata i = im) by (cbn [item_from_subpacket] in Ei; injection Ei as <-; reflexivity). rewrite Ed.
      cbn in Fa. destruct Fa as (_ & _ & _ & Hz). cbn. split; [reflexivity|]. split; [reflexivity|]. split; [|exact Hz]. eexists. split; [reflexivity|]. destruct (ends_jpeg (mime_type i)); unfold byte; lia.
    + intros H. cbn [map] in H. injection H as H1 H2. constructor; [now apply Ki|auto].
Qed.
Lemma content_some l : forall items, map item_to_subpacket items = map Some l -> items_content items = attrs_content l.
Proof.
  induction l as [|a l IH]; intros [|i items] H; try discriminate; [reflexivity|]. cbn [map] in H. injection H as H1 H2. cbn [items_content attrs_content]. rewrite H1, (IH _ H2). reflexivity.
Qed.
Lemma some_inj (l l' : list attr) : map Some l = map Some l' -> l = l'.
Proof. revert l'. induction l as [|a l IH]; intros [|b l'] H; try discriminate; [reflexivity|]. injection H as -> H. f_equal. auto. Qed.

(** ** Exactly which attributes survive. A packet of images (any formats): the octets written after reading it into a key are the
    packet's own octets if and only if every image is kept. *)
Theorem c94_survives_iff magic (l : list attr) :
  Forall attr_ok l -> Forall (fun a => exists f image, a = AImage 1 16 (Some f) image) l ->
  (rewritten magic l = attrs_content l <-> Forall (kept magic) l).
Proof.
  intros F G. destruct (items_run magic l F G) as (items & E & _ & K1 & K2 & K3). unfold rewritten. rewrite E. cbn [bind]. split.
  - intros H. destruct (attrs_round l F) as (d & _ & _ & Hd & _ & _ & Pd). rewrite Hd in H. destruct (K2 d H) as (l' & El & Cl & Ol). apply K3. rewrite El. f_equal.
    destruct (attrs_round l' Ol) as (d' & _ & _ & Hd' & _ & _ & Pd'). assert (d' = d) by congruence. subst d'. congruence.
  - intros K. now apply content_some, K1.
Qed.
Print Assumptions c94_survives_iff.

(** JPEG images always survive, whatever the magic module would say about them; and what is written (which is
    also what is hashed for signatures over the attribute, see C64) parses to the same attributes. *)
Theorem c94_jpeg_survives magic (l : list attr) : Forall jpeg l -> exists d, attrs_content l = Ok d /\ rewritten magic l = Ok d /\ attrs_from_content d = Ok l.
Proof.
  intros F. assert (F1 : Forall attr_ok l). { eapply Forall_impl; [|exact F]. intros a (im & -> & Hz). cbn. split; [reflexivity|]. split; [reflexivity|]. split; [exists 1; split; [reflexivity|unfold byte; lia]|exact Hz]. }
  assert (F2 : Forall (fun a => exists f image, a = AImage 1 16 (Some f) image) l) by (eapply Forall_impl; [|exact F]; intros a (im & -> & _); eauto).
  destruct (attrs_round l F1) as (d & _ & _ & Hd & _ & _ & Pd). exists d. split; [exact Hd|]. split; [|exact Pd]. rewrite <- Hd. apply (proj2 (c94_survives_iff magic l F1 F2)). eapply Forall_impl; [|exact F]. intros a (im & -> & _). now left.
Qed.
Print Assumptions c94_jpeg_survives.

(** ** What does not survive. *)
(** Refuted: the private formats 100 and 102-110 are always rewritten to another format or cannot be written. *)
Theorem c94_private_format_refuted magic (f : Z) (image : bytes) : byte f -> f <> 1 -> f <> 101 -> zlen image < 4294967279 ->
  rewritten magic [AImage 1 16 (Some f) image] <> attrs_content [AImage 1 16 (Some f) image].
Proof.
  intros B N1 N2 Hz H. apply (proj1 (c94_survives_iff magic [AImage 1 16 (Some f) image] ltac:(constructor; [cbn; split; [reflexivity|split; [reflexivity|split; [eauto|exact Hz]]]|constructor]) ltac:(constructor; [eauto|constructor]))) in H.
  apply Forall_inv in H. cbn [kept] in H. destruct H as [H|(H & _)]; contradiction.
Qed.
Print Assumptions c94_private_format_refuted.
(** Refuted: an attribute that is no image makes reading the key fail with an AttributeError, wherever it stands. *)
Theorem c94_unknown_refuted magic (before after : list attr) ty : Forall (fun a => exists f image, a = AImage 1 16 (Some f) image) before ->
  rewritten magic (before ++ AUnknown ty :: after) = Err AttributeError.
Proof.
  intros F. unfold rewritten, items_from_packet. induction F as [|a before (f & im & ->) F IH]; [reflexivity|]. cbn [app mapM item_from_subpacket]. cbn [bind].
  destruct (mapM (item_from_subpacket magic) (before ++ AUnknown ty :: after)) as [x|e] eqn:M; cbn [bind] in *; [|congruence].
  exfalso. clear IH. revert x M. clear. induction before as [|a before IH]; intros x M; cbn [app mapM] in M.
  - cbn in M. discriminate.
  - apply bind_ok in M as (y & _ & M). apply bind_ok in M as (z & Hz & _). exact (IH z Hz).
Qed.
Print Assumptions c94_unknown_refuted.
(** Refuted: an image in a private format that the magic module does not take for an image can be read but not written or signed over:
    bytes(None) is a TypeError. *)
Theorem c94_unwritable_refuted magic (f : Z) (image : bytes) : f <> 1 -> ~ mime_image (magic (slice image 0 1024)) ->
  (exists items, items_from_packet magic [AImage 1 16 (Some f) image] = Ok items) /\ rewritten magic [AImage 1 16 (Some f) image] = Err TypeError.
Proof.
  intros N M. split; [eexists; reflexivity|]. unfold rewritten, items_from_packet. cbn [mapM item_from_subpacket bind]. replace (f =? 1) with false by lia. cbn [bind items_content].
  unfold item_to_subpacket. cbn [mime_type]. destruct (zlist_eqb (before_slash (magic (slice image 0 1024))) (str "image")) eqn:B; [|reflexivity].
  exfalso. apply M. apply before_image. now apply zlist_eqb_spec.
Qed.
Print Assumptions c94_unwritable_refuted.

Definition png : bytes -> text := fun _ => str "image/png".
Example c94_used : Forall jpeg [AImage 1 16 (Some 1) [255; 216]] /\ kept png (AImage 1 16 (Some 101) [1]) /\
  rewritten png [AImage 1 16 (Some 100) [7]] = attrs_content [AImage 1 16 (Some 101) [7]] /\
  rewritten (fun _ => str "text/plain") [AImage 1 16 (Some 100) [7]] = Err TypeError /\ ~ mime_image (str "text/plain").
Proof.
  split; [constructor; [exists [255; 216]; split; [reflexivity|cbn; lia]|constructor]|]. split.
  - right. split; [reflexivity|]. split; [right; exists (str "png"); reflexivity|]. intros (k & E). apply (f_equal (fun t => rev t)) in E. unfold png in E. rewrite rev_app_distr in E. cbn in E. discriminate.
  - split; [vm_compute; reflexivity|]. split; [vm_compute; reflexivity|]. intros [E|(k & E)]; [discriminate|]. cbn in E. discriminate.
Qed.
