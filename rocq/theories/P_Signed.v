(** C36: the octets hashed for a signature determine what is signed. C64: they are those of RFC 4880 5.2.4. *)
From Verif Require Import Base Spec Utils UtilsProofs KeyPackets SigPackets Signable SpecSigned SignedProofs.

(** C36, version 4 and above: equal octets mean equal type, algorithms, hashed subpackets and signed object. Missing:
    objects longer than the length fields (see below), types the RFC does not define, packets passed with a type that is
    neither user id nor user attribute, and the hash value itself (collisions of the hash function). *)
Theorem c36_v4_octets_determine_signature_partial : forall version st st' c c' pk pk' ha ha' ctime ctime' hashed hashed' octets,
  4 <= version -> fits st c -> fits st' c' -> sized c -> sized c' -> zlen hashed < 65536 -> zlen hashed' < 65536 ->
  hashed_octets st version (fst (fst (call_of c))) (snd (fst (call_of c))) (snd (call_of c)) pk ha 0 ctime hashed = Ok octets ->
  hashed_octets st' version (fst (fst (call_of c'))) (snd (fst (call_of c'))) (snd (call_of c')) pk' ha' 0 ctime' hashed' = Ok octets ->
  st = st' /\ pk = pk' /\ ha = ha' /\ hashed = hashed' /\ c = c'.
Proof. intros. eapply (v4_binds version st st' c c' pk pk' ha ha' 0 0); eassumption. Qed.
Print Assumptions c36_v4_octets_determine_signature_partial.
Example c36_v4_used : exists octets,
  fits 16 (Uid [4; 1; 2] [97]) /\ sized (Uid [4; 1; 2] [97]) /\
  hashed_octets 16 4 13 [97] (Some [4; 1; 2]) 1 8 0 0 [5; 2; 1; 2; 3; 4] = Ok octets.
Proof. eexists. split; [cbn; auto|]. split; [cbn; vm_compute; auto|]. vm_compute. reflexivity. Qed.

(** Versions 2 and 3: type, creation time and the octets of the object. *)
Theorem c36_v3_octets_determine_signature_partial : forall version st st' c c' pk pk' ha ha' ctime ctime' hashed hashed' octets,
  version < 4 -> fits st c -> fits st' c' -> sized c -> sized c' -> 0 <= ctime < 2 ^ 32 -> 0 <= ctime' < 2 ^ 32 ->
  hashed_octets st version (fst (fst (call_of c))) (snd (fst (call_of c))) (snd (call_of c)) pk ha 0 ctime hashed = Ok octets ->
  hashed_octets st' version (fst (fst (call_of c'))) (snd (fst (call_of c'))) (snd (call_of c')) pk' ha' 0 ctime' hashed' = Ok octets ->
  st = st' /\ ctime = ctime' /\ same_user_data c c'.
Proof. intros. eapply (v3_binds version st st' c c' pk pk' ha ha' 0 0); eassumption. Qed.
Print Assumptions c36_v3_octets_determine_signature_partial.
Example c36_v3_used : exists octets, fits 24 (Subkey [4; 1; 2] [4; 3]) /\ sized (Subkey [4; 1; 2] [4; 3]) /\
  hashed_octets 24 3 14 [4; 3] (Some [4; 1; 2]) 1 8 0 77 [] = Ok octets.
Proof. eexists. split; [cbn; auto|]. split; [cbn; lia|]. vm_compute. reflexivity. Qed.

(** Not in version 3: the algorithms are not covered, nor is the kind of user data (both as in RFC 4880 5.2.4). *)
Theorem c36_v3_algorithms_unbound_refuted : exists st d ha ha' ctime octets,
  fits st (Document d) /\ ha <> ha' /\
  hashed_octets st 3 11 d None 1 ha 0 ctime [] = Ok octets /\ hashed_octets st 3 11 d None 17 ha' 0 ctime [] = Ok octets.
Proof. exists 0, [104; 105], 2, 8, 5. eexists. split; [cbn; auto|]. split; [lia|]. split; [vm_compute; reflexivity|]. vm_compute. reflexivity. Qed.
Print Assumptions c36_v3_algorithms_unbound_refuted.
Theorem c36_v3_user_data_kind_unbound_refuted : exists key d octets,
  fits 16 (Uid key d) /\ fits 16 (Uattr key d) /\ sized (Uid key d) /\
  hashed_octets 16 3 13 d (Some key) 1 8 0 5 [] = Ok octets /\ hashed_octets 16 3 17 d (Some key) 1 8 0 5 [] = Ok octets.
Proof.
  exists [4; 1; 2], [97]. eexists. split; [cbn; auto|]. split; [cbn; auto|]. split; [cbn; vm_compute; auto|].
  split; [vm_compute; reflexivity|]. vm_compute. reflexivity.
Qed.
Print Assumptions c36_v3_user_data_kind_unbound_refuted.
(** Not for key packets of 65536 octets or more: the length is cut to two octets and the boundary between the primary key
    and the subkey is lost. *)
Theorem c36_long_keys_collide_refuted : forall pk ha hashed, exists p k p' k',
  p <> p' /\ fits 24 (Subkey p k) /\ fits 24 (Subkey p' k') /\ zlen p' = 0 /\ zlen p = 65536 /\
  hashed_octets 24 4 14 k (Some p) pk ha 0 0 hashed = hashed_octets 24 4 14 k' (Some p') pk ha 0 0 hashed.
Proof.
  intros pk ha hashed. set (z := repeat 0 (Z.to_nat 65533)). assert (Lz : zlen z = 65533) by (unfold z; now rewrite BaseProofs.zlen_repeat).
  exists ([153; 0; 0] ++ z), [], [], (z ++ [153; 0; 0]). clearbody z.
  split; [discriminate|]. split; [cbn; auto|]. split; [cbn; auto|]. split; [reflexivity|].
  split; [rewrite BaseProofs.zlen_app, Lz; reflexivity|].
  unfold hashed_octets. f_equal. 
  unfold hash_target. change (24 =? 31) with false. change (24 =? 32) with false. change (24 =? 24) with true. cbn [orb].
  f_equal. unfold hash_key. rewrite !BaseProofs.zlen_app, Lz. change (zlen [153; 0; 0]) with 3. change (zlen (@nil Z)) with 0.
  change (int_to_2byte (3 + 65533)) with [0; 0]. change (int_to_2byte (65533 + 3)) with [0; 0]. change (int_to_2byte 0) with [0; 0].
  rewrite <- !app_assoc. reflexivity.
Qed.
Print Assumptions c36_long_keys_collide_refuted.

(** C64: the hashed octets are those of RFC 4880 5.2.4. *)
Theorem c64_v4_octets_rfc_partial : forall st c pk ha ctime hashed,
  fits st c -> (forall d, c <> Sig d) -> byte pk -> byte ha ->
  hashed_octets st 4 (fst (fst (call_of c))) (snd (fst (call_of c))) (snd (call_of c)) pk ha 0 ctime hashed = Ok (rfc_v4_octets st pk ha hashed c).
Proof. intros. now apply v4_rfc. Qed.
Print Assumptions c64_v4_octets_rfc_partial.
Example c64_v4_used : rfc_v4_octets 16 1 8 [2; 3] (Uid [4; 1; 2] [97]) =
  [0x99; 0; 3; 4; 1; 2; 0xB4; 0; 0; 0; 1; 97; 4; 16; 1; 8; 0; 2; 2; 3; 4; 0xFF; 0; 0; 0; 8].
Proof. reflexivity. Qed.
Theorem c64_v3_octets_rfc_partial : forall st c pk ha ctime hashed,
  fits st c -> (forall d, c <> Sig d) ->
  hashed_octets st 3 (fst (fst (call_of c))) (snd (fst (call_of c))) (snd (call_of c)) pk ha 0 ctime hashed = Ok (rfc_v3_octets st ctime c).
Proof. intros. now apply v3_rfc. Qed.
Print Assumptions c64_v3_octets_rfc_partial.
(** Signatures of signatures use a one-octet length, so they never are the RFC's octets, and long ones are refused. *)
Theorem c64_signature_of_signature_not_rfc_refuted :
  (exists d octets, hashed_octets 80 4 2 d None 1 8 0 0 [] = Ok octets /\ octets <> rfc_v4_octets 80 1 8 [] (Sig d)) /\
  (forall d pk ha ctime hashed, 255 < zlen d -> hashed_octets 80 4 2 d None pk ha 0 ctime hashed = Err ValueError).
Proof.
  split.
  - exists [4; 0]. eexists. split; [vm_compute; reflexivity|]. vm_compute. discriminate.
  - intros d pk ha ct h H. unfold hashed_octets, hash_target. change (80 =? 31) with false. change (80 =? 32) with false.
    change (80 =? 24) with false. change (80 =? 25) with false. change (80 =? 40) with false. change (80 =? 80) with true. cbn [orb].
    unfold mk_bytes, wfb, byteb. cbn [forallb]. replace (zlen d <? 256) with false by lia. rewrite andb_false_r. reflexivity.
Qed.
Print Assumptions c64_signature_of_signature_not_rfc_refuted.
(** The same octets come from the key, user id and document objects (version 4); the whole is then trailer-terminated. *)
Theorem c64_objects_rfc_partial : forall fl i c version, 4 <= version ->
  covers fl i c -> item_signable fl i version = Ok (rfc_covered 4 c).
Proof. intros. now apply item_rfc. Qed.
Print Assumptions c64_objects_rfc_partial.
Definition demo_key := PubKey 4 1 1 None (Some 77) (Some 3) None None None None.
Definition demo_sub := PubKey 4 2 1 None (Some 91) (Some 5) None None None None.
Example c64_objects_used : exists a b, pub_content Z.log2 demo_key = Ok a /\ pub_content Z.log2 demo_sub = Ok b /\
  item_signable Z.log2 (IPublicSub demo_key demo_sub) 4 = Ok (rfc_covered 4 (Subkey a b)).
Proof. eexists. eexists. split; [vm_compute; reflexivity|]. split; [vm_compute; reflexivity|]. vm_compute. reflexivity. Qed.
(** A secret subkey hashes its primary key twice: a binding signature made over it covers other octets than the RFC's and
    than the ones checked on the public subkey. *)
Theorem c64_secret_subkey_not_rfc_refuted : forall fl p k version a b,
  pub_content fl p = Ok a -> pub_content fl k = Ok b ->
  exists octets, item_signable fl (ISecretSub p k) version = Ok octets /\ octets <> rfc_covered 4 (Subkey a b) /\
    item_signable fl (IPublicSub p k) version <> Ok octets.
Proof.
  intros fl p k v a b A B. eexists. split; [eapply secret_sub_doubles; eassumption|].
  assert (N : hash_key a ++ rfc_covered 4 (Subkey a b) <> rfc_covered 4 (Subkey a b)).
  { intros E. apply (f_equal zlen) in E. rewrite BaseProofs.zlen_app in E. unfold hash_key in E.
    rewrite BaseProofs.zlen_app in E. change (zlen [153]) with 1 in E.
    pose proof (BaseProofs.zlen_nonneg (int_to_2byte (zlen a) ++ a)). lia. }
  split; [exact N|]. unfold item_signable, public_sub_signable, key_signable. rewrite A, B. cbn [bind].
  intros E. apply KeyProofs.ok_inj in E. symmetry in E. exact (N E).
Qed.
Print Assumptions c64_secret_subkey_not_rfc_refuted.
