(** Proofs about the octets hashed for a signature. *)
From Verif Require Import Base BaseProofs Spec Utils UtilsProofs KeyPackets SigPackets SigProofs KeyProofs Signable SpecSigned.

Lemma app_inj_suffix {A} (a a' b b' : list A) : a ++ b = a' ++ b' -> zlen b = zlen b' -> a = a' /\ b = b'.
Proof.
  intros E H. apply app_inj_len; [exact E|]. apply (f_equal zlen) in E. rewrite !zlen_app in E. lia.
Qed.
Lemma be_inj n i j : be_bytes n i = be_bytes n j -> 0 <= i < 256 ^ Z.of_nat n -> 0 <= j < 256 ^ Z.of_nat n -> i = j.
Proof.
  intros E Hi Hj. apply (f_equal be_val) in E. rewrite !be_bytes_val, !Z.mod_small in E by lia. exact E.
Qed.
Lemma be4_len_inj {A B} (x : list A) (y : list B) : be_bytes 4 (zlen x) = be_bytes 4 (zlen y) -> zlen x < 2 ^ 32 -> zlen y < 2 ^ 32 -> zlen x = zlen y.
Proof.
  intros E Hx Hy. pose proof (zlen_nonneg x). pose proof (zlen_nonneg y).
  apply (be_inj 4); [exact E| |]; change (256 ^ Z.of_nat 4) with (2 ^ 32); lia.
Qed.
Lemma be2_len_inj {A B} (x : list A) (y : list B) : be_bytes 2 (zlen x) = be_bytes 2 (zlen y) -> zlen x < 65536 -> zlen y < 65536 -> zlen x = zlen y.
Proof.
  intros E Hx Hy. pose proof (zlen_nonneg x). pose proof (zlen_nonneg y).
  apply (be_inj 2); [exact E| |]; change (256 ^ Z.of_nat 2) with 65536; lia.
Qed.

(** The trailer, from the right. *)
Lemma v4_trailer_inj a b st pk ha h st' pk' ha' h' v :
  zlen h + 6 < 2 ^ 32 -> zlen h' + 6 < 2 ^ 32 ->
  a ++ [v; st; pk; ha] ++ be_bytes 2 (zlen h) ++ h ++ [v; 255] ++ be_bytes 4 (zlen h + 6) =
  b ++ [v; st'; pk'; ha'] ++ be_bytes 2 (zlen h') ++ h' ++ [v; 255] ++ be_bytes 4 (zlen h' + 6) ->
  a = b /\ st = st' /\ pk = pk' /\ ha = ha' /\ h = h'.
Proof.
  intros H H' E. rewrite !app_assoc in E. apply app_inj_suffix in E as [E El]; [|now rewrite !be_bytes_len].
  apply (be_inj 4) in El; [|pose proof (zlen_nonneg h); change (256 ^ Z.of_nat 4) with (2 ^ 32); lia
                           |pose proof (zlen_nonneg h'); change (256 ^ Z.of_nat 4) with (2 ^ 32); lia].
  apply app_inj_suffix in E as [E _]; [|reflexivity].
  apply app_inj_suffix in E as [E Eh]; [|lia]. subst h'.
  apply app_inj_suffix in E as [E _]; [|reflexivity].
  apply app_inj_suffix in E as [E E4]; [|reflexivity].
  injection E4 as -> -> ->. auto.
Qed.
Lemma v3_trailer_inj a b st ct st' ct' :
  a ++ [st] ++ be_bytes 4 ct = b ++ [st'] ++ be_bytes 4 ct' -> a = b /\ st = st' /\ be_bytes 4 ct = be_bytes 4 ct'.
Proof.
  intros E. rewrite !app_assoc in E. apply app_inj_suffix in E as [E El]; [|now rewrite !be_bytes_len].
  apply app_inj_suffix in E as [E E1]; [|reflexivity]. injection E1 as ->. auto.
Qed.

Lemma hash_key_rfc k : hash_key k = rfc_hash_key k.
Proof. reflexivity. Qed.
Lemma rfc_hash_key_app k k' x y : rfc_hash_key k ++ x = rfc_hash_key k' ++ y -> zlen k < 65536 -> zlen k' < 65536 -> k = k' /\ x = y.
Proof.
  unfold rfc_hash_key. intros E H H'. rewrite <- !app_assoc in E. apply app_inj_len in E as [_ E]; [|reflexivity].
  apply app_inj_len in E as [El E]; [|now rewrite !be_bytes_len].
  apply app_inj_len in E; [exact E|]. now apply be2_len_inj.
Qed.
Lemma rfc_hash_key_inj k k' : rfc_hash_key k = rfc_hash_key k' -> k = k'.
Proof.
  unfold rfc_hash_key. intros E. apply app_inj_len in E as [_ E]; [|reflexivity].
  apply app_inj_len in E as [_ E]; [exact E|now rewrite !be_bytes_len].
Qed.

(** What the library puts in front of the trailer. *)
Definition lib_covered (version : Z) (c : covered) : res bytes :=
  match c with
  | Document d => Ok d
  | Standalone => Ok []
  | Key k => Ok (rfc_hash_key k)
  | Subkey p k => Ok (rfc_hash_key p ++ rfc_hash_key k)
  | Uid p d => Ok (rfc_hash_key p ++ (if 4 <=? version then [180] ++ be_bytes 4 (zlen d) else []) ++ d)
  | Uattr p d => Ok (rfc_hash_key p ++ (if 4 <=? version then [209] ++ be_bytes 4 (zlen d) else []) ++ d)
  | Sig d => do l <- mk_bytes [zlen d];; Ok ([136] ++ l ++ d)
  end.
Lemma hash_target_covered st version c : fits st c ->
  hash_target st version (fst (fst (call_of c))) (snd (fst (call_of c))) (snd (call_of c)) = lib_covered version c.
Proof.
  intros F. destruct c; cbn [fits In call_of fst snd lib_covered] in *;
    repeat match goal with H : _ \/ _ |- _ => destruct H as [H|H] end; try contradiction; subst st; reflexivity.
Qed.
Lemma lib_covered_v4_inj version c c' st t t' : 4 <= version -> fits st c -> fits st c' -> sized c -> sized c' ->
  lib_covered version c = Ok t -> lib_covered version c' = Ok t' -> t = t' -> c = c'.
Proof.
  intros V F F' S S' E E' <-. assert (V' : (4 <=? version) = true) by lia.
  destruct c, c'; cbn [fits In] in F, F';
    try (exfalso; repeat match goal with H : _ \/ _ |- _ => destruct H as [H|H] end; (contradiction || congruence || lia));
    cbn [lib_covered sized] in *; rewrite ?V' in *.
  - now apply ok_inj in E, E'; subst.
  - reflexivity.
  - apply ok_inj in E, E'. rewrite <- E in E'. apply rfc_hash_key_inj in E'. subst. reflexivity.
  - apply ok_inj in E, E'. rewrite <- E in E'. apply rfc_hash_key_app in E' as [-> E']; [|exact (proj1 S')|exact (proj1 S)].
    apply rfc_hash_key_inj in E'. subst. reflexivity.
  - apply ok_inj in E, E'. rewrite <- E in E'. apply rfc_hash_key_app in E' as [-> E']; [|exact (proj1 S')|exact (proj1 S)].
    rewrite <- !app_assoc in E'. apply app_inj_len in E' as [_ E']; [|reflexivity]. apply app_inj_len in E' as [_ E']; [|rewrite !be_bytes_len; reflexivity]. subst. reflexivity.
  - apply ok_inj in E, E'. rewrite <- E in E'. apply rfc_hash_key_app in E' as [-> E']; [|exact (proj1 S')|exact (proj1 S)]. discriminate E'.
  - apply ok_inj in E, E'. rewrite <- E in E'. apply rfc_hash_key_app in E' as [-> E']; [|exact (proj1 S')|exact (proj1 S)]. discriminate E'.
  - apply ok_inj in E, E'. rewrite <- E in E'. apply rfc_hash_key_app in E' as [-> E']; [|exact (proj1 S')|exact (proj1 S)].
    rewrite <- !app_assoc in E'. apply app_inj_len in E' as [_ E']; [|reflexivity]. apply app_inj_len in E' as [_ E']; [|rewrite !be_bytes_len; reflexivity]. subst. reflexivity.
  - apply bind_ok in E as (l & L & E). apply bind_ok in E' as (l' & L' & E').
    apply mk_bytes_inv in L as [-> _]. apply mk_bytes_inv in L' as [-> _]. apply ok_inj in E, E'.
    rewrite <- E in E'. apply (f_equal (skipn 2)) in E'. cbn [app skipn] in E'. subst. reflexivity.
Qed.
Lemma lib_covered_v3_inj version c c' st t t' : version < 4 -> fits st c -> fits st c' -> sized c -> sized c' ->
  lib_covered version c = Ok t -> lib_covered version c' = Ok t' -> t = t' -> same_user_data c c'.
Proof.
  intros V F F' S S' E E' <-. assert (V' : (4 <=? version) = false) by lia.
  destruct c, c'; cbn [fits In] in F, F';
    try (exfalso; repeat match goal with H : _ \/ _ |- _ => destruct H as [H|H] end; (contradiction || congruence || lia));
    cbn [lib_covered sized same_user_data] in *; rewrite ?V' in *.
  - now apply ok_inj in E, E'; subst.
  - reflexivity.
  - apply ok_inj in E, E'. rewrite <- E in E'. apply rfc_hash_key_inj in E'. subst. reflexivity.
  - apply ok_inj in E, E'. rewrite <- E in E'. apply rfc_hash_key_app in E' as [-> E']; [|exact (proj1 S')|exact (proj1 S)].
    apply rfc_hash_key_inj in E'. subst. reflexivity.
  - apply ok_inj in E, E'. rewrite <- E in E'. apply rfc_hash_key_app in E' as [-> E']; [|exact (proj1 S')|exact (proj1 S)]. cbn [app] in E'. subst. split; reflexivity.
  - apply ok_inj in E, E'. rewrite <- E in E'. apply rfc_hash_key_app in E' as [-> E']; [|exact (proj1 S')|exact (proj1 S)]. cbn [app] in E'. subst. split; reflexivity.
  - apply ok_inj in E, E'. rewrite <- E in E'. apply rfc_hash_key_app in E' as [-> E']; [|exact (proj1 S')|exact (proj1 S)]. cbn [app] in E'. subst. split; reflexivity.
  - apply ok_inj in E, E'. rewrite <- E in E'. apply rfc_hash_key_app in E' as [-> E']; [|exact (proj1 S')|exact (proj1 S)]. cbn [app] in E'. subst. split; reflexivity.
  - apply bind_ok in E as (l & L & E). apply bind_ok in E' as (l' & L' & E').
    apply mk_bytes_inv in L as [-> _]. apply mk_bytes_inv in L' as [-> _]. apply ok_inj in E, E'.
    rewrite <- E in E'. apply (f_equal (skipn 2)) in E'. cbn [app skipn] in E'. subst. reflexivity.
Qed.

Lemma octets_split st v c pk ha fake ct h r : fits st c ->
  hashed_octets st v (fst (fst (call_of c))) (snd (fst (call_of c))) (snd (call_of c)) pk ha fake ct h = Ok r ->
  exists t, lib_covered v c = Ok t /\
    (4 <= v -> r = t ++ [v; st; pk; if fake =? 0 then ha else fake] ++ be_bytes 2 (zlen h) ++ h ++ [v; 255] ++ be_bytes 4 (zlen h + 6)) /\
    (v < 4 -> r = t ++ [st] ++ be_bytes 4 ct).
Proof.
  intros F E. unfold hashed_octets in E. rewrite hash_target_covered in E by easy.
  apply bind_ok in E as (t & T & E). apply bind_ok in E as (u & U & E). apply ok_inj in E. exists t. split; [exact T|].
  unfold hash_trailer in U. split; intros V; rewrite <- E; f_equal.
  - replace (v <? 4) with false in U by lia. apply bind_ok in U as (l & L & U). apply mk_bytes_inv in L as [-> _]. apply ok_inj in U.
    rewrite <- U, int_to_2byte_be, int_to_4byte_be. reflexivity.
  - replace (v <? 4) with true in U by lia. apply bind_ok in U as (l & L & U). apply mk_bytes_inv in L as [-> _]. apply ok_inj in U.
    rewrite <- U, int_to_4byte_be. reflexivity.
Qed.

Lemma v4_binds v st st' c c' pk pk' ha ha' f f' ct ct' h h' r :
  4 <= v -> fits st c -> fits st' c' -> sized c -> sized c' -> zlen h < 65536 -> zlen h' < 65536 ->
  hashed_octets st v (fst (fst (call_of c))) (snd (fst (call_of c))) (snd (call_of c)) pk ha f ct h = Ok r ->
  hashed_octets st' v (fst (fst (call_of c'))) (snd (fst (call_of c'))) (snd (call_of c')) pk' ha' f' ct' h' = Ok r ->
  st = st' /\ pk = pk' /\ (if f =? 0 then ha else f) = (if f' =? 0 then ha' else f') /\ h = h' /\ c = c'.
Proof.
  intros V F F' S S' H H' E E'. apply octets_split in E as (t & T & E & _); [|exact F]. apply octets_split in E' as (t' & T' & E' & _); [|exact F'].
  specialize (E V). specialize (E' V). rewrite E in E'.
  apply v4_trailer_inj in E' as (Et & <- & <- & <- & <-); [|change (2 ^ 32) with 4294967296; lia|change (2 ^ 32) with 4294967296; lia].
  repeat split. eapply lib_covered_v4_inj; eassumption.
Qed.
Lemma v3_binds v st st' c c' pk pk' ha ha' f f' ct ct' h h' r :
  v < 4 -> fits st c -> fits st' c' -> sized c -> sized c' -> 0 <= ct < 2 ^ 32 -> 0 <= ct' < 2 ^ 32 ->
  hashed_octets st v (fst (fst (call_of c))) (snd (fst (call_of c))) (snd (call_of c)) pk ha f ct h = Ok r ->
  hashed_octets st' v (fst (fst (call_of c'))) (snd (fst (call_of c'))) (snd (call_of c')) pk' ha' f' ct' h' = Ok r ->
  st = st' /\ ct = ct' /\ same_user_data c c'.
Proof.
  intros V F F' S S' H H' E E'. apply octets_split in E as (t & T & _ & E); [|exact F]. apply octets_split in E' as (t' & T' & _ & E'); [|exact F'].
  specialize (E V). specialize (E' V). rewrite E in E'.
  apply v3_trailer_inj in E' as (Et & <- & Ect). apply (be_inj 4) in Ect; [|exact H|exact H']. subst ct'.
  repeat split. eapply lib_covered_v3_inj; eassumption.
Qed.

(** Agreement with the RFC. *)
Lemma fits_byte st c : fits st c -> byte st.
Proof.
  unfold byte. destruct c; cbn [fits In]; intros F;
    repeat match goal with H : _ \/ _ |- _ => destruct H as [H|H] end; (contradiction || lia).
Qed.
Lemma v4_rfc st c pk ha ct h : fits st c -> (forall d, c <> Sig d) -> byte pk -> byte ha ->
  hashed_octets st 4 (fst (fst (call_of c))) (snd (fst (call_of c))) (snd (call_of c)) pk ha 0 ct h = Ok (rfc_v4_octets st pk ha h c).
Proof.
  intros F N Hp Hh. unfold hashed_octets. rewrite hash_target_covered by easy.
  assert (T : lib_covered 4 c = Ok (rfc_covered 4 c)). { destruct c; try reflexivity. now destruct (N d). }
  rewrite T. cbn [bind]. unfold hash_trailer. change (4 <? 4) with false. cbv iota. change (0 =? 0) with true. cbv iota.
  rewrite mk_bytes_wf.
  2: { apply fits_byte in F. apply Forall_cons; [split; [discriminate|reflexivity]|]. repeat (apply Forall_cons; [easy|]). apply Forall_nil. }
  cbn [bind]. f_equal. unfold rfc_v4_octets. f_equal. rewrite int_to_2byte_be, int_to_4byte_be.
  replace (zlen ([4; st; pk; ha] ++ be_bytes 2 (zlen h) ++ h)) with (zlen h + 6).
  2: { rewrite !zlen_app, be_bytes_len. change (zlen [4; st; pk; ha]) with 4. lia. }
  rewrite <- !app_assoc. reflexivity.
Qed.
Lemma v3_rfc st c v pk ha f ct h : fits st c -> (forall d, c <> Sig d) -> v < 4 ->
  hashed_octets st v (fst (fst (call_of c))) (snd (fst (call_of c))) (snd (call_of c)) pk ha f ct h = Ok (rfc_v3_octets st ct c).
Proof.
  intros F N V. unfold hashed_octets. rewrite hash_target_covered by easy.
  assert (T : lib_covered v c = Ok (rfc_covered 3 c)).
  { assert (V' : (4 <=? v) = false) by lia. destruct c; cbn [lib_covered rfc_covered]; rewrite ?V'; try reflexivity. now destruct (N d). }
  rewrite T. cbn [bind]. unfold hash_trailer. replace (v <? 4) with true by lia.
  rewrite mk_bytes_wf. 2: { apply fits_byte in F. apply Forall_cons; [easy|apply Forall_nil]. }
  reflexivity.
Qed.

(** The object level. *)
Lemma item_rfc fl i v c : 4 <= v ->
  covers fl i c -> item_signable fl i v = Ok (rfc_covered 4 c).
Proof.
  intros V. assert (V' : (4 <=? v) = true) by lia.
  destruct i; cbn [item_signable]; unfold covers, public_sub_signable, key_signable; rewrite ?V'.
  - now intros ->.
  - now intros (b & -> & ->).
  - now intros (a & b & -> & -> & ->).
  - now intros (b & -> & ->).
  - easy.
  - intros (a & -> & ->). cbn [bind rfc_covered]. reflexivity.
  - intros (a & -> & ->). cbn [bind rfc_covered]. reflexivity.
Qed.
Lemma secret_sub_doubles fl p k v a b : pub_content fl p = Ok a -> pub_content fl k = Ok b ->
  item_signable fl (ISecretSub p k) v = Ok (hash_key a ++ rfc_covered 4 (Subkey a b)).
Proof. intros A B. cbn [item_signable]. unfold public_sub_signable, key_signable. rewrite A, B. reflexivity. Qed.
Lemma sig_signable_v4 fl st pk ha hs t : sig_signable fl 4 st pk ha hs = Ok t ->
  exists h, subs_bytes fl hs = Ok h /\ forall c, rfc_covered 4 c ++ t = rfc_v4_octets st pk ha h c.
Proof.
  unfold sig_signable. change (4 <? 4) with false. cbv iota. intros E. apply bind_ok in E as (l & L & E).
  apply bind_ok in E as (h & Hh & E). exists h. split; [exact Hh|]. intros c.
  unfold hash_trailer in E. change (4 <? 4) with false in E. cbv iota in E. rewrite L in E. cbn [bind] in E. apply ok_inj in E. subst t.
  apply mk_bytes_inv in L as [-> _]. unfold rfc_v4_octets. f_equal. rewrite int_to_2byte_be, int_to_4byte_be.
  replace (zlen ([4; st; pk; ha] ++ be_bytes 2 (zlen h) ++ h)) with (zlen h + 6).
  2: { rewrite !zlen_app, be_bytes_len. change (zlen [4; st; pk; ha]) with 4. lia. }
  rewrite <- !app_assoc. reflexivity.
Qed.
