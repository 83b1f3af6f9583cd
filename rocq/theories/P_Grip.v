(** C106: keygrips. *)
From Verif Require Import Base BaseProofs Spec HexProofs Utils UtilsProofs Framing Text Armor SpecArmor ArmorProofs S2k KeyPackets KeyProofs SigPackets DataPackets UserAttr Packets TransKey Shortcuts KeyGrip SpecGrip.

Lemma hex_char_inj a b : 0 <= a < 16 -> 0 <= b < 16 -> hex_char a = hex_char b -> a = b.
Proof.
  intros A B E. assert (forall x, 0 <= x < 16 -> In x [0;1;2;3;4;5;6;7;8;9;10;11;12;13;14;15]) as K by (intros x Hx; cbn; lia).
  apply K in A, B. cbn in A, B. repeat destruct A as [<-|A]; try contradiction; repeat destruct B as [<-|B]; try contradiction; try reflexivity; discriminate E.
Qed.
Lemma hex_text_inj a : forall b, wf a -> wf b -> hex_text a = hex_text b -> a = b.
Proof.
  induction a as [|x a IH]; intros [|y b] A B E; try reflexivity; try discriminate E.
  pose proof (Forall_inv A) as X. pose proof (Forall_inv B) as Y. unfold byte in X, Y. unfold hex_text in E. cbn [flat_map app] in E. injection E as E1 E2 E3.
  apply hex_char_inj in E1; [|lia|lia]. apply hex_char_inj in E2; [|lia|lia]. f_equal; [lia|]. exact (IH b (Forall_inv_tail A) (Forall_inv_tail B) E3).
Qed.
Lemma dec_digits_ok n : 0 <= n -> Forall (fun c => is_digit c = true) (dec_of n).
Proof. intros H. destruct (Z.eq_dec n 0) as [->|N]; [repeat constructor|]. apply (numeral_digits _ n). apply dec_of_numeral. lia. Qed.
Lemma dec_of_inj a b : 0 <= a -> 0 <= b -> dec_of a = dec_of b -> a = b.
Proof.
  intros A B E. assert (Z0 : forall x, 0 < x -> dec_of x <> dec_of 0).
  { intros x Hx Ex. destruct (numeral_digits _ _ (dec_of_numeral x Hx)) as (_ & _ & c & t & C & N). rewrite Ex in C. change (dec_of 0) with [48] in C. congruence. }
  destruct (Z.eq_dec a 0) as [->|NA], (Z.eq_dec b 0) as [->|NB]; try reflexivity.
  - exfalso. apply (Z0 b); [lia|now symmetry].
  - exfalso. apply (Z0 a); [lia|exact E].
  - apply (numeral_fun (dec_of a)); [apply dec_of_numeral; lia|rewrite E; apply dec_of_numeral; lia].
Qed.
Definition num_ok (o : option Z) : Prop := match o with Some n => 0 <= n | None => True end.
Lemma format_no o : num_ok o -> ~ In 41 (format_number o).
Proof.
  destruct o as [n|]; cbn [num_ok format_number].
  - intros H I. pose proof (dec_digits_ok n H) as D. rewrite Forall_forall in D. apply D in I. discriminate I.
  - intros _ I. cbn in I. lia.
Qed.
Lemma format_inj a b : num_ok a -> num_ok b -> format_number a = format_number b -> a = b.
Proof.
  intros A B E. destruct a as [a|], b as [b|]; cbn [num_ok format_number] in *; [f_equal; now apply dec_of_inj| | |reflexivity]; exfalso.
  - pose proof (dec_digits_ok a A) as D. rewrite E in D. apply Forall_inv in D. discriminate D.
  - pose proof (dec_digits_ok b B) as D. rewrite <- E in D. apply Forall_inv in D. discriminate D.
Qed.
Lemma cut_at (c : Z) a : forall b x y, ~ In c a -> ~ In c b -> a ++ c :: x = b ++ c :: y -> a = b /\ x = y.
Proof.
  induction a as [|u a IH]; intros [|v b] x y A B E; cbn [app] in E.
  - injection E. auto.
  - injection E as E _. exfalso. apply B. left. now symmetry.
  - injection E as E _. exfalso. apply A. now left.
  - injection E as -> E. destruct (IH b x y) as (-> & ->); [intros I; apply A; now right|intros I; apply B; now right|exact E|auto].
Qed.
Lemma next_number a b x y : num_ok a -> num_ok b -> format_number a ++ 41 :: x = format_number b ++ 41 :: y -> a = b /\ x = y.
Proof. intros A B E. apply cut_at in E as (E & F); [|now apply format_no|now apply format_no]. split; [now apply format_inj|exact F]. Qed.

Lemma grip_of_material k f l : material k f l -> exists t, grip_text k = Ok t /\
  (f = 1 /\ (exists n e, l = [n; e] /\ t = str "(public-key(rsa(n" ++ format_number n ++ 41 :: str "(e" ++ format_number e ++ 41 :: str "))") \/
   f = 17 /\ (exists p q g y, l = [p; q; g; y] /\ t = str "(public-key(dsa(p" ++ format_number p ++ 41 :: str "(q" ++ format_number q ++ 41 :: str "(g" ++ format_number g ++ 41 :: str "(y" ++ format_number y ++ 41 :: str "))") \/
   f = 16 /\ (exists p g y, l = [p; g; y] /\ t = str "(public-key(elg(p" ++ format_number p ++ 41 :: str "(g" ++ format_number g ++ 41 :: str "(y" ++ format_number y ++ 41 :: str "))")).
Proof.
  intros M. destruct M as [I|I|I]; unfold grip_text.
  - replace (is_rsa_alg (k_alg k)) with true by (cbn in I; unfold is_rsa_alg; lia). eexists. split; [reflexivity|]. left. split; [reflexivity|]. do 2 eexists. split; reflexivity.
  - replace (is_rsa_alg (k_alg k)) with false by (unfold is_rsa_alg; lia). replace (k_alg k =? 17) with true by lia. eexists. split; [reflexivity|]. right. left. split; [reflexivity|]. do 4 eexists. split; reflexivity.
  - replace (is_rsa_alg (k_alg k)) with false by (cbn in I; unfold is_rsa_alg; lia). replace (k_alg k =? 17) with false by (cbn in I; lia). replace (is_elg_alg (k_alg k)) with true by (cbn in I; unfold is_elg_alg; lia).
    eexists. split; [reflexivity|]. right. right. split; [reflexivity|]. do 3 eexists. split; reflexivity.
Qed.
Lemma after_prefix (p : text) x y : p ++ x = p ++ y -> x = y.
Proof. apply app_inv_head. Qed.
Ltac num N := apply next_number in N as (-> & N); [|assumption|assumption].
Ltac pre N := apply after_prefix in N.
Lemma grip_text_inj k1 k2 f1 f2 l1 l2 t : material k1 f1 l1 -> material k2 f2 l2 -> numbers_ok l1 -> numbers_ok l2 -> grip_text k1 = Ok t -> grip_text k2 = Ok t -> f1 = f2 /\ l1 = l2.
Proof.
  intros M1 M2 N1 N2 G1 G2. destruct (grip_of_material _ _ _ M1) as (t1 & H1 & C1). destruct (grip_of_material _ _ _ M2) as (t2 & H2 & C2).
  assert (t1 = t) by congruence. assert (t2 = t1) by congruence. clear G1 G2 H1 H2 M1 M2. subst t1 t2.
  destruct C1 as [(-> & n & e & -> & E1)|[(-> & p & q & g & y & -> & E1)|(-> & p & g & y & -> & E1)]], C2 as [(-> & n' & e' & -> & E2)|[(-> & p' & q' & g' & y' & -> & E2)|(-> & p' & g' & y' & -> & E2)]];
    rewrite E1 in E2; try discriminate E2; split; try reflexivity; unfold numbers_ok in N1, N2; repeat match goal with N : Forall _ (_ :: _) |- _ => apply Forall_cons_iff in N as (? & N) end.
  - pre E2. num E2. pre E2. num E2. reflexivity.
  - pre E2. num E2. pre E2. num E2. pre E2. num E2. pre E2. num E2. reflexivity.
  - pre E2. num E2. pre E2. num E2. pre E2. num E2. reflexivity.
Qed.

(** every key of the three kinds has a keygrip, and equal keys have equal ones: version, dates, and which of the numbers of its kind names the
    algorithm do not matter *)
Theorem c106_same_numbers sha1 k1 k2 f l : (forall d, wf (sha1 d)) -> material k1 f l -> material k2 f l ->
  exists g, keygrip sha1 k1 = Ok g /\ keygrip sha1 k2 = Ok g /\ exists t, g = hex_text (sha1 t).
Proof.
  intros W M1 M2. destruct (grip_of_material _ _ _ M1) as (t1 & H1 & C1). destruct (grip_of_material _ _ _ M2) as (t2 & H2 & C2).
  assert (E : t1 = t2).
  { destruct C1 as [(-> & n & e & -> & E1)|[(-> & p & q & g & y & -> & E1)|(-> & p & g & y & -> & E1)]], C2 as [(A & n' & e' & B & E2)|[(A & p' & q' & g' & y' & B & E2)|(A & p' & g' & y' & B & E2)]]; try discriminate A; try discriminate B.
    - assert (n' = n) by congruence. assert (e' = e) by congruence. subst n' e'. congruence.
    - assert (p' = p) by congruence. assert (q' = q) by congruence. assert (g' = g) by congruence. assert (y' = y) by congruence. subst p' q' g' y'. congruence.
    - assert (p' = p) by congruence. assert (g' = g) by congruence. assert (y' = y) by congruence. subst p' g' y'. congruence. }
  subst t2. exists (hex_text (sha1 t1)). unfold keygrip. rewrite H1, H2. cbn [bind]. unfold hexdigest. rewrite bytearray_to_hex_all by apply W. split; [reflexivity|]. split; [reflexivity|]. now exists t1.
Qed.
Print Assumptions c106_same_numbers.

(** different keys have different keygrips, unless SHA-1 collides *)
Theorem c106_different_numbers sha1 k1 k2 f1 f2 l1 l2 g : (forall d, wf (sha1 d)) -> material k1 f1 l1 -> material k2 f2 l2 -> numbers_ok l1 -> numbers_ok l2 ->
  keygrip sha1 k1 = Ok g -> keygrip sha1 k2 = Ok g -> (f1 = f2 /\ l1 = l2) \/ exists t1 t2, t1 <> t2 /\ sha1 t1 = sha1 t2.
Proof.
  intros W M1 M2 N1 N2 G1 G2. destruct (grip_of_material _ _ _ M1) as (t1 & H1 & _). destruct (grip_of_material _ _ _ M2) as (t2 & H2 & _).
  unfold keygrip in G1, G2. rewrite H1 in G1. rewrite H2 in G2. cbn [bind] in G1, G2. unfold hexdigest in G1, G2. rewrite bytearray_to_hex_all in G1, G2 by apply W. apply ok_inj in G1, G2.
  rewrite <- G1 in G2. apply hex_text_inj in G2; [|apply W|apply W].
  destruct (list_eq_dec Z.eq_dec t1 t2) as [E|E]; [left; subst t2; exact (grip_text_inj _ _ _ _ _ _ t1 M1 M2 N1 N2 H1 H2)|right; exists t1, t2; split; [exact E|now symmetry]].
Qed.
Print Assumptions c106_different_numbers.

(** the other algorithms have none *)
Theorem c106_other_algorithms sha1 k : ~ In (k_alg k) [1; 2; 3; 16; 17; 20] -> keygrip sha1 k = Err ValueError.
Proof.
  intros N. cbn in N. unfold keygrip, grip_text. replace (is_rsa_alg (k_alg k)) with false by (unfold is_rsa_alg; lia). replace (k_alg k =? 17) with false by lia.
  replace (is_elg_alg (k_alg k)) with false by (unfold is_elg_alg; lia). reflexivity.
Qed.
Print Assumptions c106_other_algorithms.

(** the public copy of a secret key, locked or not, keeps its keygrip, and so does each of its subkeys *)
Theorem c106_public_copy sha1 prime o : obj_keygrip sha1 (tk_key (to_public_key prime o)) = obj_keygrip sha1 (tk_key o) /\
  map (fun s => obj_keygrip sha1 (fst s)) (tk_subs (to_public_key prime o)) = map (fun s => obj_keygrip sha1 (fst s)) (tk_subs o).
Proof.
  assert (K : forall k, obj_keygrip sha1 (public_kobject prime k) = obj_keygrip sha1 k).
  { intros k. unfold obj_keygrip, keygrip, grip_text, public_kobject. cbn [ko_pub k_alg k_n k_e k_p k_q k_g k_y]. destruct (is_rsa_alg (k_alg (ko_pub k))); reflexivity. }
  split; [apply K|]. cbn [to_public_key tk_subs]. rewrite map_map. apply map_ext. intros s. apply K.
Qed.
Print Assumptions c106_public_copy.

(** The keygrip GnuPG prints for an RSA key is SHA-1 of the octets of n (as a signed or an unsigned number). This one is not, unless SHA-1 collides. *)
Lemma be_val_cons x (r : bytes) : be_val (x :: r) = x * 256 ^ zlen r + be_val r.
Proof. change (x :: r) with ([x] ++ r). rewrite be_val_app. replace (be_val [x]) with x by (unfold be_val; cbn; lia). reflexivity. Qed.
Lemma numeral_bound p n : numeral p n -> n < 10 ^ zlen p.
Proof.
  induction 1 as [d Hd|p n d Hp IH Hd]; [change (zlen [48 + d]) with 1; lia|].
  rewrite zlen_app. change (zlen [48 + d]) with 1. rewrite Z.pow_add_r by (try apply zlen_nonneg; lia). lia.
Qed.
Lemma octets_short d n : 0 < n -> octets_of_number d n -> zlen d <= zlen (dec_of n) + 1.
Proof.
  intros Hn (W & E & C). pose proof (numeral_bound _ _ (dec_of_numeral n Hn)) as B. assert (L : 256 ^ (zlen d - 2) <= n).
  { destruct d as [|x r]; [contradiction|]. pose proof (Forall_inv W) as X. unfold byte in X. pose proof (Forall_inv_tail W) as R.
    destruct (Z.eq_dec x 0) as [->|N].
    - destruct r as [|y r]; [contradiction|]. pose proof (Forall_inv R) as Y. unfold byte in Y. pose proof (be_val_nonneg r (Forall_inv_tail R)) as P.
      rewrite !be_val_cons in E. rewrite !zlen_cons. replace (1 + (1 + zlen r) - 2) with (zlen r) by lia. assert (0 < 256 ^ zlen r) by (apply Z.pow_pos_nonneg; [lia|apply zlen_nonneg]). nia.
    - pose proof (be_val_nonneg r R) as P. rewrite be_val_cons in E. rewrite zlen_cons. assert (0 < 256 ^ zlen r) by (apply Z.pow_pos_nonneg; [lia|apply zlen_nonneg]).
      assert (256 ^ (1 + zlen r - 2) <= 256 ^ zlen r) by (apply Z.pow_le_mono_r; lia). nia. }
  destruct (Z_lt_ge_dec (zlen d - 2) (zlen (dec_of n))) as [K|K]; [lia|]. exfalso.
  assert (10 ^ zlen (dec_of n) <= 256 ^ zlen (dec_of n)) by (apply Z.pow_le_mono_l; split; [lia|lia]).
  assert (256 ^ zlen (dec_of n) <= 256 ^ (zlen d - 2)) by (apply Z.pow_le_mono_r; lia). lia.
Qed.
Theorem c106_not_the_modulus_digest_refuted sha1 k n d g : (forall d, wf (sha1 d)) -> In (k_alg k) [1; 2; 3] -> k_n k = Some n -> 0 < n -> octets_of_number d n ->
  keygrip sha1 k = Ok g -> g = hex_text (sha1 d) -> exists t1 t2, t1 <> t2 /\ sha1 t1 = sha1 t2.
Proof.
  intros W A N P O G E. pose proof (mat_rsa k A) as M. destruct (grip_of_material _ _ _ M) as (t & H & C).
  unfold keygrip in G. rewrite H in G. cbn [bind] in G. unfold hexdigest in G. rewrite bytearray_to_hex_all in G by apply W. apply ok_inj in G. rewrite E in G. apply hex_text_inj in G; [|apply W|apply W].
  exists t, d. split; [|exact G]. intros ->. pose proof (octets_short d n P O) as L.
  destruct C as [(_ & n' & e' & L1 & T)|[(X & _)|(X & _)]]; try discriminate X. assert (n' = Some n) by congruence. subst n'. rewrite T in L. cbn [format_number] in L. rewrite !zlen_app in L.
  change (zlen (str "(public-key(rsa(n")) with 17 in L. pose proof (zlen_nonneg (41 :: str "(e" ++ format_number e' ++ 41 :: str "))")). lia.
Qed.
Print Assumptions c106_not_the_modulus_digest_refuted.

(** a number that is missing is written as a word instead of being refused: such keys have a keygrip although no key operation works on them *)
Theorem c106_missing_numbers_refuted sha1 v t a x p q g y : (forall d, wf (sha1 d)) -> In a [1; 2; 3] ->
  keygrip sha1 (PubKey v t a x None None p q g y) = Ok (hex_text (sha1 (str "(public-key(rsa(nNone)(eNone)))"))).
Proof.
  intros W A. unfold keygrip, grip_text. cbn [k_alg k_n k_e]. replace (is_rsa_alg a) with true by (cbn in A; unfold is_rsa_alg; lia). cbn [bind]. unfold hexdigest. now rewrite bytearray_to_hex_all by apply W.
Qed.
Print Assumptions c106_missing_numbers_refuted.

Example c106_text_ex : grip_text (PubKey 4 1700000000 1 None (Some 3233) (Some 17) None None None None) = Ok (str "(public-key(rsa(n3233)(e17)))").
Proof. vm_compute. reflexivity. Qed.
Example c106_text_elg_ex : grip_text (PubKey 4 1700000000 20 None None None (Some 1019) (Some 0) (Some 2) (Some 77)) = Ok (str "(public-key(elg(p1019)(g2)(y77)))").
Proof. vm_compute. reflexivity. Qed.
Example c106_hyp_ex : (let k := PubKey 4 5 17 None None None (Some 23) (Some 11) (Some 4) (Some 0) in material k 17 [Some 23; Some 11; Some 4; Some 0] /\ numbers_ok [Some 23; Some 11; Some 4; Some 0]) /\
  octets_of_number [12; 161] 3233 /\ octets_of_number [0; 200] 200 /\ forall d : bytes, wf ((fun d : bytes => repeat (zlen d mod 256) 20) d).
Proof.
  split; [split; [exact (mat_dsa (PubKey 4 5 17 None None None (Some 23) (Some 11) (Some 4) (Some 0)) eq_refl)|repeat (apply Forall_cons; [lia|]); apply Forall_nil]|].
  split; [split; [repeat constructor; unfold byte; lia|split; [reflexivity|exact Logic.I]]|]. split; [split; [repeat constructor; unfold byte; lia|split; [reflexivity|lia]]|].
  intros d. unfold wf. apply Forall_forall. intros x I. apply repeat_spec in I. subst x. unfold byte. apply Z.mod_pos_bound. lia.
Qed.
