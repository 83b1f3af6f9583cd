(** The assignments made for one subpacket are what RFC 4880 says it tells. *)
From Verif Require Import Base BaseProofs Utils UtilsProofs Text Regex DumpSig DumpSigProofs Spec SpecDumpSig HexProofs.

Lemma land_bit a k : 0 <= k -> (Z.land a (2 ^ k) =? 0) = negb (Z.testbit a k).
Proof.
  intros Hk. destruct (Z.testbit a k) eqn:T; cbn [negb].
  - assert (N : Z.land a (2 ^ k) <> 0). { intros E. assert (X : Z.testbit (Z.land a (2 ^ k)) k = true) by (rewrite Z.land_spec, T, Z.pow2_bits_true by lia; reflexivity). rewrite E, Z.bits_0 in X. discriminate X. }
    lia.
  - assert (N : Z.land a (2 ^ k) = 0). { apply Z.bits_inj'. intros n Hn. rewrite Z.land_spec, Z.bits_0. destruct (Z.eq_dec n k) as [->|D]; [rewrite T; reflexivity|]. rewrite Z.pow2_bits_false by lia. apply andb_false_r. }
    rewrite N. reflexivity.
Qed.
Lemma truth_bit a k : 0 <= k -> truth (Z.land a (2 ^ k)) = Z.testbit a k.
Proof. intros Hk. unfold truth. rewrite land_bit by exact Hk. apply negb_involutive. Qed.
Lemma get_0 (d : bytes) a : get d 0 = Ok a -> exists r, d = a :: r.
Proof. destruct d as [|x r]; [discriminate|]. intros H. assert (E : get (x :: r) 0 = Ok x) by exact (get_app_0 [] r x). exists r. congruence. Qed.
Lemma get_1 (d : bytes) a b : get d 0 = Ok a -> get d 1 = Ok b -> exists r, d = a :: b :: r.
Proof.
  intros H G. destruct (get_0 _ _ H) as [r ->]. destruct r as [|y r]; [discriminate G|]. assert (E : get (a :: y :: r) 1 = Ok y) by exact (get_app_0 [a] r y). exists r. congruence.
Qed.
Lemma cons_get (a : Z) r : get (a :: r) 0 = Ok a. Proof. exact (get_app_0 [] r a). Qed.
Lemma cons_get1 (a b : Z) r : get (a :: b :: r) 1 = Ok b. Proof. exact (get_app_0 [a] r b). Qed.
Lemma tail1 (a : Z) r : slice_from (a :: r) 1 = r. Proof. exact (slice_from_app [a] r). Qed.
Lemma tail2 (a b : Z) r : slice_from (a :: b :: r) 2 = r. Proof. exact (slice_from_app [a; b] r). Qed.
Lemma long_front d r : zlen d = 4 -> long_to_int (d ++ r) 0 = Ok (be_val d).
Proof. intros L. exact (bytes_to_int_spec [] d r 4 (eq_sym L)). Qed.
Lemma long_inv d n : long_to_int d 0 = Ok n -> exists p r, d = p ++ r /\ zlen p = 4 /\ n = be_val p.
Proof.
  intros H. destruct (Z_lt_le_dec (zlen d) 4) as [L|L].
  - exfalso. unfold long_to_int in H. destruct d as [|a [|b [|c [|e d]]]]; try (vm_compute in H; discriminate H); try discriminate H. unfold zlen in L. cbn [length] in L. lia.
  - exists (firstn 4 d), (skipn 4 d). assert (Lp : zlen (firstn 4 d) = 4) by (unfold zlen in *; rewrite firstn_length; lia). split; [symmetry; apply firstn_skipn|]. split; [exact Lp|]. rewrite <- (firstn_skipn 4 d), long_front in H by exact Lp. congruence.
Qed.
Lemma any_false l : any l = false <-> forall x, In x l -> x = 0.
Proof.
  unfold any. split.
  - intros H x I. destruct (x =? 0) eqn:E; [lia|]. assert (X : existsb (fun b => negb (b =? 0)) l = true) by (apply existsb_exists; exists x; rewrite E; auto). congruence.
  - intros H. destruct (existsb _ l) eqn:E; [|reflexivity]. apply existsb_exists in E as (x & I & E). rewrite (H x I) in E. discriminate E.
Qed.
Lemma low7 a : 0 <= a < 256 -> (Z.land a 127 =? 0) = ((a =? 0) || (a =? 128))%bool.
Proof. intros B. change 127 with (Z.ones 7). rewrite Z.land_ones by lia. change (2 ^ 7) with 128. destruct (a =? 0) eqn:E0; [assert (a = 0) by lia; subst; reflexivity|]. destruct (a =? 128) eqn:E1; [assert (a = 128) by lia; subst; reflexivity|]. cbn [orb]. assert (a < 128 \/ 128 <= a) as [L|L] by lia; [rewrite Z.mod_small by lia; lia|]. rewrite <- (Z.mod_add a (-1)) by lia. rewrite Z.mod_small by lia. lia. Qed.
Lemma high7 a : 0 <= a < 256 -> (Z.land a 254 =? 0) = ((a =? 0) || (a =? 1))%bool /\ (a = 0 \/ a = 1 -> Z.land a 1 = a).
Proof.
  intros B. split; [|intros [-> | ->]; reflexivity]. assert (F : forallb (fun n => Bool.eqb (Z.land (Z.of_nat n) 254 =? 0) ((Z.of_nat n =? 0) || (Z.of_nat n =? 1))) (seq 0 256) = true) by (vm_compute; reflexivity).
  rewrite forallb_forall in F. specialize (F (Z.to_nat a) ltac:(apply in_seq; lia)). rewrite Z2Nat.id in F by lia. apply eqb_prop in F. exact F.
Qed.
Lemma bit7 a : a = 0 \/ a = 128 -> truth (Z.land a 128) = (a =? 128).
Proof. intros [-> | ->]; reflexivity. Qed.

Section T.
Variable utf8r : bytes -> text.
Lemma wf_head (a : Z) r : wf (a :: r) -> 0 <= a < 256 /\ wf r.
Proof. intros W. split; [exact (Forall_inv W)|exact (Forall_inv_tail W)]. Qed.
Ltac bits := repeat match goal with |- context [truth (Z.land ?a ?n)] => let k := eval compute in (Z.log2 n) in change (Z.land a n) with (Z.land a (2 ^ k)); rewrite (truth_bit a k) by lia end.
Lemma simple_tells t hs cr d self ty owner u : wf d -> simple utf8r t hs cr d self ty owner = Ok u -> forall f v, In (f, v) u -> tells utf8r self ty owner t hs d f v.
Proof.
  intros W H f v I. unfold simple in H.
  repeat match type of H with match ?x with _ => _ end = _ => (let T := type of x in match T with Z => idtac | positive => idtac end); destruct x; try (destruct cr; [discriminate H|]; injection H as <-; destruct I; fail) end.
  all: repeat match type of H with
  | bind _ _ = Ok _ => let a := fresh "a" in let E := fresh "E" in apply bind_ok in H as (a & E & H)
  | (if ?b then _ else _) = Ok _ => let Q := fresh "Q" in destruct b eqn:Q; try discriminate H
  end; assert (Hu := H); clear H; apply (f_equal (fun x => match x with Ok y => y | Err _ => u end)) in Hu; cbv beta iota in Hu; subst u.
  all: repeat match goal with G : get ?d 0 = Ok ?a, G' : get ?d 1 = Ok ?b |- _ => let r := fresh "r" in destruct (get_1 _ _ _ G G') as [r ->]; clear G G' end.
  all: repeat match goal with G : get ?d 0 = Ok ?a |- _ => let r := fresh "r" in destruct (get_0 _ _ G) as [r ->]; clear G end.
  all: repeat match goal with G : long_to_int ?d 0 = Ok ?a |- _ => let r := fresh "r" in let p := fresh "p" in let L := fresh "L" in destruct (long_inv _ _ G) as (p & r & -> & L & ->); clear G end.
  all: repeat match type of I with In _ (if ?b then _ else _) => let Q := fresh "Q" in destruct b eqn:Q | In _ (_ ++ _) => apply in_app_iff in I as [I|I] end; cbn [In] in I; try contradiction.
  all: repeat destruct I as [I|I]; try contradiction; repeat match type of I with In _ (if ?b then _ else _) => let Q := fresh "Q" in destruct b eqn:Q end; cbn [In] in I; repeat destruct I as [I|I]; try contradiction; injection I as <- <-.
  all: try match goal with Q : negb ?x = false |- _ => is_var x; apply negb_false_iff in Q; subst x end.
  all: try match goal with Q : negb (is_one _ _) = false |- _ => apply negb_false_iff in Q end.
  all: try match goal with Q : (?x && _)%bool = true |- _ => apply andb_true_iff in Q as [-> Q] end.
  all: try rewrite !tail1 in *; try rewrite !tail2 in *.
  all: repeat match goal with E : bytearray_to_hex ?r 0 None = Ok ?a |- _ => rewrite bytearray_to_hex_all in E by (apply wf_head in W as [_ W]; apply wf_head in W as [_ W]; exact W); assert (a = hex_text r) by congruence; subst a; clear E end.
  all: try match goal with Q : (Z.land ?a 128 =? 0) = false |- _ => change 128 with (2 ^ 7) in Q; rewrite land_bit in Q by lia; apply negb_false_iff in Q end.
  all: try match goal with Q : (negb (Z.land ?a 127 =? 0) || _)%bool = false |- _ => apply orb_false_iff in Q as [Q Q']; apply negb_false_iff in Q; rewrite low7 in Q by exact (proj1 (wf_head _ _ W)); rewrite any_false in Q'; rewrite bit7 by lia; constructor; [reflexivity|lia|exact Q'] end.
  all: try match goal with Q : (negb (Z.land ?a 254 =? 0) || _)%bool = false |- _ => apply orb_false_iff in Q as [Q Q']; apply negb_false_iff in Q; destruct (high7 a (proj1 (wf_head _ _ W))) as [A B]; rewrite A in Q; rewrite any_false in Q'; rewrite B by lia; constructor; [reflexivity|lia|exact Q'] end.
  all: bits; unfold truth in *; constructor; cbn in *; auto; lia.
Qed.
Lemma tells_simple t hs cr d self ty owner u f v : wf d -> simple utf8r t hs cr d self ty owner = Ok u -> tells utf8r self ty owner t hs d f v -> In (f, v) u.
Proof.
  intros W H T. destruct T; cbn [simple] in H; try match goal with Q : self = true |- _ => subst self end; cbn [negb] in H.
  all: repeat match type of H with
    | context [get (?a :: ?b :: ?r) 1] => rewrite (cons_get1 a b r) in H
    | context [get (?a :: ?r) 0] => rewrite (cons_get a r) in H
    | context [long_to_int (?p ++ ?q) 0] => rewrite (long_front p q) in H by assumption
    | context [slice_from (?a :: ?b :: ?r) 2] => rewrite (tail2 a b r) in H
    | context [slice_from (?a :: ?r) 1] => rewrite (tail1 a r) in H
    | context [bytearray_to_hex ?r 0 None] => rewrite (bytearray_to_hex_all r) in H by (apply wf_head in W as [_ W]; apply wf_head in W as [_ W]; exact W)
    end; cbn [bind] in H.
  all: try match type of H with context [Z.land ?a 128 =? 0] => change 128 with (2 ^ 7) in H at 1; rewrite (land_bit a 7) in H by lia; try (match goal with Q : Z.testbit _ 7 = true |- _ => rewrite Q in H; cbn [negb] in H end) end.
  all: try match type of H with context [truth ?z] => match z with be_val _ => idtac | _ => is_var z end; unfold truth in H; replace (z =? 0) with false in H by lia; cbn [negb] in H end.
  all: try match goal with Q : forall x, In x ?r -> x = 0 |- _ => apply any_false in Q; rewrite Q in H end.
  all: try match type of H with context [is_one ?o [13; 17]] => replace (is_one o [13; 17]) with true in H by (cbn; lia); cbn [negb] in H end.
  all: try match goal with Q : ?y = 31 \/ ?y = 24 |- _ => replace (is_one y [31; 24]) with true in H by (cbn; lia); cbn [andb] in H end.
  all: try match goal with Q : ?y = 32 \/ ?y = 40 |- _ => replace (is_one y [32; 40]) with true in H by (cbn; lia); cbn [negb] in H end.
  all: try match type of H with context [is_one ?a [0; 1; 2; 3; 32]] => replace (is_one a [0; 1; 2; 3; 32] || (99 <? a) && (a <? 111))%bool with true in H by (cbn; lia) end.
  all: try match goal with Q : ?a = 0 \/ ?a = 128 |- _ => rewrite (low7 a (proj1 (wf_head _ _ W))) in H; replace ((a =? 0) || (a =? 128))%bool with true in H by lia; cbn [negb orb] in H; rewrite bit7 in H by exact Q end.
  all: try match goal with Q : ?a = 0 \/ ?a = 1 |- _ => destruct (high7 a (proj1 (wf_head _ _ W))) as [A B]; rewrite A in H; replace ((a =? 0) || (a =? 1))%bool with true in H by lia; cbn [negb orb] in H; rewrite B in H by exact Q end.
  all: repeat match type of H with context [truth (Z.land ?a ?n)] => let k := eval compute in (Z.log2 n) in change (Z.land a n) with (Z.land a (2 ^ k)) in H; rewrite (truth_bit a k) in H by lia end.
  all: apply (f_equal (fun x => match x with Ok y => y | Err _ => u end)) in H; cbv beta iota in H; subst u; try (match goal with |- context [if ?b then _ else _] => destruct b end); cbn [In app]; tauto.
Qed.
Lemma simple_nodup t hs cr d self ty owner u : simple utf8r t hs cr d self ty owner = Ok u -> NoDup (map fst u).
Proof.
  intros H. unfold simple in H.
  repeat match type of H with match ?x with _ => _ end = _ => (let T := type of x in match T with Z => idtac | positive => idtac end); destruct x; try (destruct cr; [discriminate H|]; injection H as <-; constructor; fail) end.
  all: repeat match type of H with
  | bind _ _ = Ok _ => let a := fresh "a" in let E := fresh "E" in apply bind_ok in H as (a & E & H)
  | (if ?b then _ else _) = Ok _ => let Q := fresh "Q" in destruct b eqn:Q; try discriminate H
  end; assert (Hu := H); clear H; apply (f_equal (fun x => match x with Ok y => y | Err _ => u end)) in Hu; cbv beta iota in Hu; subst u.
  all: repeat match goal with |- context [if ?b then _ else _] => destruct b end; cbn [map app fst]; repeat (constructor; [cbn [In]; intuition discriminate|]); constructor.
Qed.
Lemma lookup_assign_nodup u : NoDup (map fst u) -> forall l f v, In (f, v) u -> lookup (assign l u) f = Some v.
Proof.
  induction u as [|[g w] u IH]; intros N l f v I; [destruct I|]. cbn [map fst] in N. apply NoDup_cons_iff in N as [N1 N2]. unfold assign. cbn [fold_left fst snd]. fold (assign (assign1 l g w) u). destruct I as [I|I]; [|now apply IH].
  injection I as <- <-. rewrite lookup_assign_out by exact N1. rewrite lookup_assign1, beq_refl. reflexivity.
Qed.

Variables (b64 : bytes -> text) (emb : bytes -> res dsig).
(** nothing is told by the subpackets that are handled in their own way *)
Lemma tells_special t h self ty owner d f v : tells utf8r self ty owner t h d f v -> is_one t [6; 16; 20; 32] = false /\ type_of f = t.
Proof. intros T. destruct T; split; reflexivity. Qed.
(** the dictionary after the subpackets: what the last subpacket says that says something *)
Lemma subs_tell owner ty l : Forall (fun b => wf (b_data b)) l -> forall s s', parse_subs utf8r b64 emb owner ty s l = Ok s' -> forall f v,
  lookup (e_fields s') f = Some v <->
  (exists a b c, l = a ++ b :: c /\ tells utf8r (e_self s) ty owner (b_type b) (b_hashed b) (b_data b) f v /\ forall x w, In x c -> ~ tells utf8r (e_self s) ty owner (b_type x) (b_hashed x) (b_data x) f w)
  \/ (forall x w, In x l -> ~ tells utf8r (e_self s) ty owner (b_type x) (b_hashed x) (b_data x) f w) /\ lookup (e_fields s) f = Some v.
Proof.
  intros W. induction l as [|b l IH] using rev_ind; intros s s' H f v.
  - injection H as <-. split; [intros L; right; split; [intros x w []|exact L]|]. intros [(a & b & c & E & _) | [_ L]]; [destruct a; discriminate E|exact L].
  - apply Forall_app in W as [W Wb]. apply Forall_inv in Wb. rewrite subs_app in H. apply bind_ok in H as (m & Hm & H). specialize (IH W _ _ Hm f v). pose proof (subs_keep _ _ _ _ _ _ _ _ Hm) as (Sm & _).
    assert (Hu : (exists u, simple utf8r (b_type b) (b_hashed b) (b_critical b) (b_data b) (e_self m) ty owner = Ok u /\ e_fields s' = assign (e_fields m) u) \/ (is_one (b_type b) [6; 16; 20; 32] = true /\ e_fields s' = e_fields m)).
    { cbn [parse_subs] in H. destruct (b_type b =? 16) eqn:T16; [right; split; [cbn [is_one existsb]; rewrite T16; cbn [orb]; destruct (b_type b =? 6); reflexivity|congruence]|]. apply bind_ok in H as (s1 & H1 & H). assert (s1 = s') by congruence. subst s1.
      destruct (is_one (b_type b) [6; 20; 32]) eqn:Sp.
      - right. split; [cbn [is_one existsb] in *; rewrite T16; exact Sp|]. unfold parse_sub in H1. cbv zeta in H1. cbn [is_one existsb] in Sp. assert (T : b_type b = 6 \/ b_type b = 20 \/ b_type b = 32) by lia. destruct T as [T | [T | T]]; rewrite T in H1.
        + destruct (validate_subpacket_regex _); [|congruence|discriminate H1]. apply (f_equal (fun x => match x with Ok y => y | Err _ => s' end)) in H1. cbv beta iota in H1. subst s'. reflexivity.
        + apply bind_ok in H1 as (n & _ & H1). destruct n; [|congruence]. destruct (b_critical b); [discriminate H1|]. apply (f_equal (fun x => match x with Ok y => y | Err _ => s' end)) in H1. cbv beta iota in H1. subst s'. reflexivity.
        + apply bind_ok in H1 as (x & E & _). exfalso. eapply embedded_never. exact E.
      - left. rewrite plain_type in H1 by exact Sp. apply bind_ok in H1 as (u & U & H1). exists u. split; [exact U|]. apply (f_equal (fun x => match x with Ok y => y | Err _ => s' end)) in H1. cbv beta iota in H1. subst s'. reflexivity. }
    destruct Hu as [(u & U & F) | [Sp F]].
    + rewrite F. rewrite Sm in U. pose proof (simple_nodup _ _ _ _ _ _ _ _ U) as ND.
      assert (K : (exists w, In (f, w) u) \/ ~ In f (map fst u)). { destruct (in_dec (fun x y : field => match bool_dec (field_beq x y) true with left e => left (proj1 (beq_eq x y) e) | right n => right (fun e => n (proj2 (beq_eq x y) e)) end) f (map fst u)) as [I|I]; [left|right; exact I]. apply in_map_iff in I as ([g w] & E & I). cbn in E. subst g. now exists w. }
      destruct K as [[w I]|N].
      * rewrite (lookup_assign_nodup u ND _ _ _ I). pose proof (simple_tells _ _ _ _ _ _ _ _ Wb U _ _ I) as T. split.
        -- intros E. left. exists l, b, []. split; [reflexivity|]. split; [congruence|intros x y []].
        -- intros [(a & x & c & E & Tx & Nc) | [Nl _]].
           ++ destruct c as [|c0 c]. { apply app_inj_tail in E as [_ <-]. pose proof (tells_simple _ _ _ _ _ _ _ _ _ _ Wb U Tx) as J. rewrite <- (lookup_assign_nodup u ND [] _ _ I). apply (lookup_assign_nodup u ND [] _ _ J). }
              exfalso. apply (Nc b w); [|exact T]. assert (Q : In b (x :: c0 :: c)). { destruct (exists_last (l := c0 :: c) ltac:(discriminate)) as (c' & z & Ez). rewrite Ez in E. change (a ++ x :: c' ++ [z]) with (a ++ (x :: c') ++ [z]) in E. rewrite app_assoc in E. apply app_inj_tail in E as [_ <-]. right. rewrite Ez. apply in_or_app. right. now left. }
              destruct (exists_last (l := c0 :: c) ltac:(discriminate)) as (c' & z & Ez). rewrite Ez in E |- *. change (a ++ x :: c' ++ [z]) with (a ++ (x :: c') ++ [z]) in E. rewrite app_assoc in E. apply app_inj_tail in E as [_ <-]. apply in_or_app. right. now left.
           ++ exfalso. apply (Nl b w); [apply in_or_app; right; now left|exact T].
      * rewrite lookup_assign_out by exact N. assert (NT : forall w, ~ tells utf8r (e_self s) ty owner (b_type b) (b_hashed b) (b_data b) f w). { intros w T. apply N. apply in_map_iff. exists (f, w). split; [reflexivity|]. eapply tells_simple; eauto. }
        rewrite IH. clear -NT. split.
        -- intros [(a & x & c & E & Tx & Nc) | [Nl L]].
           ++ left. exists a, x, (c ++ [b]). split; [rewrite E, <- app_assoc; reflexivity|]. split; [exact Tx|]. intros y w Iy. apply in_app_iff in Iy as [Iy|[<-|[]]]; auto.
           ++ right. split; [|exact L]. intros y w Iy. apply in_app_iff in Iy as [Iy|[<-|[]]]; auto.
        -- intros [(a & x & c & E & Tx & Nc) | [Nl L]].
           ++ left. destruct c as [|c0 c]. { apply app_inj_tail in E as [_ <-]. exfalso. exact (NT _ Tx). }
              destruct (exists_last (l := c0 :: c) ltac:(discriminate)) as (c' & z & Ez). rewrite Ez in E, Nc. change (a ++ x :: c' ++ [z]) with (a ++ (x :: c') ++ [z]) in E. rewrite app_assoc in E. apply app_inj_tail in E as [E _]. exists a, x, c'. split; [exact E|]. split; [exact Tx|]. intros y w Iy. apply Nc. apply in_or_app. now left.
           ++ right. split; [|exact L]. intros y w Iy. apply Nl. apply in_or_app. now left.
    + rewrite F, IH. assert (NT : forall self w, ~ tells utf8r self ty owner (b_type b) (b_hashed b) (b_data b) f w). { intros self w T. destruct (tells_special _ _ _ _ _ _ _ _ T) as [X _]. congruence. } specialize (NT (e_self s)). clear -NT. split.
        -- intros [(a & x & c & E & Tx & Nc) | [Nl L]].
           ++ left. exists a, x, (c ++ [b]). split; [rewrite E, <- app_assoc; reflexivity|]. split; [exact Tx|]. intros y w Iy. apply in_app_iff in Iy as [Iy|[<-|[]]]; auto.
           ++ right. split; [|exact L]. intros y w Iy. apply in_app_iff in Iy as [Iy|[<-|[]]]; auto.
        -- intros [(a & x & c & E & Tx & Nc) | [Nl L]].
           ++ left. destruct c as [|c0 c]. { apply app_inj_tail in E as [_ <-]. exfalso. exact (NT _ Tx). }
              destruct (exists_last (l := c0 :: c) ltac:(discriminate)) as (c' & z & Ez). rewrite Ez in E, Nc. change (a ++ x :: c' ++ [z]) with (a ++ (x :: c') ++ [z]) in E. rewrite app_assoc in E. apply app_inj_tail in E as [E _]. exists a, x, c'. split; [exact E|]. split; [exact Tx|]. intros y w Iy. apply Nc. apply in_or_app. now left.
           ++ right. split; [|exact L]. intros y w Iy. apply Nl. apply in_or_app. now left.
Qed.
End T.
