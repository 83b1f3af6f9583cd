From Verif Require Import Base BaseProofs Utils TransKey DumpKeys SpecDump DumpProofs.

(** ** concatenation and order *)
Lemma len4_le n : [Z.land (Z.shiftr n 24) 255; Z.land (Z.shiftr n 16) 255; Z.land (Z.shiftr n 8) 255; Z.land n 255] = [n / 16777216 mod 256; n / 65536 mod 256; n / 256 mod 256; n mod 256].
Proof.
  assert (M : forall a, Z.land a 255 = a mod 256) by (intros a; change 255 with (Z.ones 8); rewrite Z.land_ones by lia; reflexivity).
  rewrite !M, !Z.shiftr_div_pow2 by lia. reflexivity.
Qed.
Lemma len4_inj a b : 0 <= a < 2 ^ 32 -> 0 <= b < 2 ^ 32 -> a / 16777216 mod 256 = b / 16777216 mod 256 -> a / 65536 mod 256 = b / 65536 mod 256 -> a / 256 mod 256 = b / 256 mod 256 -> a mod 256 = b mod 256 -> a = b.
Proof.
  change (2 ^ 32) with 4294967296.
  assert (X : forall n, 0 <= n < 4294967296 -> n = 16777216 * (n / 16777216 mod 256) + 65536 * (n / 65536 mod 256) + 256 * (n / 256 mod 256) + n mod 256).
  { intros n H. replace (n / 16777216) with (n / 256 / 256 / 256) by (rewrite !Z.div_div by lia; reflexivity). replace (n / 65536) with (n / 256 / 256) by (rewrite Z.div_div by lia; reflexivity).
    pose proof (Z.div_mod n 256 ltac:(lia)). pose proof (Z.div_mod (n / 256) 256 ltac:(lia)). pose proof (Z.div_mod (n / 256 / 256) 256 ltac:(lia)).
    assert (n / 256 / 256 / 256 < 256) by (rewrite !Z.div_div by lia; apply Z.div_lt_upper_bound; lia). assert (0 <= n / 256 / 256 / 256) by (rewrite !Z.div_div by lia; apply Z.div_pos; lia).
    rewrite (Z.mod_small (n / 256 / 256 / 256)) by lia. lia. }
  intros Ha Hb E1 E2 E3 E4. rewrite (X a Ha), (X b Hb), E1, E2, E3, E4. reflexivity.
Qed.
Lemma oki {A} (a b : A) : Ok a = Ok b -> a = b. Proof. congruence. Qed.
Lemma concat_key_inj l : forall m x, Forall key_pkt l -> Forall key_pkt m -> concat_key l = Ok x -> concat_key m = Ok x -> map (fun p => (d_raw p, d_data p)) l = map (fun p => (d_raw p, d_data p)) m.
Proof.
  induction l as [|p l IH]; intros [|q m] x Fl Fm Hl Hm; [reflexivity| | |].
  - cbn [concat_key] in *. injection Hl as <-. apply bind_ok in Hm as (r & H1 & H2). apply mk_bytes_inv in H1 as [-> _]. apply bind_ok in H2 as (rest & H1 & H2). apply oki in H2. cbn [app] in H2. discriminate H2.
  - cbn [concat_key] in *. injection Hm as <-. apply bind_ok in Hl as (r & H1 & H2). apply mk_bytes_inv in H1 as [-> _]. apply bind_ok in H2 as (rest & H1 & H2). apply oki in H2. cbn [app] in H2. discriminate H2.
  - cbn [concat_key] in *. pose proof (Forall_inv Fl) as [_ Lp]. pose proof (Forall_inv Fm) as [_ Lq]. apply Forall_inv_tail in Fl. apply Forall_inv_tail in Fm.
    rewrite len4_le in Hl, Hm. apply bind_ok in Hl as (r & H1 & H2). apply mk_bytes_inv in H1 as [-> _]. apply bind_ok in H2 as (rest & Hr & H2). apply bind_ok in Hm as (r' & H1 & H3). apply mk_bytes_inv in H1 as [-> _]. apply bind_ok in H3 as (rest' & Hr' & H3).
    set (a := zlen (d_data p)) in *. set (b := zlen (d_data q)) in *. assert (Ha : a = zlen (d_data p)) by reflexivity. assert (Hb : b = zlen (d_data q)) by reflexivity. clearbody a b.
    apply oki in H2, H3.
    assert (E : [d_raw p] ++ [a / 16777216 mod 256; a / 65536 mod 256; a / 256 mod 256; a mod 256] ++ d_data p ++ rest = [d_raw q] ++ [b / 16777216 mod 256; b / 65536 mod 256; b / 256 mod 256; b mod 256] ++ d_data q ++ rest') by (rewrite H2; symmetry; exact H3).
    cbn [app] in E. pose proof (zlen_nonneg (d_data p)). pose proof (zlen_nonneg (d_data q)).
    assert (E0 : d_raw p = d_raw q) by congruence.
    assert (AB : a = b) by (apply len4_inj; [lia|lia|congruence|congruence|congruence|congruence]).
    assert (E5 : d_data p ++ rest = d_data q ++ rest') by congruence. clear E H2 H3.
    assert (L : length (d_data p) = length (d_data q)) by (unfold zlen in *; lia).
    assert (D : d_data p = d_data q /\ rest = rest'). { clear -E5 L. revert E5 L. generalize (d_data p) (d_data q). intros u v. revert v. induction u as [|x u IH]; intros [|y v] E L; cbn in *; try discriminate L; [auto|]. injection E as -> E. destruct (IH v E) as [-> ->]; [lia|auto]. }
    destruct D as [D ->]. cbn [map]. rewrite E0, D. f_equal. eapply IH; eauto.
Qed.
Lemma lex_refl a : lex a a = 0.
Proof. induction a as [|x a IH]; [reflexivity|]. cbn [lex]. rewrite Z.ltb_irrefl. exact IH. Qed.
Lemma lex_zero a : forall b, lex a b = 0 -> a = b.
Proof. induction a as [|x a IH]; intros [|y b] H; cbn [lex] in H; try discriminate H; [reflexivity|]. destruct (x <? y) eqn:E1; [discriminate H|]. destruct (y <? x) eqn:E2; [discriminate H|]. f_equal; [lia|auto]. Qed.
Lemma lex_opp a : forall b, lex b a = - lex a b.
Proof. induction a as [|x a IH]; intros [|y b]; cbn [lex]; try reflexivity. destruct (x <? y) eqn:E1, (y <? x) eqn:E2; try reflexivity; [lia|apply IH]. Qed.
Lemma lex_range a : forall b, In (lex a b) [-1; 0; 1].
Proof. induction a as [|x a IH]; intros [|y b]; cbn [lex]; try (cbn; tauto). destruct (x <? y), (y <? x); cbn; try tauto. apply IH. Qed.
Lemma lex_trans a : forall b c, lex a b <= 0 -> lex b c <= 0 -> lex a c <= 0.
Proof.
  induction a as [|x a IH]; intros [|y b] [|z c] H1 H2; cbn [lex] in *; try lia. destruct (x <? y) eqn:E1, (y <? x) eqn:E2, (y <? z) eqn:E3, (z <? y) eqn:E4, (x <? z) eqn:E5, (z <? x) eqn:E6; try lia. eapply IH; eauto.
Qed.
Lemma compare_range p q : In (compare_packets p q) [-1; 0; 1].
Proof. unfold compare_packets. destruct (d_raw q <? d_raw p); [cbn; tauto|]. destruct (d_raw p <? d_raw q); [cbn; tauto|]. apply lex_range. Qed.
Lemma compare_opp p q : compare_packets q p = - compare_packets p q.
Proof. unfold compare_packets. destruct (d_raw q <? d_raw p) eqn:A, (d_raw p <? d_raw q) eqn:B; try reflexivity; [lia|apply lex_opp]. Qed.
Lemma compare_zero p q : compare_packets p q = 0 <-> d_raw p = d_raw q /\ d_data p = d_data q.
Proof.
  unfold compare_packets. split.
  - destruct (d_raw q <? d_raw p) eqn:A; [discriminate|]. destruct (d_raw p <? d_raw q) eqn:B; [discriminate|]. intros H. apply lex_zero in H. split; [lia|exact H].
  - intros [-> ->]. rewrite Z.ltb_irrefl. apply lex_refl.
Qed.
Lemma compare_trans p q r : compare_packets p q <= 0 -> compare_packets q r <= 0 -> compare_packets p r <= 0.
Proof.
  unfold compare_packets. destruct (d_raw q <? d_raw p) eqn:A; [lia|]. destruct (d_raw r <? d_raw q) eqn:B; [lia|]. destruct (d_raw p <? d_raw q) eqn:C, (d_raw q <? d_raw r) eqn:D, (d_raw r <? d_raw p) eqn:E, (d_raw p <? d_raw r) eqn:F; try lia. apply lex_trans.
Qed.
