(** Proofs about the compression wrappers. *)
From Verif Require Import Base BaseProofs Spec Utils UtilsProofs Framing DataPackets Packets PacketsProofs SpecPackets Message SpecMessage MsgProps Compression SpecCompression.

Lemma slice_trim (h raw a : bytes) : zlen h = 2 -> zlen a = 4 -> slice (h ++ raw ++ a) 2 (-4) = raw.
Proof.
  intros Hh Ha. pose proof (zlen_nonneg raw) as Hr. unfold slice. cbv zeta.
  assert (C1 : clip (zlen (h ++ raw ++ a)) 2 = 2) by (rewrite !zlen_app; unfold clip; cbn [Z.ltb Z.compare]; lia).
  assert (C2 : clip (zlen (h ++ raw ++ a)) (-4) = 2 + zlen raw) by (rewrite !zlen_app; unfold clip; cbn [Z.ltb Z.compare]; lia).
  rewrite C1, C2. replace (2 + zlen raw - 2) with (zlen raw) by lia. rewrite to_nat_zlen.
  replace (Z.to_nat 2) with (length h) by (unfold zlen in Hh; lia). rewrite skipn_app, Nat.sub_diag, skipn_all. cbn [app skipn].
  rewrite firstn_app, firstn_all, Nat.sub_diag. apply app_nil_r.
Qed.

Section P.
Variables (z : zlib) (inflate : bytes -> option bytes).
Hypothesis Z_ok : zlib_ok inflate z.

Lemma feed_running lv r c pieces :
  exists w c' r', feed z (w_compress z) (W z true lv (ZC z c) (Some r)) pieces = Ok w /\ w = W z true lv (ZC z c') (Some r') /\
    r' ++ cflush z c' = r ++ c_out z c pieces.
Proof.
  revert r c. induction pieces as [|p t IH]; intros r c; cbn [feed c_out].
  - eauto 6.
  - cbn [w_compress w_result w_obj w_deflate w_level]. destruct (cfeed z c p) as [out c1]. cbn [bind].
    destruct (IH (r ++ out) c1) as (w & c' & r' & F & E1 & E2). exists w, c', r'. rewrite <- app_assoc in E2. auto.
Qed.
Lemma deflate_compress lv c pieces : cnew z lv = Ok c -> pieces <> [] -> exists w raw,
  feed z (w_compress z) (new_wrapper z true lv) pieces = Ok w /\ w_flush z w = Ok raw /\ inflate raw = Some (concat pieces).
Proof.
  intros C N. destruct pieces as [|p t]; [easy|]. pose proof (compressor_ok _ _ Z_ok lv c (p :: t) C) as (h & raw & (flg & Hh & _) & I & O).
  cbn [feed]. unfold new_wrapper at 1. cbn [w_compress w_result w_obj w_level w_deflate]. rewrite C. cbn [bind].
  cbn [c_out] in O. destruct (cfeed z c p) as [out c1]. cbn [bind app].
  destruct (feed_running lv out c1 t) as (w & c' & r' & F & E1 & E2). exists w, raw. split; [exact F|]. split; [|exact I].
  subst w. cbn [w_flush w_result w_obj w_deflate]. rewrite E2, O. f_equal. apply slice_trim; [subst h; reflexivity|]. apply be_bytes_len.
Qed.
(** ZlibCompression keeps the first piece only *)
Lemma feed_stuck lv r c pieces : feed z (w_compress z) (W z false lv (ZC z c) (Some r)) pieces = Ok (W z false lv (ZC z c) (Some r)).
Proof. induction pieces as [|p t IH]; [reflexivity|]. exact IH. Qed.
Lemma zlib_compress lv c p rest : cnew z lv = Ok c -> exists w s,
  feed z (w_compress z) (new_wrapper z false lv) (p :: rest) = Ok w /\ w_flush z w = Ok s /\ zlib_stream inflate s p.
Proof.
  intros C. pose proof (compressor_ok _ _ Z_ok lv c [p] C) as O.
  cbn [feed]. unfold new_wrapper at 1. cbn [w_compress w_result w_obj w_level w_deflate]. rewrite C. cbn [bind].
  cbn [c_out concat] in O. rewrite app_nil_r in O. destruct (cfeed z c p) as [out c1]. cbn [bind app]. rewrite feed_stuck.
  eexists. exists (out ++ cflush z c1). split; [reflexivity|]. split; [reflexivity|]. exact O.
Qed.
Lemma dfeed_running df lv r d pieces out : d_out z d pieces = Ok out ->
  exists d' r' f, feed z (w_decompress z) (W z df lv (ZD z d) (Some r)) pieces = Ok (W z df lv (ZD z d') (Some r')) /\
    dflush z d' = Ok f /\ r' ++ f = r ++ out.
Proof.
  revert r d out. induction pieces as [|p t IH]; intros r d out D; cbn [feed d_out] in *.
  - exists d, r, out. auto.
  - apply bind_ok in D as ([o d1] & D1 & D2). apply bind_ok in D2 as (o2 & D2 & D3). injection D3 as <-.
    cbn [w_decompress w_result w_obj w_deflate w_level bind]. rewrite D1. cbn [bind].
    destruct (IH (r ++ o) d1 o2 D2) as (d' & r' & f & F & Fl & E). exists d', r', f. rewrite <- app_assoc in E. auto.
Qed.
Lemma fake_header : zlib_header [120; 156].
Proof. exists 156. split; [reflexivity|]. split; reflexivity. Qed.
Lemma deflate_decompress lv raw data pieces : inflate raw = Some data -> concat pieces = raw -> pieces <> [] -> exists w,
  feed z (w_decompress z) (new_wrapper z true lv) pieces = Ok w /\ w_flush z w = Ok data.
Proof.
  intros I C N. destruct pieces as [|p t]; [easy|].
  assert (D : d_out z (dnew z) ([120; 156] :: p :: t) = Ok data).
  { apply (decompressor_ok _ _ Z_ok [120; 156] raw data []); auto using fake_header. rewrite app_nil_r. cbn [concat]. cbn [concat] in C. now rewrite C. }
  cbn [d_out] in D. apply bind_ok in D as ([o0 d0] & D0 & D). apply bind_ok in D as (o1 & D & Eo). injection Eo as Eo.
  assert (o0 = []) as -> by (eapply (header_silent _ _ Z_ok); [apply fake_header|exact D0]). cbn [app] in Eo. subst o1.
  cbn [feed]. unfold new_wrapper at 1. cbn [w_decompress w_result w_obj w_level w_deflate]. rewrite D0. cbn [bind].
  apply bind_ok in D as ([o1 d1] & D1 & D). rewrite D1. cbn [bind app]. apply bind_ok in D as (o2 & D & Eo). injection Eo as <-.
  destruct (dfeed_running true lv o1 d1 t o2 D) as (d' & r' & f & F & Fl & E). eexists. split; [exact F|].
  cbn [w_flush w_result w_obj]. rewrite Fl. cbn [bind]. now rewrite E.
Qed.
Lemma zlib_decompress lv s data pieces : zlib_stream inflate s data -> concat pieces = s -> pieces <> [] -> exists w,
  feed z (w_decompress z) (new_wrapper z false lv) pieces = Ok w /\ w_flush z w = Ok data.
Proof.
  intros (h & raw & Hh & I & ->) C N. pose proof (decompressor_ok _ _ Z_ok h raw data _ pieces Hh I (or_intror eq_refl) C) as D.
  destruct pieces as [|p t]; [easy|]. cbn [d_out] in D. apply bind_ok in D as ([o1 d1] & D1 & D). apply bind_ok in D as (o2 & D & Eo). injection Eo as <-.
  cbn [feed]. unfold new_wrapper at 1. cbn [w_decompress w_result w_obj w_level w_deflate bind]. rewrite D1. cbn [bind app].
  destruct (dfeed_running false lv o1 d1 t o2 D) as (d' & r' & f & F & Fl & E). eexists. split; [exact F|].
  cbn [w_flush w_result w_obj]. rewrite Fl. cbn [bind]. now rewrite E.
Qed.
(** what compress_packets and decompress_data do with octets *)
Lemma octets_round bz2 alg lv c data : (alg = 0 \/ ((alg = 1 \/ alg = 2) /\ cnew z lv = Ok c)) -> exists s,
  compress_octets z bz2 alg lv data = Ok s /\ decompress_octets z alg s = Ok data /\
  (alg = 1 -> inflate s = Some data) /\ (alg = 2 -> zlib_stream inflate s data).
Proof.
  intros [-> | [[-> | ->] C]].
  - exists data. repeat split; discriminate.
  - destruct (deflate_compress lv c [data] C ltac:(discriminate)) as (w & raw & F & Fl & I). cbn [feed concat] in *. rewrite app_nil_r in I.
    apply bind_ok in F as (w' & F & E). injection E as ->. exists raw. unfold compress_octets. cbn [Z.eqb Pos.eqb orb]. rewrite F. cbn [bind].
    split; [exact Fl|]. split; [|split; [auto|discriminate]].
    destruct (deflate_decompress None raw data [raw] I) as (w2 & F2 & Fl2); [cbn; apply app_nil_r|discriminate|]. cbn [feed] in F2.
    apply bind_ok in F2 as (w3 & F2 & E). injection E as ->. unfold decompress_octets. cbn [Z.eqb Pos.eqb orb]. rewrite F2. exact Fl2.
  - destruct (zlib_compress lv c data [] C) as (w & s & F & Fl & I). cbn [feed] in F.
    apply bind_ok in F as (w' & F & E). injection E as ->. exists s. unfold compress_octets. cbn [Z.eqb Pos.eqb orb]. rewrite F. cbn [bind].
    split; [exact Fl|]. split; [|split; [discriminate|auto]].
    destruct (zlib_decompress None s data [s] I) as (w2 & F2 & Fl2); [cbn; apply app_nil_r|discriminate|]. cbn [feed] in F2.
    apply bind_ok in F2 as (w3 & F2 & E). injection E as ->. unfold decompress_octets. cbn [Z.eqb Pos.eqb orb]. rewrite F2. exact Fl2.
Qed.
Lemma packets_compress_round bz2 fl rec alg lv c ps : (forall i, 1024 <= i <= 65011712 -> fl i = Z.log2 i) -> Forall (pkt_ok fl rec) ps ->
  (alg = 0 \/ ((alg = 1 \/ alg = 2) /\ cnew z lv = Ok c)) -> exists s,
  compress_packets z bz2 fl rec alg lv ps = Ok s /\ decompress_data z alg s = Ok (map as_read ps).
Proof.
  intros Hfl H A. destruct (pkts_round fl rec ps Hfl H) as (encs & E & P & _).
  destruct (octets_round bz2 alg lv c (concat encs) A) as (s & C & D & _). exists s.
  unfold compress_packets. rewrite E. cbn [bind]. split; [exact C|]. unfold decompress_data. rewrite D. cbn [bind]. now rewrite P.
Qed.
End P.

(** The demonstration library meets the conditions. *)
Lemma unstored_stored d r : unstored (stored d ++ r) = Some (d, r).
Proof.
  unfold stored. rewrite <- app_assoc. induction d as [|b d IH]; [reflexivity|].
  assert (S : forall t, unstored ([0; 1; 0; 254; 255; b] ++ t) = match unstored t with Some (d, r) => Some (b :: d, r) | None => None end) by reflexivity.
  cbn [flat_map]. rewrite <- app_assoc, S, IH. reflexivity.
Qed.
Lemma unstored_split s d r : unstored s = Some (d, r) -> s = stored d ++ r.
Proof.
  revert d r. induction s as [s IH] using (induction_ltof1 _ (@length Z)); unfold ltof in IH. intros d r E. destruct s as [|x s]; [discriminate|].
  cbn [unstored] in E.
  repeat match type of E with
  | match ?x with _ => _ end = Some _ => is_var x; destruct x; try discriminate E
  end.
  - match type of E with match unstored ?t with _ => _ end = _ => destruct (unstored t) as [[d0 r0]|] eqn:U; [|discriminate E] end.
    injection E as <- <-. apply IH in U; [|cbn [length]; lia]. rewrite U. reflexivity.
  - injection E as <- <-. reflexivity.
Qed.
Lemma demo_inflate_stored d : demo_inflate (stored d) = Some d.
Proof. unfold demo_inflate. rewrite <- (app_nil_r (stored d)), unstored_stored. reflexivity. Qed.
Lemma demo_c_out c pieces : c_out demo_zlib c pieces = [120; 1] ++ stored (c ++ concat pieces) ++ be_bytes 4 (adler32 (c ++ concat pieces)).
Proof.
  revert c. induction pieces as [|p t IH]; intros c; cbn [c_out concat].
  - rewrite app_nil_r. reflexivity.
  - cbn [demo_zlib cfeed]. change ([] ++ c_out demo_zlib (c ++ p) t) with (c_out demo_zlib (c ++ p) t). rewrite IH, <- app_assoc. reflexivity.
Qed.
Lemma demo_d_out d pieces : d_out demo_zlib d pieces = dflush demo_zlib (d ++ concat pieces).
Proof.
  revert d. induction pieces as [|p t IH]; intros d; cbn [d_out concat]; [now rewrite app_nil_r|].
  cbn [demo_zlib dfeed bind]. rewrite IH, <- app_assoc. destruct (dflush demo_zlib (d ++ p ++ concat t)); reflexivity.
Qed.
Lemma demo_zlib_ok : zlib_ok demo_inflate demo_zlib.
Proof.
  split.
  - intros level c pieces C. rewrite demo_c_out. assert (c = []) as ->.
    { cbn in C. destruct level as [v|]; [|discriminate]. destruct ((-1 <=? v) && (v <=? 9)); [now injection C as <-|discriminate]. }
    exists [120; 1], (stored (concat pieces)). split; [exists 1; repeat split; reflexivity|]. split; [apply demo_inflate_stored|reflexivity].
  - intros h raw data check pieces (flg & -> & _) I _ E. rewrite demo_d_out, E. change (dnew demo_zlib) with (@nil Z). cbn [app].
    cbn [demo_zlib dflush]. change (slice_from (120 :: flg :: raw ++ check) 2) with (slice_from ([120; flg] ++ raw ++ check) (zlen [120; flg])).
    rewrite slice_from_app. unfold demo_inflate in I. destruct (unstored raw) as [[d [|? ?]]|] eqn:U; try discriminate. injection I as ->.
    apply unstored_split in U. rewrite app_nil_r in U. subst raw. rewrite unstored_stored. reflexivity.
  - intros h out d _ E. now injection E as <- _.
Qed.
