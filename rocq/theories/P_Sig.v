(** C31-C34: signature packets and their subpackets. *)
From Verif Require Import Base BaseProofs Spec Utils UtilsProofs CodecProofs SpecFraming Text Utf8 SpecUtf8 Utf8Proofs SpecKey KeyProofs SigPackets SpecSig SigProofs SigStable.

(** C31: a version 4 signature whose fields the wire format can hold is written as the RFC 4880 5.2.3 body, and that body parses
    back to the same signature, subpackets included. Missing from the full claim: the four subpacket classes that cannot be written. *)
Theorem c31_written_partial : forall fl s, sig_ok fl s ->
  exists data st pk ha h2 vs hs us a b encs, s = SigV4 4 st pk ha h2 vs hs us /\ sig_content fl s = Ok data /\
  subs_bytes fl hs = Ok a /\ subs_bytes fl us = Ok b /\ Forall2 rfc_mpi vs encs /\ rfc_sig4 st pk ha a b h2 encs data /\ sig_from_content data = Ok s.
Proof.
  intros fl s H. destruct (sig_round fl s H) as (data & st & pk & ha & h2 & vs & hs & us & a & b & encs & Q1 & Q2 & Q3 & Q4 & Q5 & Q6 & Q7).
  exists data, st, pk, ha, h2, vs, hs, us, a, b, encs. repeat (split; [assumption|]). apply Q7. lia.
Qed.
Print Assumptions c31_written_partial.
(** every RFC 4880 version 4 body parses to its fields: the areas to their subpackets in order (each read by its type), the
    digest prefix and all the integers *)
Theorem c31_read : forall st pk ha ts1 es1 ts2 es2 h2 ms encs data, rfc_area ts1 es1 -> rfc_area ts2 es2 -> Forall2 readable_mpi ms encs ->
  rfc_sig4 st pk ha (concat es1) (concat es2) h2 encs data ->
  sig_from_content data = do hs <- mapM (sub_of sig_from_content) ts1;; do us <- mapM (sub_of sig_from_content) ts2;; Ok (SigV4 4 st pk ha h2 ms hs us).
Proof.
  intros st pk ha ts1 es1 ts2 es2 h2 ms encs data A1 A2 Hm R. rewrite sig_from_unfold by (now destruct R as (l1 & l2 & _ & _ & _ & _ & _ & _ & W)). now apply (sig4_parse _ st pk ha ts1 es1 ts2 es2 h2 ms encs data).
Qed.
Print Assumptions c31_read.
(** parsing any octets terminates (the model's bound on embedded signatures is never reached) *)
Theorem c31_terminates : forall data, wf data -> sig_from_content data <> Err OutOfFuel.
Proof. intros data W. exact (sig_from_nf (S (length data)) data W (Nat.lt_succ_diag_r _)). Qed.
Print Assumptions c31_terminates.
(** refuted part: a parsed version 4 signature may not be writable (a signature target subpacket) *)
Theorem c31_unwritable_refuted : exists data s, wf data /\ sig_from_content data = Ok s /\ forall fl, sig_content fl s = Err TypeError.
Proof.
  exists ([4; 0; 1; 2; 0; 24; 23; 31; 1; 2] ++ repeat 7 20 ++ [0; 0; 9; 9]). eexists. split; [repeat constructor; lia|]. split; [vm_compute; reflexivity|]. reflexivity.
Qed.
Print Assumptions c31_unwritable_refuted.
Definition ex_sig : sigpkt := SigV4 4 0 1 8 [18; 52] [255; 3]
  [Sub 2 true (SbTime 1000000); Sub 27 false (SbFlags true true false false false false true); Sub 20 false (SbNotation [97] (Some [98; 46; 99]) true [233])]
  [Sub 16 false (SbIssuer [48; 49; 50; 51; 52; 53; 54; 55; 56; 57; 65; 66; 67; 68; 69; 70]);
   Sub 32 false (SbEmbedded (SigV4 4 25 1 8 [0; 1] [5] [] [Sub 100 true SbUnknown]))].
Example c31_ex : sig_ok Z.log2 ex_sig.
Proof.
  unfold ex_sig. assert (V : forall i, 0 <= i -> bit_length i <= 65535 -> value_ok Z.log2 i) by (intros; repeat split; auto).
  constructor; try (unfold byte; lia); try reflexivity; try (repeat constructor; lia).
  - repeat constructor; apply V || idtac; try lia; vm_compute; discriminate.
  - constructor; [|constructor; [|constructor; [|constructor]]]; constructor; try (intros d E; vm_compute in E; injection E as <-; reflexivity).
    + cbn [plain_ok In]. split; [tauto|lia].
    + reflexivity.
    + cbn [plain_ok]. repeat split; try lia; try (repeat constructor; unfold scalar; lia); try discriminate; try (vm_compute; reflexivity). cbn [In]. intros [E|E]; [lia|tauto].
  - constructor; [apply so_plain|constructor; [apply so_embedded|constructor]]; try (intros d E; vm_compute in E; injection E as <-; reflexivity).
    + cbn [plain_ok]. split; [reflexivity|]. exists [1; 35; 69; 103; 137; 171; 205; 239]. split; [reflexivity|]. split; [repeat constructor; lia|reflexivity].
    + constructor; try (unfold byte; lia); try reflexivity; try (repeat constructor; lia); try (intros d E; vm_compute in E; injection E as <-; reflexivity).
      * constructor; [|constructor]. apply V; [lia|]. vm_compute. discriminate.
      * constructor; [|constructor]. constructor; [|intros d E; vm_compute in E; injection E as <-; reflexivity]. split; [lia|]. unfold known_subs. cbn [In]. intros K. repeat destruct K as [K|K]; lia || contradiction.
  - intros a E. vm_compute in E. injection E as <-. reflexivity.
  - intros a E. vm_compute in E. injection E as <-. reflexivity.
Qed.
Example c31_ex_round : exists data, sig_content Z.log2 ex_sig = Ok data /\ sig_from_content data = Ok ex_sig.
Proof. eexists. split; [vm_compute; reflexivity|]. vm_compute. reflexivity. Qed.

(** C32: every RFC 4880 5.2.2 body (versions 2 and 3) parses to its version, type, creation time, algorithms, digest prefix and
    integers; the key id it reports is only the first four octets of the issuer's *)
Theorem c32_read_partial : forall v st ct kid pk ha h2 ms encs data, rfc_sig3 v st ct kid pk ha h2 encs data -> Forall2 readable_mpi ms encs ->
  sig_from_content data = Ok (SigV3 v st pk ha h2 ms ct (hex_text (slice kid 0 4))).
Proof. intros. unfold sig_from_content. cbn [sig_from]. now apply (sig3_parse _ v st ct kid pk ha h2 ms encs data). Qed.
Print Assumptions c32_read_partial.
(** refuted: the 8-octet issuer key id is never reported *)
Theorem c32_key_id_refuted : forall v st ct kid pk ha h2 ms encs data s, rfc_sig3 v st ct kid pk ha h2 encs data -> Forall2 readable_mpi ms encs ->
  sig_from_content data = Ok s -> exists key_id, s = SigV3 v st pk ha h2 ms ct key_id /\ zlen key_id = 8 /\ key_id <> hex_text kid.
Proof.
  intros v st ct kid pk ha h2 ms encs data s R Hm H. rewrite (c32_read_partial _ _ _ _ _ _ _ _ _ _ R Hm) in H. apply ok_inj in H as <-. eexists. split; [reflexivity|]. destruct R as (ctb & _ & _ & _ & _ & Lk & _ & _).
  assert (L : zlen (hex_text (slice kid 0 4)) = 8) by (rewrite HexProofs.hex_text_len, slice_len by lia; rewrite Lk; reflexivity).
  split; [exact L|]. intros E. rewrite E, HexProofs.hex_text_len, Lk in L. discriminate.
Qed.
Print Assumptions c32_key_id_refuted.
(** refuted: no parsed version 2 or 3 signature can be serialised *)
Theorem c32_write_refuted : forall fl v st ct kid pk ha h2 ms encs data s, rfc_sig3 v st ct kid pk ha h2 encs data -> Forall2 readable_mpi ms encs ->
  sig_from_content data = Ok s -> sig_content fl s = Err TypeError.
Proof.
  intros fl v st ct kid pk ha h2 ms encs data s R Hm H. rewrite (c32_read_partial _ _ _ _ _ _ _ _ _ _ R Hm) in H. apply ok_inj in H as <-. destruct (sig3_write fl v st pk ha h2 ms ct (hex_text (slice kid 0 4))) as (e & E & T).
  rewrite E. f_equal. destruct R as (ctb & Ed & _ & _ & _ & _ & _ & W). rewrite Ed in W. apply wf_app in W as [W _]. inversion W as [|? ? B1 W1]; subst. inversion W1 as [|? ? B2 W2]; subst. inversion W2 as [|? ? B3 W3]; subst. auto.
Qed.
Print Assumptions c32_write_refuted.
Example c32_ex : exists encs data, Forall2 readable_mpi [5] encs /\ rfc_sig3 3 16 1000 [1; 2; 3; 4; 5; 6; 7; 8] 1 2 [17; 34] encs data.
Proof.
  exists [[0; 3; 5]], [3; 5; 16; 0; 0; 3; 232; 1; 2; 3; 4; 5; 6; 7; 8; 1; 2; 17; 34; 0; 3; 5]. split.
  - repeat constructor. exists [0; 3], [5]. repeat split; repeat constructor; lia.
  - exists [0; 0; 3; 232]. split; [reflexivity|]. split; [now right|]. repeat split; repeat constructor; lia.
Qed.

(** C33: a subpacket is read and written back with its type, criticality and content (with lengths no longer than they were)
    exactly when the content is one of the stable ones listed in the specification *)
Theorem c33_survives_partial : forall fl ty c d enc pre suf, rfc_sub ty c d enc -> wf d ->
  (exists s enc', sub_from_data sig_from_content (pre ++ enc ++ suf) (zlen pre) = Ok (s, zlen pre + zlen enc) /\ sub_bytes fl s = Ok enc' /\ rfc_sub ty c d enc' /\ zlen enc' <= zlen enc) <->
  stable_sub (fun d => exists s, sig_from_content d = Ok s /\ sig_content fl s = Ok d) ty d.
Proof. exact sub_survives. Qed.
Print Assumptions c33_survives_partial.
(** refuted part: a regular expression subpacket never survives, and revocation keys never parse *)
Theorem c33_regex_revkey_refuted : forall fl ty c d enc, rfc_sub ty c d enc -> wf d -> ty = 6 \/ ty = 12 \/ ty = 31 ->
  ~ exists s enc', sub_from_data sig_from_content enc 0 = Ok (s, zlen enc) /\ sub_bytes fl s = Ok enc' /\ rfc_sub ty c d enc' /\ zlen enc' <= zlen enc.
Proof.
  intros fl ty c d enc R W Ht H. pose proof (proj1 (sub_survives fl ty c d enc [] [] R W)) as P. rewrite app_nil_r in P. cbn [app] in P. change (zlen (@nil Z)) with 0 in P.
  specialize (P H). destruct Ht as [-> | [-> | ->]]; exact P.
Qed.
Print Assumptions c33_regex_revkey_refuted.
(** refuted part: contents of the other classes that are dropped or altered: an unknown subpacket, a reserved key flag, a notation
    that is not human readable *)
Theorem c33_altered_refuted : exists b1 b2 b3,
  sub_from_data sig_from_content [3; 100; 1; 2] 0 = Ok (b1, 4) /\ (forall fl, sub_bytes fl b1 = Ok [1; 100]) /\
  sub_from_data sig_from_content [2; 27; 65] 0 = Ok (b2, 3) /\ (forall fl, sub_bytes fl b2 = Ok [2; 27; 1]) /\
  sub_from_data sig_from_content [11; 20; 0; 0; 0; 0; 0; 1; 0; 1; 97; 98] 0 = Ok (b3, 12) /\ (forall fl, sub_bytes fl b3 = Ok [11; 20; 128; 0; 0; 0; 0; 1; 0; 1; 97; 98]).
Proof. do 3 eexists. repeat split; vm_compute; reflexivity. Qed.
Print Assumptions c33_altered_refuted.
Example c33_ex : rfc_sub 20 true [128; 0; 0; 0; 0; 3; 0; 1; 97; 64; 98; 99] [13; 148; 128; 0; 0; 0; 0; 3; 0; 1; 97; 64; 98; 99] /\
  stable_sub (fun _ => False) 20 [128; 0; 0; 0; 0; 3; 0; 1; 97; 64; 98; 99].
Proof.
  split; [split; [lia|]; exists [13]; split; [constructor; cbn; lia|reflexivity]|].
  exists [0; 3], [0; 1], [97; 64; 98], [99]. repeat split.
  - exists [97; 64; 98]. split; [repeat constructor; unfold scalar; lia|reflexivity].
  - exists [99]. split; [repeat constructor; unfold scalar; lia|reflexivity].
  - intros (n & E & _). apply (f_equal (fun l => last l 0)) in E. rewrite last_last in E. cbn in E. lia.
Qed.

(** C34: an area holding any list of RFC 4880 subpackets is consumed exactly, and read to that list in order, each with its own
    type and criticality (or fails as the first of them whose content does not parse) *)
Theorem c34_area_read : forall emb ts encs pre suf fuel, rfc_area ts encs -> (length ts < fuel)%nat ->
  sub_loop fuel emb (pre ++ concat encs ++ suf) (zlen pre) (zlen pre + zlen (concat encs)) [] =
  do ss <- mapM (sub_of emb) ts;; Ok (ss, zlen pre + zlen (concat encs)).
Proof. intros. now apply (area_parse emb ts encs). Qed.
Print Assumptions c34_area_read.
(** types and criticality of the list read *)
Theorem c34_types : forall emb ts ss, mapM (sub_of emb) ts = Ok ss -> map (fun s => (sub_type s, sub_critical s)) ss = map fst ts.
Proof.
  intros emb. induction ts as [|[[ty c] d] ts IH]; intros ss H; cbn [mapM] in H; [apply ok_inj in H as <-; reflexivity|].
  apply bind_ok in H as (s & Hs & H). apply bind_ok in H as (r & Hr & H). apply ok_inj in H as <-. unfold sub_of in Hs. cbn [fst snd] in Hs. apply bind_ok in Hs as (b & _ & Hs). apply ok_inj in Hs as <-. cbn [map fst]. now rewrite (IH r Hr).
Qed.
Print Assumptions c34_types.
(** an area of representable subpackets, serialised and read back at any place, is the same list *)
Theorem c34_round_trip_partial : forall fl l pre suf, Forall (sub_ok fl) l -> exists a, subs_bytes fl l = Ok a /\ wf a /\
  forall fuel, (length (pre ++ a ++ suf) < fuel)%nat -> sub_loop fuel sig_from_content (pre ++ a ++ suf) (zlen pre) (zlen pre + zlen a) [] = Ok (l, zlen pre + zlen a).
Proof. exact area_round. Qed.
Print Assumptions c34_round_trip_partial.
Example c34_ex : sub_loop 9 sig_from_content [2; 27; 3; 5; 130; 0; 0; 0; 9] 0 9 [] = Ok ([Sub 27 false (SbFlags true true false false false false false); Sub 2 true (SbTime 9)], 9) /\
  subs_bytes Z.log2 [Sub 27 false (SbFlags true true false false false false false); Sub 2 true (SbTime 9)] = Ok [2; 27; 3; 5; 130; 0; 0; 0; 9].
Proof. split; vm_compute; reflexivity. Qed.
