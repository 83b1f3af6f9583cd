(** C108: layers of compression and encryption, to any depth. *)
From Verif Require Import Base BaseProofs Spec Utils UtilsProofs Framing SpecFraming FramingProofs Armor S2k SpecS2k Cipher SymCipher SpecCfb CfbProofs SessionKeys SessionKeysProofs KeyPackets KeyProofs Text Utf8 SpecUtf8 DataPackets SigPackets SpecPackets Packets PacketsProofs Message SpecMessage MsgEncProofs MsgProps PubMsg SpecPubMsg PubMsgProofs P_Message P_PubMsg Compression SpecCompression CompressionProofs P_Compress SpecNest.

Section P.
Variables (z : zlib) (inflate : bytes -> option bytes) (bz2 : Z -> bytes -> res bytes).
Variables (H : Z -> bytes -> bytes) (E : Z -> bytes -> bytes -> bytes) (sha1 : bytes -> bytes) (od : Z -> option bytes -> bytes -> bytes -> res bytes) (fl : Z -> Z) (rec : seckey -> res bytes).

Lemma compressed_ok alg s : 0 <= alg <= 2 -> zlen s < 2 ^ 32 - 100 -> pkt_ok fl rec (Pkt NewH (BData (PCompressed alg s))).
Proof.
  intros A L. split; cbn [p_body body_ok body_content p_fmt data_ok]; [unfold byte; lia|]. intros c Hc. unfold representable, pkt_type. cbn [hfmt ptype pcontent p_body body_type data_type]. split; [lia|].
  cbn [data_content] in Hc. apply bind_ok in Hc as (x & X & Hc). apply mk_bytes_inv in X as [-> _]. apply ok_inj in Hc as <-. rewrite zlen_app. change (zlen [alg]) with 1. change (2 ^ 32) with 4294967296 in *. lia.
Qed.
Lemma one_layer l m d : zlib_ok inflate z -> exact_log fl -> (forall a hl, hash_lengths a = Some hl -> forall d, zlen (H a d) = hl) -> (forall d, zlen (sha1 d) = 20 /\ wf (sha1 d)) ->
  survives fl rec m d -> wf d -> zlen d < 2 ^ 32 - 100 -> layer_ok z H E fl l -> (forall m', put z bz2 H E sha1 fl rec l m = Ok m' -> match m' with MCompressed _ s => zlen s < 2 ^ 32 - 100 | _ => True end) ->
  exists m' d', put z bz2 H E sha1 fl rec l m = Ok m' /\ survives fl rec m' d' /\ take z H E sha1 od l m' = Ok m.
Proof.
  intros Zk Hfl HH Hs Sv Wd Ld O F. destruct l as [alg level|alg pass sk iv ty hash salt count|alg sk iv rs hs r dec]; cbn [put take layer_ok] in *.
  - assert (R : exists s, compress_octets z bz2 alg level d = Ok s /\ decompress_octets z alg s = Ok d /\ 0 <= alg <= 2).
    { destruct O as [->|[A (c & C)]]; [exists d; split; [reflexivity|split; [reflexivity|lia]]|]. destruct (octets_round z inflate Zk bz2 alg level c d (or_intror (conj A C))) as (s & R1 & R2 & _). exists s. split; [exact R1|]. split; [exact R2|]. destruct A; lia. }
    destruct R as (s & R1 & R2 & Ba). pose proof Sv as (Ho & ps & Pp & Po).
    assert (C : message_compress z bz2 fl rec alg level m = Ok (MCompressed alg s)).
    { unfold message_octets in Ho. apply bind_ok in Ho as (qs & Q & Ho). apply bind_ok in Ho as (encs & Q2 & Ho). apply ok_inj in Ho. unfold message_compress, compress_packets. rewrite Q. cbn [bind]. rewrite Q2. cbn [bind]. rewrite Ho, R1. reflexivity. }
    pose proof (F _ C) as Ls. cbv beta iota in Ls. pose proof (compressed_ok alg s Ba Ls) as Op. destruct (plain_octets fl rec Hfl (MCompressed alg s) _ eq_refl Op) as (d' & D1 & _).
    exists (MCompressed alg s), d'. split; [exact C|]. split; [exact (plain_survives fl rec Hfl (MCompressed alg s) _ d' eq_refl Op D1)|]. unfold compressed_get_message, decompress_data. rewrite R2. cbn [bind]. rewrite Pp. cbn [bind]. exact Po.
  - destruct O as (bl & s & k & n & (A1 & A2 & A3 & A4 & A5 & A6 & A7) & B1 & B2 & B3 & B4 & B5 & B6).
    destruct (c63_through_packets_partial H E sha1 od fl rec m d alg bl pass sk iv ty hash salt count s k n) as (M & o & ps & X1 & X2 & X3 & X4 & X5); try assumption. exists M, o. split; [exact X1|]. split; [split; [exact X2|exists ps; auto]|exact X5].
  - destruct O as (bl & pre & post & (A1 & A2 & A3 & A4 & A5 & A6 & A7) & B1 & B2 & B3 & B4).
    destruct (c79_every_recipient_partial H E sha1 od fl rec m d alg bl sk iv rs hs pre r post dec) as (M & o & ps & X1 & X2 & X3 & X4 & X5); try assumption. exists M, o. split; [exact X1|]. split; [split; [exact X2|exists ps; auto]|exact X5].
Qed.
End P.

(** C108. Whatever layers a message is wrapped in, in whatever order and however many, every layer can be made, the outermost object survives being
    written and read, and opening the layers from the outside in gives the message. *)
Theorem c108_any_depth_partial z inflate bz2 H E sha1 od fl rec ls : forall m d,
  zlib_ok inflate z -> (forall i, 1024 <= i <= 65011712 -> fl i = Z.log2 i) -> (forall a hl, hash_lengths a = Some hl -> forall d, zlen (H a d) = hl) -> (forall d, zlen (sha1 d) = 20 /\ wf (sha1 d)) ->
  survives fl rec m d -> Forall (layer_ok z H E fl) ls -> within_size z bz2 H E sha1 fl rec ls m ->
  exists M octets, put_all z bz2 H E sha1 fl rec ls m = Ok M /\ survives fl rec M octets /\ take_all z H E sha1 od ls M = Ok m.
Proof.
  induction ls as [|l ls IH]; intros m d Zk Hfl HH Hs Sv O F; [exists m, d; repeat split; apply Sv|]. cbn [put_all take_all within_size] in *. destruct F as [F1 F2]. destruct (F1 d (proj1 Sv)) as [Wd Ld].
  destruct (one_layer z inflate bz2 H E sha1 od fl rec l m d Zk Hfl HH Hs Sv Wd Ld (Forall_inv O) (fun m' X => proj1 (F2 m' X))) as (m' & d' & X1 & X2 & X3).
  destruct (IH m' d' Zk Hfl HH Hs X2 (Forall_inv_tail O) (proj2 (F2 m' X1))) as (M & o & Y1 & Y2 & Y3). exists M, o. rewrite X1. cbn [bind]. split; [exact Y1|]. split; [exact Y2|]. rewrite Y3. exact X3.
Qed.
Print Assumptions c108_any_depth_partial.
(** the conditions are met: a literal message, compressed with zlib, encrypted under a passphrase, and then to two recipients, of which the second reads it *)
Definition nest_E (a : Z) (k b : bytes) : bytes := b.
Definition nest_H (a : Z) (d : bytes) : bytes := match hash_lengths a with Some n => firstn (Z.to_nat n) (rev d ++ repeat 7 (Z.to_nat n)) | None => [] end.
Definition nest_sha1 (d : bytes) : bytes := repeat 3 20.
Definition nest_layers : list layer :=
  [Compress 2 (Some 6); Passphrase 7 [112; 119] (repeat 9 16) (repeat 5 16) 3 1 [1; 2; 3; 4; 5; 6; 7; 8] 1024; Recipients 7 (repeat 8 16) (repeat 4 16) [ex_r1] [ex_r2] ex_r2 ex_dec2].
Lemma nest_wf n x : 0 <= x < 256 -> wf (repeat x n).
Proof. intros B. unfold wf. apply Forall_forall. intros y I. apply repeat_spec in I. subst y. exact B. Qed.
Lemma nest_cipher k iv : zlen k = 16 -> wf k -> zlen iv = 16 -> wf iv -> cipher_args nest_E 7 k iv 16.
Proof. intros Lk Wk Li Wi. split; [reflexivity|]. split; [discriminate|]. split; [rewrite Lk; vm_compute; tauto|]. split; [exact Wk|]. split; [intros b Wb Lb; split; assumption|]. split; assumption. Qed.
Lemma nest_ok : Forall (layer_ok demo_zlib nest_H nest_E Z.log2) nest_layers.
Proof.
  apply Forall_cons; [|apply Forall_cons; [|apply Forall_cons; [|apply Forall_nil]]].
  - right. split; [now right|]. exists []. reflexivity.
  - exists 16. eexists. eexists. exists 16. split; [apply nest_cipher; try reflexivity; apply nest_wf; lia|]. split; [vm_compute; reflexivity|]. split; [vm_compute; reflexivity|]. split; [intros b Wb Lb; split; assumption|]. split; [|split; [reflexivity|vm_compute; discriminate]].
    split; [unfold byte; lia|]. split; [repeat (apply Forall_cons; [unfold byte; lia|]); apply Forall_nil|]. split; [reflexivity|]. exists 0. split; [unfold byte; lia|reflexivity].
  - exists 16, [ex_r1], []. split; [apply nest_cipher; try reflexivity; apply nest_wf; lia|]. split; [reflexivity|].
    assert (X1 : exists esk, get_encrypted_key Z.log2 (rsa_encrypt 32 (fun x => 256 * x) (repeat 9 40)) 7 (repeat 8 16) = Ok esk /\ esk <> [] /\ zlen esk < 100 /\ get_key_and_cipher_algo (ex_dec2 1) 1 esk = Err ValueError).
    { eexists. split; [vm_compute; reflexivity|]. split; [discriminate|]. split; [vm_compute; reflexivity|vm_compute; reflexivity]. }
    assert (X2 : exists esk, get_encrypted_key Z.log2 (rsa_encrypt 40 (fun x => 256 * x) (repeat 7 40)) 7 (repeat 8 16) = Ok esk /\ esk <> [] /\ zlen esk < 100 /\ get_key_and_cipher_algo (ex_dec2 1) 1 esk = Ok (7, repeat 8 16)).
    { eexists. split; [vm_compute; reflexivity|]. split; [discriminate|]. split; [vm_compute; reflexivity|vm_compute; reflexivity]. }
    destruct X1 as (e1 & A1 & A2 & A3 & A4). destruct X2 as (e2 & B1 & B2 & B3 & B4). change (2 ^ 32) with 4294967296. split; [|split].
    + intros r I. cbn [app In] in I. destruct I as [<-|[<-|[]]].
      * split; [split; [unfold byte; cbn; lia|exists [1; 2; 3; 4; 5; 6; 7; 8]; split; [vm_compute; reflexivity|split; [repeat (apply Forall_cons; [unfold byte; lia|]); apply Forall_nil|reflexivity]]]|]. exists e1. split; [eexists; split; [reflexivity|exact A1]|]. split; [exact A2|lia].
      * split; [split; [unfold byte; cbn; lia|exists [17; 18; 19; 20; 21; 22; 23; 24]; split; [vm_compute; reflexivity|split; [repeat (apply Forall_cons; [unfold byte; lia|]); apply Forall_nil|reflexivity]]]|]. exists e2. split; [eexists; split; [reflexivity|exact B1]|]. split; [exact B2|lia].
    + intros r esk [<-|[]] (enc & X & Y). left. cbn [ex_r1 r_enc] in X. apply ok_inj in X. subst enc. rewrite A1 in Y. apply ok_inj in Y. subst esk. exact A4.
    + intros esk (enc & X & Y). cbn [ex_r2 r_enc] in X. apply ok_inj in X. subst enc. rewrite B1 in Y. apply ok_inj in Y. subst esk. exact B4.
Qed.
Ltac step := match goal with
    | |- forall d, message_octets _ _ _ = Ok d -> _ => let X := fresh "X" in let d := fresh "d" in intros d X; vm_compute in X; apply ok_inj in X; subst d; split; [repeat (apply Forall_cons; [unfold byte; lia|]); apply Forall_nil|vm_compute; reflexivity]
    | |- forall m', put _ _ _ _ _ _ _ _ _ = Ok m' -> _ => let X := fresh "X" in let d := fresh "d" in intros d X; vm_compute in X; apply ok_inj in X; subst d; split; [first [exact Logic.I|vm_compute; reflexivity]|]
    end.
Lemma nest_fits : within_size demo_zlib (fun _ _ => Ok []) nest_H nest_E nest_sha1 Z.log2 (fun _ => Ok []) nest_layers ex_literal.
Proof.
  split; [step|step]. split; [step|step]. split; [step|step]. exact Logic.I.
Qed.
Lemma nest_hash a hl : hash_lengths a = Some hl -> forall d, zlen (nest_H a d) = hl.
Proof. intros X x. unfold nest_H. rewrite X. unfold zlen. rewrite firstn_length, app_length, repeat_length. assert (0 <= hl) by (unfold hash_lengths in X; repeat match type of X with (if ?b then _ else _) = _ => destruct b end; try discriminate X; injection X as <-; lia). lia. Qed.
Example c108_used : exists d M octets, survives Z.log2 (fun _ => Ok []) ex_literal d /\ put_all demo_zlib (fun _ _ => Ok []) nest_H nest_E nest_sha1 Z.log2 (fun _ => Ok []) nest_layers ex_literal = Ok M /\
  survives Z.log2 (fun _ => Ok []) M octets /\ take_all demo_zlib nest_H nest_E nest_sha1 toy_od nest_layers M = Ok ex_literal.
Proof.
  assert (Sv : exists d, survives Z.log2 (fun _ => Ok []) ex_literal d) by (eexists; split; [vm_compute; reflexivity|]; eexists; split; [vm_compute; reflexivity|vm_compute; reflexivity]).
  destruct Sv as (d & Sv). exists d.
  destruct (c108_any_depth_partial demo_zlib demo_inflate (fun _ _ => Ok []) nest_H nest_E nest_sha1 toy_od Z.log2 (fun _ => Ok []) nest_layers ex_literal d) as (M & o & A & B & C).
  - exact demo_zlib_ok.
  - reflexivity.
  - exact nest_hash.
  - intros x. split; [reflexivity|apply nest_wf; lia].
  - exact Sv.
  - exact nest_ok.
  - exact nest_fits.
  - exists M, o. repeat (split; [assumption|]). exact C.
Qed.
