(** C43, C44, C47, C48, C63: messages (pgp/message.py). [E] the block ciphers, [od] PyCrypto's OPENPGP mode, [fl] math.log base 2. *)
From Verif Require Import Base BaseProofs Spec SpecUtf8 Utils Framing SpecFraming Armor S2k SpecS2k SymCipher SpecCfb CfbProofs SessionKeys SessionKeysProofs KeyPackets KeyProofs DataPackets SigPackets Packets SpecPackets Message SpecMessage MsgEncProofs MsgProps CrlfProofs P_Session.

(** C43. Integrity protected data is RFC 4880 5.13, and decrypts under the same key to the packets that went in. *)
Theorem c43_protected_partial : forall E od sha1 alg k bl iv msg v, symmetric_cipher_block_lengths alg = Some bl -> alg <> 0 -> In (zlen k) (cipher_key_sizes alg) -> good_block (E alg k) bl ->
  (forall d, zlen (sha1 d) = 20 /\ wf (sha1 d)) -> wf iv -> zlen iv = bl -> wf msg -> msg <> [] ->
  exists d, encdata_new E sha1 iv alg (Some k) msg true v = Ok d /\ ed_data d = rfc_seipd (E alg k) bl sha1 iv (slice_from iv (-2)) msg /\
    decrypt_octets E od d alg (Some k) = Ok (iv, msg ++ [211; 20] ++ sha1 (iv ++ slice_from iv (-2) ++ msg ++ [211; 20])) /\
    decrypt_data E sha1 od d alg (Some k) = (do ps <- all_packets msg;; open_message ps).
Proof.
  intros E od sha1 alg k bl iv msg v Hb H0 Hk HE Hs Wi Li Wm Hn. destruct (protected_round E od sha1 alg k bl iv msg v Hb H0 Hk HE Hs Wi Li Wm Hn) as (d & A & B & C & D & _ & F). exists d. repeat split; auto.
  destruct d as [dd ig vv]. cbn [ed_integrity ed_data ed_version] in *. subst dd ig. apply (protected_octets E od sha1 alg k bl iv msg vv); auto.
Qed.
Print Assumptions c43_protected_partial.
(** Without integrity protection nothing can be encrypted, and nothing that is received can be decrypted. *)
Theorem c43_unprotected_encrypt_refuted : forall E sha1 alg k bl iv msg v, symmetric_cipher_block_lengths alg = Some bl -> alg <> 0 -> In (zlen k) (cipher_key_sizes alg) -> zlen iv = bl -> msg <> [] ->
  encdata_new E sha1 iv alg (Some k) msg false v = Err ValueError.
Proof. intros E sha1 alg k bl iv msg v Hb H0 Hk Li Hn. unfold encdata_new. rewrite (unprotected_fails E sha1 alg k bl iv msg Hb H0 Hk Li). now destruct msg. Qed.
Print Assumptions c43_unprotected_encrypt_refuted.
Theorem c43_unprotected_decrypt_refuted : forall E sha1 od d alg key m, ed_integrity d = false -> decrypt_data E sha1 od d alg key <> Ok m.
Proof. exact unprotected_unread. Qed.
Print Assumptions c43_unprotected_decrypt_refuted.
(** a whole message: any (literal or not) that survives being written and read *)
Theorem c43_literal_partial : forall E od sha1 fl rec alg k bl iv m d v, symmetric_cipher_block_lengths alg = Some bl -> alg <> 0 -> In (zlen k) (cipher_key_sizes alg) -> good_block (E alg k) bl ->
  (forall d, zlen (sha1 d) = 20 /\ wf (sha1 d)) -> wf iv -> zlen iv = bl -> survives fl rec m d -> wf d ->
  exists e, encdata_new E sha1 iv alg (Some k) d true v = Ok e /\ decrypt_data E sha1 od e alg (Some k) = Ok m.
Proof.
  intros E od sha1 fl rec alg k bl iv m d v Hb H0 Hk HE Hs Wi Li Sv Wd. destruct (survives_read fl rec m d Sv) as (D2 & D3).
  destruct (protected_round E od sha1 alg k bl iv d v Hb H0 Hk HE Hs Wi Li Wd D2) as (e & A & _ & _ & _ & _ & F). exists e. split; [exact A|]. now rewrite F.
Qed.
Print Assumptions c43_literal_partial.
Definition toy_sha1 (d : bytes) : bytes := firstn 20 (map (fun x => (x + 1) mod 256) (rev d) ++ repeat 7 20).
Definition toy_od (a : Z) (k : option bytes) (iv d : bytes) : res bytes := Ok d.
Definition ex_literal : message := MBinary (LBytes [1; 2; 3]) [97] 1000.
Example c43_ex : exists d e, message_octets Z.log2 (fun _ => Ok []) ex_literal = Ok d /\ wf d /\
  encdata_new toy_E toy_sha1 (repeat 5 16) 7 (Some (repeat 9 16)) d true (Some 1) = Ok e /\ zlen (ed_data e) = 52 /\
  decrypt_data toy_E toy_sha1 toy_od e 7 (Some (repeat 9 16)) = Ok ex_literal.
Proof. eexists. eexists. split; [vm_compute; reflexivity|]. split; [vm_compute; repeat (apply Forall_cons; [split; [discriminate|reflexivity]|]); apply Forall_nil|]. split; [vm_compute; reflexivity|]. split; vm_compute; reflexivity. Qed.

(** C44. Protected data that decrypts to a message is CFB of a block, its last two octets again, and octets whose last packet
    is an MDC packet with the SHA-1 of all but the last twenty octets. *)
Theorem c44_accepted : forall E sha1 od d alg key m, ed_integrity d = true -> wf (ed_data d) ->
  (forall k bl, key = Some k -> symmetric_cipher_block_lengths alg = Some bl -> good_block (E alg k) bl) ->
  decrypt_data E sha1 od d alg key = Ok m ->
  exists k bl iv dec ps h mdc, key = Some k /\ symmetric_cipher_block_lengths alg = Some bl /\ zlen iv = bl /\ 2 * bl <= zlen (ed_data d) /\
    rfc_cfb_dec (E alg k) (Z.to_nat bl) (repeat 0 (Z.to_nat bl)) (ed_data d) = iv ++ slice_from iv (-2) ++ dec /\
    packets_in dec (ps ++ [Pkt h (BData (PMdc mdc))]) /\ mdc = sha1 (iv ++ slice_from iv (-2) ++ slice dec 0 (-20)) /\ open_message ps = Ok m.
Proof.
  intros E sha1 od d alg key m Hi Hw HE H. destruct (decrypt_accepts E sha1 od d alg key m Hi H) as (iv & dec & ps & h & mdc & A & B & C & D).
  destruct (decrypt_octets_inv E od d alg key iv dec Hi Hw HE A) as [[-> ->] | (k & bl & K1 & K2 & _ & _ & K3 & K4 & K5)].
  - exfalso. destruct B as [B | (body & h' & ps' & B & _)].
    + change (parse_binary_packet_data pkt_dec []) with (@nil pkt, @None exn) in B. injection B as B. destruct ps; discriminate B.
    + destruct body; discriminate B.
  - exists k, bl, iv, dec, ps, h, mdc. repeat split; auto.
Qed.
Print Assumptions c44_accepted.
(** The exact outcome when the two octets of the MDC header stand before the last twenty: everything after the prefix is covered
    by the digest. *)
Theorem c44_exact : forall E sha1 od alg k bl data v iv l2 body h, symmetric_cipher_block_lengths alg = Some bl -> alg <> 0 -> In (zlen k) (cipher_key_sizes alg) -> good_block (E alg k) bl -> wf data ->
  2 * bl <= zlen data -> zlen iv = bl -> zlen l2 = 2 -> zlen h = 20 ->
  rfc_cfb_dec (E alg k) (Z.to_nat bl) (repeat 0 (Z.to_nat bl)) data = iv ++ l2 ++ body ++ [211; 20] ++ h ->
  decrypt_data E sha1 od (EncData data true v) alg (Some k) =
    if zlist_eqb l2 (slice_from iv (-2)) then
      (do ps <- all_packets body;; if zlist_eqb h (sha1 (iv ++ l2 ++ body ++ [211; 20])) then open_message ps else Err ValueError)
    else Err ValueError.
Proof.
  intros E sha1 od alg k bl data v iv l2 body h Hb H0 Hk HE Hw Hl Li L2 Lh HP.
  pose proof (decrypt_rfc E od alg k bl data v iv l2 _ Hb H0 Hk HE Hw Hl HP Li L2) as D. destruct (zlist_eqb l2 (slice_from iv (-2))) eqn:Ez.
  - rewrite (decrypt_mdc E sha1 od (EncData data true v) alg (Some k) iv body h eq_refl D Lh). apply zlist_eqb_spec in Ez. now rewrite <- Ez.
  - unfold decrypt_data. rewrite D. reflexivity.
Qed.
Print Assumptions c44_exact.
(** a wrong digest is never accepted, whatever the rest *)
Theorem c44_wrong_digest_rejected : forall E sha1 od alg k bl data v iv l2 body h m, symmetric_cipher_block_lengths alg = Some bl -> alg <> 0 -> In (zlen k) (cipher_key_sizes alg) -> good_block (E alg k) bl -> wf data ->
  2 * bl <= zlen data -> zlen iv = bl -> zlen l2 = 2 -> zlen h = 20 ->
  rfc_cfb_dec (E alg k) (Z.to_nat bl) (repeat 0 (Z.to_nat bl)) data = iv ++ l2 ++ body ++ [211; 20] ++ h ->
  h <> sha1 (iv ++ l2 ++ body ++ [211; 20]) -> decrypt_data E sha1 od (EncData data true v) alg (Some k) <> Ok m.
Proof.
  intros E sha1 od alg k bl data v iv l2 body h m Hb H0 Hk HE Hw Hl Li L2 Lh HP Hh. rewrite (c44_exact E sha1 od alg k bl data v iv l2 body h) by assumption.
  destruct (zlist_eqb l2 (slice_from iv (-2))); [|discriminate]. destruct (all_packets body); [|discriminate]. cbn [bind].
  destruct (zlist_eqb h (sha1 (iv ++ l2 ++ body ++ [211; 20]))) eqn:Ez; [apply zlist_eqb_spec in Ez; congruence|discriminate].
Qed.
Print Assumptions c44_wrong_digest_rejected.
(** less than two blocks is never accepted *)
Theorem c44_short_rejected : forall E sha1 od d alg k bl m, ed_integrity d = true -> wf (ed_data d) -> symmetric_cipher_block_lengths alg = Some bl -> good_block (E alg k) bl ->
  zlen (ed_data d) < 2 * bl -> decrypt_data E sha1 od d alg (Some k) <> Ok m.
Proof.
  intros E sha1 od d alg k bl m Hi Hw Hb HE Hl H. destruct (c44_accepted E sha1 od d alg (Some k) m Hi Hw) with (2 := H) as (k' & bl' & iv & dec & ps & h & mdc & A & B & _ & C & _).
  - intros k0 bl0 X Y. injection X as <-. rewrite Hb in Y. injection Y as <-. exact HE.
  - rewrite Hb in B. injection B as <-. lia.
Qed.
Print Assumptions c44_short_rejected.
Example c44_ex : exists e, encdata_new toy_E toy_sha1 (repeat 5 16) 7 (Some (repeat 9 16)) [203; 10; 98; 1; 97; 0; 0; 3; 232; 1; 2; 3] true (Some 1) = Ok e /\
  (exists m, decrypt_data toy_E toy_sha1 toy_od e 7 (Some (repeat 9 16)) = Ok m) /\
  decrypt_data toy_E toy_sha1 toy_od (EncData (removelast (ed_data e) ++ [1]) true (Some 1)) 7 (Some (repeat 9 16)) = Err ValueError.
Proof. eexists. split; [vm_compute; reflexivity|]. split; [eexists; vm_compute; reflexivity|vm_compute; reflexivity]. Qed.

(** C47. The message each list of packets is opened as. A literal or compressed packet first: *)
Theorem c47_literal : forall p rest f n t d, p_body p = BData (PLiteral f n (TInt t) d) -> open_message (p :: rest) = Ok (if (f =? 117) || (f =? 116) then MText d n t else MBinary d n t).
Proof. exact open_literal. Qed.
Print Assumptions c47_literal.
Theorem c47_compressed : forall p rest a d, p_body p = BData (PCompressed a d) -> open_message (p :: rest) = Ok (MCompressed a d).
Proof. exact open_compressed. Qed.
Print Assumptions c47_compressed.
(** an encrypted message is exactly session key packets, then encrypted data; every session key is kept, in order *)
Theorem c47_encrypted : forall ps keys d, open_message ps = Ok (MEncrypted keys d) <->
  exists esks q rest, ps = esks ++ q :: rest /\ encdata_of q = Ok d /\ ((esks <> [] /\ Forall2 (fun p k => session_key_of p = Ok k) esks keys) \/ (esks = [] /\ keys = [SKDefault])).
Proof.
  intros ps keys d. split; [apply encrypted_inv|]. intros (esks & q & rest & -> & Hq & [[Hn Hf] | [-> ->]]); [now apply open_encrypted|now apply open_default].
Qed.
Print Assumptions c47_encrypted.
(** a signed message is exactly one or more one-pass packets, one packet that is a message by itself, and signatures (or more
    one-pass packets), all signatures kept in order *)
Theorem c47_signed : forall ps sigs m op, open_message ps = Ok (MSigned sigs m op) <->
  op = true /\ exists pre post, pre <> [] /\ Forall (fun p => is_ops p = true) pre /\
    ((ps = pre /\ post = [] /\ m = None /\ sigs = []) \/
     exists p x, ps = pre ++ p :: post /\ is_ops p = false /\ (forall s, p_body p <> BSig s) /\ open_message [p] = Ok x /\ m = Some x /\ Forall tail_ok post /\ sigs = msigs (sigs_of post)).
Proof. exact open_signed. Qed.
Print Assumptions c47_signed.
(** a written message opens as itself: literal, compressed and one-pass signed *)
Theorem c47_plain_round_trip : forall m p, plain_packet m = Some p -> to_packets None m = Ok [p] /\ open_message [as_read p] = Ok m.
Proof. intros m p H. split; [now apply plain_to_packets|now apply plain_reopen]. Qed.
Print Assumptions c47_plain_round_trip.
Theorem c47_signed_round_trip_partial : forall sigs m p ps, plain_packet m = Some p -> sigs <> [] -> Forall (fun g => ms_one_pass g = true /\ sig_version_ok (ms_sig g)) sigs ->
  to_packets None (MSigned sigs (Some m) true) = Ok ps -> open_message (map as_read ps) = Ok (MSigned sigs (Some m) true).
Proof. exact signed_reopen. Qed.
Print Assumptions c47_signed_round_trip_partial.
Definition ex_sig (st : Z) : sigpkt := SigV4 4 st 1 8 [18; 52] [255; 3] [Sub 2 false (SbTime 1000000)] [Sub 16 false (SbIssuer (repeat 65 16))].
Example c47_ex : exists ps, to_packets None (MSigned [MSig NewH (ex_sig 0) true; MSig NewH (ex_sig 1) true] (Some ex_literal) true) = Ok ps /\ map pkt_type ps = [4; 4; 11; 2; 2] /\
  rfc_message (map pkt_type ps) /\ open_message (map as_read ps) = Ok (MSigned [MSig NewH (ex_sig 0) true; MSig NewH (ex_sig 1) true] (Some ex_literal) true).
Proof.
  eexists. split; [vm_compute; reflexivity|]. split; [reflexivity|]. split; [|vm_compute; reflexivity].
  apply (rm_one_pass [4; 11; 2]). apply (rm_one_pass [11]). apply rm_literal.
Qed.
(** Refuted parts. A signature before its message, which the RFC allows, is never accepted: *)
Theorem c47_signature_first_refuted : forall p s ps, p_body p = BSig s -> open_message (p :: ps) = Err TypeError.
Proof. intros p s ps. apply sig_first. Qed.
Print Assumptions c47_signature_first_refuted.
(** packets after a message are ignored: any list at all may follow a literal packet, none of which is RFC 4880 11.3 unless empty *)
Theorem c47_trailing_ignored_refuted : forall p rest m, pkt_type p = 11 -> open_message [p] = Ok m -> rest <> [] -> open_message (p :: rest) = Ok m /\ ~ rfc_message (map pkt_type (p :: rest)).
Proof.
  intros p rest m Ht Ho Hn. split.
  - destruct p as [h b]. unfold pkt_type in Ht. cbn [p_body] in Ht. unfold open_message, open_plain, pkt_type in *. cbn [p_body] in *. destruct b as [y|s|y|y|[|] y|[|] y|l|dd]; try discriminate Ht. cbn [body_type] in *. rewrite Ht in *. cbn [is_enc_type is_esk_type Z.eqb Pos.eqb orb] in *.
    destruct dd; try discriminate Ho; exact Ho.
  - cbn [map]. rewrite Ht. remember (11 :: map pkt_type rest) as ts eqn:E. intros H. destruct H as [ | |esks t F Hx|ts H|ts H]; try discriminate E.
    + injection E as E. destruct rest; [easy|discriminate E].
    + destruct esks as [|e esks]; cbn [app] in E; injection E as -> E; [destruct rest; [easy|discriminate E]|]. inversion F as [|? ? [X|X] _]; discriminate X.
Qed.
Print Assumptions c47_trailing_ignored_refuted.
(** one-pass packets and signatures need not correspond: any number of either *)
Theorem c47_unpaired_refuted : forall n, (1 < n)%nat -> exists ps m, length (filter is_ops ps) = n /\ sigs_of ps = [] /\ open_message ps = Ok (MSigned [] (Some m) true) /\ ~ rfc_message (map pkt_type ps).
Proof.
  intros n Hn. set (o := Pkt NewH (BOnePass (OnePass 3 0 8 1 (repeat 65 16) 1))). set (l := Pkt NewH (BData (PLiteral 98 [] (TInt 0) (LBytes [1])))). exists (repeat o n ++ [l]), (MBinary (LBytes [1]) [] 0).
  assert (F : filter is_ops (repeat o n ++ [l]) = repeat o n). { clear Hn. induction n as [|n IH]; [reflexivity|]. cbn [repeat app filter is_ops o p_body]. now f_equal. }
  split; [rewrite F; apply repeat_length|]. split; [unfold sigs_of; clear; induction n as [|n IH]; [reflexivity|exact IH]|]. split.
  - apply c47_signed. split; [reflexivity|]. exists (repeat o n), []. split; [destruct n; [lia|discriminate]|]. split; [apply Forall_forall; intros x Hx; apply repeat_spec in Hx; subst; reflexivity|].
    right. exists l, (MBinary (LBytes [1]) [] 0). repeat split. discriminate. constructor.
  - intros H. assert (L : last (map pkt_type (repeat o n ++ [l])) 0 = 11) by (rewrite map_app; cbn [map]; now rewrite last_last).
    assert (Hd : exists ts, map pkt_type (repeat o n ++ [l]) = 4 :: ts) by (destruct n; [lia|]; eexists; reflexivity). destruct Hd as (ts & Hd). rewrite Hd in H, L. inversion H as [ | |esks t F1 Ht|ts' H1|ts' H1].
    + destruct esks as [|e esks]; [cbn in H0; injection H0 as -> _; lia|]. cbn [app] in H0. injection H0 as -> _. inversion F1 as [|? ? [X|X] _]; discriminate X.
    + subst ts. change (4 :: ts' ++ [2]) with ((4 :: ts') ++ [2]) in L. rewrite last_last in L. discriminate L.
Qed.
Print Assumptions c47_unpaired_refuted.
(** when written, the first one-pass packet stands for the first signature instead of the last, and the flags are reversed *)
Theorem c47_one_pass_order_refuted : exists ps ops, to_packets None (MSigned [MSig NewH (ex_sig 0) true; MSig NewH (ex_sig 1) true] (Some ex_literal) true) = Ok ps /\
  flat_map (fun p => match p_body p with BOnePass o => [o] | _ => [] end) ps = ops /\ length ops = 2%nat /\ ~ rfc_bracketed ops [ex_sig 0; ex_sig 1] /\ ~ rfc_nested ops.
Proof.
  eexists. eexists. split; [vm_compute; reflexivity|]. split; [reflexivity|]. cbn [flat_map p_body app]. split; [reflexivity|]. split.
  - intros H. inversion H as [|? ? ? ? X _]; subst. destruct X as (X & _). discriminate X.
  - intros ((_ & X) & _). specialize (X ltac:(discriminate)). discriminate X.
Qed.
Print Assumptions c47_one_pass_order_refuted.
(** and signature objects read from packets of versions 2 and 3 cannot be written *)
Theorem c47_v3_unwritable_refuted : forall f v st pk ha a b c d op sigs m p, plain_packet m = Some p -> to_packets None (MSigned (MSig f (SigV3 v st pk ha a b c d) op :: sigs) (Some m) false) = Err TypeError.
Proof. intros. cbn [to_packets bind]. rewrite (plain_to_packets m p) by assumption. reflexivity. Qed.
Print Assumptions c47_v3_unwritable_refuted.

(** C48 holds only where there is nothing to do: the octets signed for a text document are the canonical ones exactly when the
    text was already canonical. *)
Theorem c48_only_canonical_partial : forall d, text_signable 1 d = canonical_text d <-> canonical_text d = d.
Proof. exact crlf_exact. Qed.
Print Assumptions c48_only_canonical_partial.
Theorem c48_other_types : forall t d, t <> 1 -> text_signable t d = d.
Proof. intros t d H. unfold text_signable. now rewrite (proj2 (Z.eqb_neq t 1) H). Qed.
Print Assumptions c48_other_types.
(** the octet before a line feed is dropped, so texts that differ in it have the same signed octets *)
Theorem c48_octet_lost_refuted : forall a b t, a <> 13 -> b <> 13 -> text_signable 1 (a :: 10 :: t) = text_signable 1 (b :: 10 :: t) /\
  (a <> b -> a <> 10 -> b <> 10 -> canonical_text (a :: 10 :: t) <> canonical_text (b :: 10 :: t)).
Proof.
  intros a b t Ha Hb. split; [now apply crlf_eats|]. intros Hn Ha2 Hb2. cbn [canonical_text]. rewrite (proj2 (Z.eqb_neq a 13) Ha), (proj2 (Z.eqb_neq b 13) Hb), (proj2 (Z.eqb_neq a 10) Ha2), (proj2 (Z.eqb_neq b 10) Hb2). intros H. injection H as H. auto.
Qed.
Print Assumptions c48_octet_lost_refuted.
Theorem c48_not_idempotent_refuted : exists d, text_signable 1 (text_signable 1 d) <> text_signable 1 d.
Proof. exists [13; 13; 10]. vm_compute. discriminate. Qed.
Print Assumptions c48_not_idempotent_refuted.
(** the specification itself is a canonicalisation *)
Theorem c48_spec_idempotent : forall d, canonical_text (canonical_text d) = canonical_text d.
Proof. exact canon_idem. Qed.
Print Assumptions c48_spec_idempotent.
Example c48_ex : canonical_text [97; 13; 10; 98] = [97; 13; 10; 98] /\ text_signable 1 [97; 13; 10; 98] = [97; 13; 10; 98] /\ text_signable 1 [97; 98; 10; 99] = [97; 13; 10; 99].
Proof. repeat split. Qed.

(** C63. A message that survives being written and read, encrypted under a passphrase: the passphrase gives the message back ... *)
Theorem c63_passphrase_message_partial : forall H E sha1 od fl rec m d alg bl pass sk iv ty hash salt count s k,
  (forall a hl, hash_lengths a = Some hl -> forall d, zlen (H a d) = hl) -> (forall d, zlen (sha1 d) = 20 /\ wf (sha1 d)) ->
  survives fl rec m d -> wf d ->
  symmetric_cipher_block_lengths alg = Some bl -> alg <> 0 -> In (zlen sk) (cipher_key_sizes alg) -> wf sk -> good_block (E alg sk) bl ->
  new_s2k ty hash alg salt count = Ok s -> to_key H s pass = Ok (Some k) -> good_block (E alg k) bl -> wf iv -> zlen iv = bl ->
  exists M, symmetric_encrypt E sha1 H fl rec m alg pass sk iv true ty hash alg salt count = Ok M /\ get_message E sha1 od H M (ByPass pass) = Ok m.
Proof.
  intros. destruct (sym_end H E sha1 od fl rec m d alg bl pass sk iv ty hash salt count s k) as (e & d' & A & B & _); try assumption. eauto.
Qed.
Print Assumptions c63_passphrase_message_partial.
(** ... also after the encrypted message has been written as packets and read again, if the specifier can be encoded, the
    session key is no longer than the cipher's key, and the message is smaller than 4 GiB *)
Theorem c63_through_packets_partial : forall H E sha1 od fl rec m d alg bl pass sk iv ty hash salt count s k n,
  (forall i, 1024 <= i <= 65011712 -> fl i = Z.log2 i) ->
  (forall a hl, hash_lengths a = Some hl -> forall d, zlen (H a d) = hl) -> (forall d, zlen (sha1 d) = 20 /\ wf (sha1 d)) ->
  survives fl rec m d -> wf d ->
  symmetric_cipher_block_lengths alg = Some bl -> alg <> 0 -> In (zlen sk) (cipher_key_sizes alg) -> wf sk -> good_block (E alg sk) bl ->
  new_s2k ty hash alg salt count = Ok s -> to_key H s pass = Ok (Some k) -> good_block (E alg k) bl -> wf iv -> zlen iv = bl ->
  s2k_ok s -> symmetric_cipher_key_lengths alg = Some n -> zlen sk <= n -> zlen d < 2 ^ 32 - 100 ->
  exists M octets ps, symmetric_encrypt E sha1 H fl rec m alg pass sk iv true ty hash alg salt count = Ok M /\ message_octets fl rec M = Ok octets /\
    parse_binary_packet_data pkt_dec octets = (ps, None) /\ open_message ps = Ok M /\ get_message E sha1 od H M (ByPass pass) = Ok m.
Proof.
  intros H E sha1 od fl rec m d alg bl pass sk iv ty hash salt count s k n Hfl HH Hs Sv Wd Hb H0 Hk Wsk HE Hn Ht HE2 Wiv Liv Os Hnn Lsk Ld.
  destruct (sym_end H E sha1 od fl rec m d alg bl pass sk iv ty hash salt count s k) as (e & d' & A & B & _ & _ & _ & L & We & Le); try assumption.
  pose proof (bs_8_16 alg bl Hb H0) as Hbl. assert (Ba : byte alg) by (eapply PacketsProofs.bl_byte; eauto). change (2 ^ 32) with 4294967296 in Ld.
  destruct (sym_wire H E sha1 od fl rec Hfl alg s e d' n Ba (new_s2k_sym _ _ _ _ _ _ Hn) Os We Hnn) as (o & ps & W1 & W2 & W3); [lia|change (2 ^ 32) with 4294967296; lia|].
  eexists. exists o, ps. split; [exact A|]. auto.
Qed.
Print Assumptions c63_through_packets_partial.
(** the default arguments (iterated specifier, 65536) meet this *)
Example c63_ex : exists M, symmetric_encrypt toy_E toy_sha1 toy_hash Z.log2 (fun _ => Ok []) ex_literal 7 [112; 119] (repeat 9 16) (repeat 5 16) true 3 1 7 [1; 2; 3; 4; 5; 6; 7; 8] 1024 = Ok M /\
  get_message toy_E toy_sha1 toy_od toy_hash M (ByPass [112; 119]) = Ok ex_literal.
Proof. eexists. split; [vm_compute; reflexivity|]. vm_compute. reflexivity. Qed.
(** refuted part: with another cipher for the passphrase key than for the data, the passphrase does not give the message back *)
Definition toy_E2 (a : Z) (k b : bytes) : bytes := map (fun x => (x + a) mod 256) (firstn 16 (rev b ++ repeat 1 16)).
Theorem c63_other_s2k_cipher_refuted : exists m M, symmetric_encrypt toy_E2 toy_sha1 toy_hash Z.log2 (fun _ => Ok []) m 7 [112; 119] (repeat 9 16) (repeat 5 16) true 0 8 9 [] 0 = Ok M /\
  (exists k, to_key toy_hash (SimpleS2K 8 9) [112; 119] = Ok (Some k)) /\ forall m', get_message toy_E2 toy_sha1 toy_od toy_hash M (ByPass [112; 119]) <> Ok m'.
Proof. exists ex_literal. eexists. split; [vm_compute; reflexivity|]. split; [eexists; vm_compute; reflexivity|]. intros m'. vm_compute. discriminate. Qed.
Print Assumptions c63_other_s2k_cipher_refuted.
