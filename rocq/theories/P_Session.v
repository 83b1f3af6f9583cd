(** Property theorems C24, C28, C29, C58-C60: session keys and one-pass signatures (pgp/packets/packets.py). *)
From Verif Require Import Base BaseProofs Spec Utils UtilsProofs HexProofs S2k SpecS2k S2kProofs Cipher SymCipher SpecCfb CfbProofs SessionKeys SessionKeysProofs.

(** C24. The block built around a session key reads back as the same algorithm and key. *)
Theorem c24_block_round_trip : forall alg key, byte alg -> wf key ->
  exists b, session_block alg key = Ok b /\ wf b /\ read_session_block b = Ok (alg, key).
Proof. exact c24_block. Qed.
Print Assumptions c24_block_round_trip.
(** a block with room for algorithm and checksum is accepted only if it is exactly algorithm, key and the two-octet
    sum of the key octets modulo 65536 *)
Theorem c24_only_good_checksum : forall m a k, wf m -> 3 <= zlen m -> read_session_block m = Ok (a, k) ->
  m = a :: k ++ be_bytes 2 (zsum k mod 65536).
Proof. exact c24_accept. Qed.
Print Assumptions c24_only_good_checksum.
Theorem c24_bad_checksum_rejected : forall m a key x y, wf m -> m = a :: key ++ [x; y] -> x * 256 + y <> zsum key mod 65536 ->
  read_session_block m = Err ValueError.
Proof. exact c24_reject. Qed.
Print Assumptions c24_bad_checksum_rejected.
Theorem c24_too_short_rejected : forall m, zlen m < 2 -> read_session_block m = Err IndexError.
Proof. exact c24_short. Qed.
Print Assumptions c24_too_short_rejected.
(** a single changed octet in the key or checksum is always noticed *)
Theorem c24_one_octet_noticed : forall a pre x x' post c, wf (a :: pre ++ x :: post ++ c) -> byte x' -> x' <> x -> zlen c = 2 ->
  read_session_block (a :: pre ++ x :: post ++ c) = Ok (a, pre ++ x :: post) ->
  read_session_block (a :: pre ++ x' :: post ++ c) = Err ValueError.
Proof.
  intros a pre x x' post c Hw Hx' Hne Hc H. pose proof (be_bytes_val 2 (zsum (pre ++ x :: post) mod 65536)) as V.
  assert (Hl : 3 <= zlen (a :: pre ++ x :: post ++ c)).
  { rewrite zlen_cons, zlen_app, zlen_cons, zlen_app. pose proof (zlen_nonneg pre). pose proof (zlen_nonneg post). lia. }
  pose proof (c24_accept _ _ _ Hw Hl H) as E. set (cs := be_bytes 2 _) in E, V. clearbody cs. injection E as E.
  replace (pre ++ x :: post ++ c) with ((pre ++ x :: post) ++ c) in E by (now rewrite <- app_assoc). apply app_inv_head in E.
  destruct c as [|c0 [|c1 [|? ?]]]; try (unfold zlen in Hc; cbn in Hc; lia).
  apply wf_cons in Hw as [Wa Hw]. apply wf_app in Hw as [Wp Hw]. apply wf_cons in Hw as [Wx Hw]. apply wf_app in Hw as [Wq Wc].
  apply (c24_reject _ a (pre ++ x' :: post) c0 c1).
  - rewrite wf_cons, wf_app, wf_cons, wf_app. tauto.
  - now rewrite <- app_assoc.
  - intros Ev. rewrite <- E, be2 in V. change (256 ^ Z.of_nat 2) with 65536 in V.
    rewrite Z.mod_mod in V by lia.
    assert (Hs : forall l y r, zsum (l ++ y :: r) = zsum (l ++ r) + y).
    { intros l y r. induction l as [|z l IH]; cbn [app]; [rewrite zsum_cons; lia|]. rewrite !zsum_cons, IH. lia. }
    rewrite !Hs in *. rewrite Ev in V. unfold byte in *.
    assert (Hd : (zsum (pre ++ post) + x' - (zsum (pre ++ post) + x)) mod 65536 = 0) by (rewrite Zminus_mod, V, Z.sub_diag; reflexivity).
    replace (zsum (pre ++ post) + x' - (zsum (pre ++ post) + x)) with (x' - x) in Hd by lia.
    apply Z.mod_divide in Hd; [|lia]. destruct Hd as [q Hq]. assert (q = 0) by lia. lia.
Qed.
Print Assumptions c24_one_octet_noticed.
(** refuted part: two zero octets are no algorithm-key-checksum block, yet are accepted with an empty key *)
Theorem c24_two_octets_refuted : read_session_block [0; 0] = Ok (0, []) /\ ~ exists a k, [0; 0] = a :: k ++ be_bytes 2 (zsum k mod 65536).
Proof.
  split; [reflexivity|]. intros (a & k & H). apply (f_equal (@length Z)) in H. cbn [length] in H. rewrite app_length in H. cbn [be_bytes length] in H. lia.
Qed.
Print Assumptions c24_two_octets_refuted.
Example c24_ex : session_block 9 [200; 100] = Ok [9; 200; 100; 1; 44] /\ read_session_block [9; 200; 100; 1; 44] = Ok (9, [200; 100]) /\
  read_session_block [9; 200; 101; 1; 44] = Err ValueError.
Proof. vm_compute. auto. Qed.

(** C28. A public-key session key packet re-serialises to the octets it was parsed from. *)
Theorem c28_pkesk_reserialise : forall data p, wf data -> pkesk_from_content data = Ok p -> pkesk_content p = Ok data.
Proof. exact pkesk_again. Qed.
Print Assumptions c28_pkesk_reserialise.
(** it parses exactly when it has the 10 fixed octets, and yields version, key id in hexadecimal, algorithm and the rest *)
Theorem c28_pkesk_parse : forall v k a e, wf k -> zlen k = 8 -> pkesk_from_content (v :: k ++ a :: e) = Ok (Pkesk v (Some (hex_text k)) a e).
Proof. exact pkesk_from. Qed.
Print Assumptions c28_pkesk_parse.
Theorem c28_pkesk_short_rejected : forall data, wf data -> zlen data < 10 -> pkesk_from_content data = Err IndexError.
Proof. exact pkesk_short. Qed.
Print Assumptions c28_pkesk_short_rejected.
(** built from values, it parses back to them *)
Theorem c28_pkesk_parse_back : forall v k a e, byte v -> byte a -> wf k -> zlen k = 8 ->
  exists data, pkesk_content (Pkesk v (Some (hex_text k)) a e) = Ok data /\ pkesk_from_content data = Ok (Pkesk v (Some (hex_text k)) a e).
Proof. intros v k a e Hv Ha Hk Hl. eexists. split; [now apply pkesk_content_of|]. now apply pkesk_from. Qed.
Print Assumptions c28_pkesk_parse_back.
(** refuted part: the wildcard (no key id) does not: it comes back as sixteen zero digits, never as no key id *)
Theorem c28_wildcard_refuted : forall v a e, byte v -> byte a ->
  exists data, pkesk_content (Pkesk v None a e) = Ok data /\ pkesk_from_content data = Ok (Pkesk v (Some (repeat 48 16)) a e).
Proof.
  intros v a e Hv Ha. exists (v :: repeat 0 8 ++ a :: e). split.
  - change (pkesk_content (Pkesk v None a e)) with (pkesk_content (Pkesk v (Some (hex_text (repeat 0 8))) a e)). apply pkesk_content_of; [easy|easy| |reflexivity].
    repeat constructor; unfold byte; lia.
  - rewrite pkesk_from; [reflexivity| |reflexivity]. repeat constructor; unfold byte; lia.
Qed.
Print Assumptions c28_wildcard_refuted.
(** A passphrase session key packet (simple, salted or iterated specifier) re-serialises to the octets it was parsed
    from, as long as they end within the encrypted key; the math.log oracle must be exact on S2K counts *)
Theorem c28_skesk_reserialise : forall fl data p n, (forall i, 1024 <= i <= 65011712 -> fl i = Z.log2 i) -> wf data -> skesk_from_content data = Ok p ->
  (forall h m a sn sl, sk_s2k p <> GnuPGS2K h m a sn sl) -> symmetric_cipher_key_lengths (sk_sym p) = Some n ->
  2 + s2k_size (sk_s2k p) <= zlen data <= 2 + s2k_size (sk_s2k p) + n + 1 ->
  skesk_content fl p = Ok data.
Proof. exact skesk_again. Qed.
Print Assumptions c28_skesk_reserialise.
Theorem c28_skesk_parse_back : forall fl v s esk n, (forall i, 1024 <= i <= 65011712 -> fl i = Z.log2 i) -> byte v -> byte (s2k_sym s) -> s2k_ok s ->
  symmetric_cipher_key_lengths (s2k_sym s) = Some n -> zlen esk <= n + 1 -> wf esk ->
  exists data, skesk_content fl (Skesk v (s2k_sym s) s (Some esk)) = Ok data /\ wf data /\
    skesk_from_content data = Ok (Skesk v (s2k_sym s) s (Some esk)).
Proof. exact skesk_parse_back. Qed.
Print Assumptions c28_skesk_parse_back.
(** refuted part: an encrypted key longer than the specifier's own key plus one octet loses its tail, so that an
    AES-256 session key wrapped by an AES-128 passphrase key does not survive *)
Theorem c28_skesk_truncates_refuted : forall fl, exists esk data,
  zlen esk = 33 /\ wf esk /\ skesk_content fl (Skesk 4 7 (SimpleS2K 2 7) (Some esk)) = Ok data /\
  exists cut, skesk_from_content data = Ok (Skesk 4 7 (SimpleS2K 2 7) (Some cut)) /\ zlen cut = 17.
Proof.
  intros fl. exists (repeat 5 33), ([4; 7; 0; 2] ++ repeat 5 33). split; [reflexivity|]. split; [apply Forall_forall; intros x Hx; apply repeat_spec in Hx; subst; unfold byte; lia|].
  split; [reflexivity|]. exists (repeat 5 17). split; reflexivity.
Qed.
Print Assumptions c28_skesk_truncates_refuted.
Example c28_ex : pkesk_from_content [3; 1; 2; 3; 4; 5; 6; 7; 255; 1; 0; 9; 1; 3] =
  Ok (Pkesk 3 (Some (hex_text [1; 2; 3; 4; 5; 6; 7; 255])) 1 [0; 9; 1; 3]) /\
  skesk_from_content [4; 7; 3; 2; 1; 2; 3; 4; 5; 6; 7; 8; 96] = Ok (Skesk 4 7 (IteratedS2K 2 7 [1; 2; 3; 4; 5; 6; 7; 8] 65536) (Some [])).
Proof. vm_compute. auto. Qed.

(** C29 is refuted. A one-pass signature packet reports only the first four octets of the key id, and re-serialises
    with these in the place of the last four. *)
Theorem c29_key_id_halved_refuted : forall v t h a k1 k2 n rest, wf [v; t; h; a; n] -> wf k1 -> zlen k1 = 4 -> zlen k2 = 4 ->
  exists p, onepass_from_content ([v; t; h; a] ++ k1 ++ k2 ++ n :: rest) = Ok p /\ op_key_id p = hex_text k1 /\
    onepass_content p = Ok ([v; t; h; a] ++ [0; 0; 0; 0] ++ k1 ++ [n]).
Proof.
  intros v t h a k1 k2 n rest W W1 L1 L2. eexists. split; [now apply onepass_exact|]. split; [reflexivity|].
  rewrite onepass_content_exact by (easy || lia). rewrite L1. reflexivity.
Qed.
Print Assumptions c29_key_id_halved_refuted.
(** what is kept: the other fields *)
Theorem c29_other_fields_partial : forall v t h a k1 k2 n rest, wf k1 -> zlen k1 = 4 -> zlen k2 = 4 ->
  onepass_from_content ([v; t; h; a] ++ k1 ++ k2 ++ n :: rest) = Ok (OnePass v t h a (hex_text k1) n).
Proof. exact onepass_exact. Qed.
Print Assumptions c29_other_fields_partial.
(** the octets come back only for a key id whose halves are 0 and 0 *)
Theorem c29_same_octets_only_zero : forall v t h a k1 k2 n p, wf [v; t; h; a; n] -> wf k1 -> zlen k1 = 4 -> zlen k2 = 4 ->
  onepass_from_content ([v; t; h; a] ++ k1 ++ k2 ++ [n]) = Ok p ->
  onepass_content p = Ok ([v; t; h; a] ++ k1 ++ k2 ++ [n]) <-> k1 ++ k2 = repeat 0 8.
Proof.
  intros v t h a k1 k2 n p W W1 L1 L2 H. rewrite onepass_exact in H by easy. injection H as <-. rewrite onepass_content_exact by (easy || lia). rewrite L1.
  change (repeat 0 (Z.to_nat (8 - 4))) with [0; 0; 0; 0].
  split.
  - intros E. injection E as E. change (0 :: 0 :: 0 :: 0 :: k1 ++ [n]) with ([0; 0; 0; 0] ++ k1 ++ [n]) in E.
    rewrite !app_assoc in E. apply app_inj_tail in E as [E _].
    destruct k1 as [|x0 [|x1 [|x2 [|x3 [|? ?]]]]]; try (unfold zlen in L1; cbn in L1; lia).
    cbn [app] in E. injection E as <- <- <- <- <-. reflexivity.
  - intros E. destruct k1 as [|x0 [|x1 [|x2 [|x3 [|? ?]]]]]; try (unfold zlen in L1; cbn in L1; lia).
    cbn [app repeat] in E. injection E as -> -> -> -> ->. reflexivity.
Qed.
Print Assumptions c29_same_octets_only_zero.
Example c29_ex : onepass_from_content [3; 0; 8; 1; 17; 34; 51; 68; 85; 102; 119; 136; 1] = Ok (OnePass 3 0 8 1 (hex_text [17; 34; 51; 68]) 1).
Proof. reflexivity. Qed.

(** C58. A session key encrypted to an RSA key (modulus of [k] octets; [f] the public and [g] the secret operation) is
    recovered exactly when the ciphertext needs all [k] octets; otherwise decryption raises ValueError. *)
Theorem c58_rsa_recovered_partial : forall fl k f g ps alg key pka, byte alg -> wf key -> zlen key + 14 <= k -> k <= 8191 ->
  (forall m, 0 < m < 256 ^ (k - 1) -> 0 < f m < 256 ^ k /\ g (f m) = m) ->
  (forall i, 0 < i < 256 ^ k -> fl i = Z.log2 i) ->
  k <= zlen ps -> wf ps -> Forall (fun x => x <> 0) ps -> pka <> 17 -> pka <> 19 ->
  exists c esk, get_encrypted_key fl (rsa_encrypt k f ps) alg key = Ok esk /\ 0 < c < 256 ^ k /\
    (exists em, pkcs1_pad k ps (alg :: key ++ be_bytes 2 (zsum key mod 65536)) = Ok em /\ c = f (be_val em)) /\
    get_key_and_cipher_algo (rsa_decrypt k g) pka esk = if 256 ^ (k - 1) <=? c then Ok (alg, key) else Err ValueError.
Proof. exact rsa_round. Qed.
Print Assumptions c58_rsa_recovered_partial.
(** and there are permutations (here the identity) for which it is never recovered *)
Theorem c58_short_ciphertext_refuted : forall fl k ps alg key, byte alg -> wf key -> zlen key + 14 <= k -> k <= 8191 ->
  (forall i, 0 < i < 256 ^ k -> fl i = Z.log2 i) -> k <= zlen ps -> wf ps -> Forall (fun x => x <> 0) ps ->
  exists esk, get_encrypted_key fl (rsa_encrypt k (fun x => x) ps) alg key = Ok esk /\
    get_key_and_cipher_algo (rsa_decrypt k (fun x => x)) 1 esk = Err ValueError.
Proof.
  intros fl k ps alg key Ha Hk Hl Hk2 Hfl Hps Wps Nps. pose proof (zlen_nonneg key).
  destruct (rsa_round fl k (fun x => x) (fun x => x) ps alg key 1 Ha Hk Hl Hk2) as (c & esk & H1 & H2 & (em & H3 & H4) & H5); try easy.
  - intros m Hm. assert (256 ^ (k - 1) <= 256 ^ k) by (apply Z.pow_le_mono_r; lia). split; [lia|reflexivity].
  - exists esk. split; [exact H1|]. rewrite H5. replace (256 ^ (k - 1) <=? c) with false; [reflexivity|]. symmetry. apply Z.leb_gt.
    destruct (pkcs1_pad_ok k ps (alg :: key ++ be_bytes 2 (zsum key mod 65536))) as (em' & E1 & E2 & E3 & E5 & E4); try easy.
    + rewrite zlen_cons, zlen_app. rewrite be_bytes_len. lia.
    + rewrite wf_cons, wf_app. split; [easy|]. split; [easy|]. apply be_bytes_wf.
    + rewrite E1 in H3. injection H3 as <-. lia.
Qed.
Print Assumptions c58_short_ciphertext_refuted.

(** C59 is refuted: for every ElGamal key the session key can be read from the packet without the secret key: decrypting
    with the operation that just returns the second number recovers it. *)
Theorem c59_elgamal_in_clear_refuted : forall fl key ps alg sk, byte alg -> wf sk -> 1 < elg_p key -> zlen sk + 14 <= elg_k key -> elg_k key <= 8191 ->
  (forall i, 0 < i < 256 ^ elg_k key -> fl i = Z.log2 i) -> elg_k key <= zlen ps -> wf ps -> Forall (fun x => x <> 0) ps ->
  exists esk, get_encrypted_key fl (elg_encrypt key ps) alg sk = Ok esk /\ get_key_and_cipher_algo (elg_decrypt key snd) 16 esk = Ok (alg, sk).
Proof.
  intros fl key ps alg sk Ha Hk Hp Hl Hm Hfl Hps Wps Nps. apply elg_round; try easy. intros m Hm'. unfold elg_raw_encrypt. cbn [snd].
  change (elg_y key ^ 0) with 1. rewrite Z.mul_1_l. apply Z.mod_small. lia.
Qed.
Print Assumptions c59_elgamal_in_clear_refuted.
(** the owner of the secret key recovers it as well *)
Theorem c59_owner_recovers_partial : forall fl key ps alg sk (D : Z * Z -> Z), byte alg -> wf sk -> 1 < elg_p key -> zlen sk + 14 <= elg_k key -> elg_k key <= 8191 ->
  (forall m, 0 <= m < elg_p key -> D (elg_raw_encrypt key m 0) = m) ->
  (forall i, 0 < i < 256 ^ elg_k key -> fl i = Z.log2 i) ->
  elg_k key <= zlen ps -> wf ps -> Forall (fun x => x <> 0) ps ->
  exists esk, get_encrypted_key fl (elg_encrypt key ps) alg sk = Ok esk /\ get_key_and_cipher_algo (elg_decrypt key D) 16 esk = Ok (alg, sk).
Proof. exact elg_round. Qed.
Print Assumptions c59_owner_recovers_partial.

(** C60. A session key encrypted under a passphrase is RFC 4880 CFB under the S2K key, and the same passphrase gives it
    back; [E] is the block cipher, of which nothing but the block length is assumed *)
Theorem c60_passphrase_round_trip : forall H E s sym pass sk bs k, (forall a hl, hash_lengths a = Some hl -> forall d, zlen (H a d) = hl) ->
  symmetric_cipher_block_lengths (s2k_sym s) = Some bs -> s2k_sym s <> 0 -> to_key H s pass = Ok (Some k) ->
  good_block (E (s2k_sym s) k) bs -> byte sym -> wf sk ->
  skesk_encrypt_key H E s sym pass sk = Ok (rfc_cfb_enc (E (s2k_sym s) k) (Z.to_nat bs) (repeat 0 (Z.to_nat bs)) (sym :: sk)) /\
  skesk_get_key H E s (s2k_sym s) pass (Some (rfc_cfb_enc (E (s2k_sym s) k) (Z.to_nat bs) (repeat 0 (Z.to_nat bs)) (sym :: sk))) = Ok (sym, Some sk).
Proof. exact skesk_round. Qed.
Print Assumptions c60_passphrase_round_trip.
(** with no encrypted session key in the packet the passphrase key itself is the session key *)
Theorem c60_no_encrypted_key : forall H E s sym pass k e, to_key H s pass = Ok k -> e = None \/ e = Some [] -> skesk_get_key H E s sym pass e = Ok (sym, k).
Proof. exact skesk_no_esk. Qed.
Print Assumptions c60_no_encrypted_key.

(** a concrete case meets the hypotheses: a 16-octet toy hash and a toy block cipher *)
Definition toy_hash (a : Z) (d : bytes) : bytes := match hash_lengths a with Some n => firstn (Z.to_nat n) (d ++ repeat 7 64) | None => [] end.
Definition toy_E (a : Z) (k b : bytes) : bytes := firstn 16 (rev b ++ repeat 1 16).
Example c60_ex : exists k, to_key toy_hash (SimpleS2K 2 7) [112; 119] = Ok (Some k) /\
  (exists e, skesk_encrypt_key toy_hash toy_E (SimpleS2K 2 7) 9 [112; 119] [1; 2; 3] = Ok e /\
             skesk_get_key toy_hash toy_E (SimpleS2K 2 7) 7 [112; 119] (Some e) = Ok (9, Some [1; 2; 3])).
Proof. eexists. split; [vm_compute; reflexivity|]. eexists. split; vm_compute; reflexivity. Qed.
Example c59_ex : exists esk, get_encrypted_key Z.log2 (elg_encrypt (ElgPub (2 ^ 160 + 7) 5 77) (repeat 9 21)) 9 [1; 2; 3; 4; 5; 6; 7] = Ok esk /\
  get_key_and_cipher_algo (elg_decrypt (ElgPub (2 ^ 160 + 7) 5 77) snd) 16 esk = Ok (9, [1; 2; 3; 4; 5; 6; 7]).
Proof. eexists. split; vm_compute; reflexivity. Qed.
(** an RSA-like pair (x -> 256 x, 16-octet modulus) under which the ciphertext is long enough *)
Example c58_ex : exists esk, get_encrypted_key Z.log2 (rsa_encrypt 16 (fun x => 256 * x) (repeat 9 16)) 9 [1; 2] = Ok esk /\
  get_key_and_cipher_algo (rsa_decrypt 16 (fun x => x / 256)) 1 esk = Ok (9, [1; 2]).
Proof. eexists. split; vm_compute; reflexivity. Qed.
