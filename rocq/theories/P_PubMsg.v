(** C79: messages encrypted to public keys (public_key_encrypt, get_message). *)
From Verif Require Import Base BaseProofs Spec Utils UtilsProofs Framing SpecFraming FramingProofs FramingProps Armor S2k SpecS2k Cipher SymCipher SpecCfb SpecCipher CipherProofs CfbProofs SessionKeys SessionKeysProofs KeyPackets KeyProofs Text Utf8 SpecUtf8 Utf8Proofs DataPackets SigPackets SigProofs SpecPackets Packets PacketsProofs Message SpecMessage MsgEncProofs MsgProps PubMsg SpecPubMsg PubMsgProofs P_Session P_Message.

(** C79. A message that survives being written and read, encrypted to [rs] and (as hidden ones) to [hs] is written, read back as the same
    object, and its holder's unlocked secret key gives the message, if that key recovers the session key made for its
    recipient and fails on the session keys before that one with ValueError (or recovers it there as well). *)
Theorem c79_every_recipient_partial : forall H E sha1 od fl rec m d alg bl sk iv rs hs pre r post dec,
  (forall i, 1024 <= i <= 65011712 -> fl i = Z.log2 i) -> (forall d, zlen (sha1 d) = 20 /\ wf (sha1 d)) ->
  survives fl rec m d -> wf d -> zlen d < 2 ^ 32 - 100 ->
  symmetric_cipher_block_lengths alg = Some bl -> alg <> 0 -> In (zlen sk) (cipher_key_sizes alg) -> wf sk -> good_block (E alg sk) bl -> wf iv -> zlen iv = bl ->
  rs ++ hs = pre ++ r :: post ->
  (forall r', In r' (rs ++ hs) -> good_id r' /\ exists esk, encrypted_to fl alg sk r' esk /\ esk <> [] /\ zlen esk < 2 ^ 32 - 100) ->
  (forall r' esk, In r' pre -> encrypted_to fl alg sk r' esk -> refuses dec r' esk ValueError \/ recovers dec r' esk alg sk) ->
  (forall esk, encrypted_to fl alg sk r esk -> recovers dec r esk alg sk) ->
  exists M octets ps, public_key_encrypt E sha1 fl rec m alg None (Some rs) (Some hs) sk iv true = Ok M /\ message_octets fl rec M = Ok octets /\
    parse_binary_packet_data pkt_dec octets = (ps, None) /\ open_message ps = Ok M /\ get_message E sha1 od H M (ByKey false dec) = Ok m.
Proof.
  intros H E sha1 od fl rec m d alg bl sk iv rs hs pre r post dec Hfl Hs Sv Wd Ld Hb H0 Hk Wsk HE Wiv Liv Hsplit Hall Hpre Hr.
  destruct (pair_up fl alg sk rs) as (lr & R1 & R2). { intros r' I. destruct (Hall r') as (_ & e & X & _); [apply in_or_app; now left|]. now exists e. }
  destruct (pair_up fl alg sk hs) as (lh & S1 & S2). { intros r' I. destruct (Hall r') as (_ & e & X & _); [apply in_or_app; now right|]. now exists e. }
  assert (F : Forall (fun x => encrypted_to fl alg sk (fst x) (snd x)) (lr ++ lh)) by (apply Forall_app; auto).
  destruct (pub_end H E sha1 od fl rec m d alg bl sk iv lr lh Hfl Hs Sv Wd Hb H0 Hk Wsk HE Wiv Liv F) as (d' & A & B & _ & _ & L). rewrite R1, S1 in A.
  assert (Eq : map fst (lr ++ lh) = pre ++ r :: post) by (rewrite map_app, R1, S1; exact Hsplit). pose proof (bs_8_16 alg bl Hb H0) as Hbl.
  destruct (pub_wire (fun _ _ => []) E sha1 fl rec (lr ++ lh) d' Hfl) as (o & ps & W1 & W2 & W3 & W4).
  { intros X. rewrite X in Eq. destruct pre; discriminate Eq. }
  { apply Forall_forall. intros [r' e'] I. rewrite Forall_forall in F. specialize (F _ I). cbn [fst snd] in *. assert (I2 : In r' (rs ++ hs)). { rewrite Hsplit, <- Eq. exact (in_map fst _ _ I). }
    destruct (Hall r' I2) as (G & e & G1 & G2 & G3). rewrite (enc_fun fl alg sk r' e' e F G1). auto. }
  { change (2 ^ 32) with 4294967296 in *. lia. }
  exists (MEncrypted (map sk_of (lr ++ lh)) (EncData d' true (Some 1))), o, ps. split; [exact A|]. split; [exact W1|]. split; [exact W2|]. split; [exact W3|]. cbn [get_message].
  apply map_eq_app in Eq as (l1 & l2 & E1 & E2 & E3). destruct l2 as [|[r0 e0] l2]; [discriminate E3|]. cbn [map fst] in E3. injection E3 as -> _. rewrite E1 in *. apply Forall_app in F as [F1 F2].
  rewrite (holder_reads H E sha1 od l1 r e0 l2 dec alg sk); [exact B| |apply Hr; exact (Forall_inv F2)].
  apply Forall_forall. intros [r' e'] I. rewrite Forall_forall in F1. apply Hpre; [rewrite <- E2; exact (in_map fst _ _ I)|]. exact (F1 _ I).
Qed.
Print Assumptions c79_every_recipient_partial.

(** Refuted: hidden_public_keys hides nobody. The written message names every recipient by its key id, hidden or not. *)
Theorem c79_hidden_recipient_named_refuted : forall E sha1 fl rec m d alg bl sk iv rs hs r,
  (forall i, 1024 <= i <= 65011712 -> fl i = Z.log2 i) -> (forall d, zlen (sha1 d) = 20 /\ wf (sha1 d)) ->
  survives fl rec m d -> wf d -> zlen d < 2 ^ 32 - 100 ->
  symmetric_cipher_block_lengths alg = Some bl -> alg <> 0 -> In (zlen sk) (cipher_key_sizes alg) -> wf sk -> good_block (E alg sk) bl -> wf iv -> zlen iv = bl ->
  (forall r', In r' (rs ++ hs) -> good_id r' /\ exists esk, encrypted_to fl alg sk r' esk /\ esk <> [] /\ zlen esk < 2 ^ 32 - 100) -> In r hs ->
  exists M octets ps, public_key_encrypt E sha1 fl rec m alg None (Some rs) (Some hs) sk iv true = Ok M /\ message_octets fl rec M = Ok octets /\
    parse_binary_packet_data pkt_dec octets = (ps, None) /\ named ps = map (fun r => (Some (r_id r), r_alg r)) (rs ++ hs) /\ In (Some (r_id r), r_alg r) (named ps).
Proof.
  intros E sha1 fl rec m d alg bl sk iv rs hs r Hfl Hs Sv Wd Ld Hb H0 Hk Wsk HE Wiv Liv Hall Hin.
  destruct (pair_up fl alg sk rs) as (lr & R1 & R2). { intros r' I. destruct (Hall r') as (_ & e & X & _); [apply in_or_app; now left|]. now exists e. }
  destruct (pair_up fl alg sk hs) as (lh & S1 & S2). { intros r' I. destruct (Hall r') as (_ & e & X & _); [apply in_or_app; now right|]. now exists e. }
  assert (F : Forall (fun x => encrypted_to fl alg sk (fst x) (snd x)) (lr ++ lh)) by (apply Forall_app; auto).
  destruct (pub_end (fun _ _ => []) E sha1 (fun _ _ _ _ => Ok []) fl rec m d alg bl sk iv lr lh Hfl Hs Sv Wd Hb H0 Hk Wsk HE Wiv Liv F) as (d' & A & B & _ & _ & L). rewrite R1, S1 in A.
  assert (Eq : map fst (lr ++ lh) = rs ++ hs) by (rewrite map_app, R1, S1; reflexivity). pose proof (bs_8_16 alg bl Hb H0) as Hbl.
  destruct (pub_wire (fun _ _ => []) E sha1 fl rec (lr ++ lh) d' Hfl) as (o & ps & W1 & W2 & W3 & W4).
  { intros X. rewrite X in Eq. destruct rs; [|discriminate Eq]. cbn in Eq. rewrite <- Eq in Hin. exact Hin. }
  { apply Forall_forall. intros [r' e'] I. rewrite Forall_forall in F. specialize (F _ I). cbn [fst snd] in *. assert (I2 : In r' (rs ++ hs)). { rewrite <- Eq. exact (in_map fst _ _ I). }
    destruct (Hall r' I2) as (G & e & G1 & G2 & G3). rewrite (enc_fun fl alg sk r' e' e F G1). auto. }
  { change (2 ^ 32) with 4294967296 in *. lia. }
  assert (N : named ps = map (fun r => (Some (r_id r), r_alg r)) (rs ++ hs)) by (rewrite W4, <- Eq, map_map; reflexivity).
  exists (MEncrypted (map sk_of (lr ++ lh)) (EncData d' true (Some 1))), o, ps. split; [exact A|]. split; [exact W1|]. split; [exact W2|]. split; [exact N|]. rewrite N.
  exact (in_map (fun r => (Some (r_id r), r_alg r)) _ _ (in_or_app _ _ _ (or_intror Hin))).
Qed.
Print Assumptions c79_hidden_recipient_named_refuted.

(** What get_message does with any list of session keys: those for public keys whose decryption raises ValueError are passed
    over; the first other one decides, with its exception or by decrypting the data; if there is none, ValueError. *)
Theorem c79_first_usable_session_key : forall H E sha1 od keys d x,
  let skipped k := is_pub_key k = true /\ algorithm_and_key E H k x = Err ValueError in
  (Forall skipped keys /\ get_message E sha1 od H (MEncrypted keys d) x = Err ValueError) \/
  exists pre k post, keys = pre ++ k :: post /\ Forall skipped pre /\ ~ skipped k /\
    get_message E sha1 od H (MEncrypted keys d) x = match algorithm_and_key E H k x with Ok (a, sk) => decrypt_data E sha1 od d a sk | Err e => Err e end.
Proof.
  intros H E sha1 od keys d x skipped. cbn [get_message]. induction keys as [|k keys IH]; [left; split; [constructor|reflexivity]|].
  assert (D : skipped k \/ (~ skipped k /\ get_message_loop E sha1 od H (k :: keys) d x = match algorithm_and_key E H k x with Ok (a, sk) => decrypt_data E sha1 od d a sk | Err e => Err e end)).
  { cbn [get_message_loop]. unfold skipped. destruct (algorithm_and_key E H k x) as [[a sk]|e]; [right; split; [intros [_ X]; discriminate X|reflexivity]|].
    destruct e; try (right; split; [intros [_ X]; discriminate X|reflexivity]). destruct (is_pub_key k) eqn:Ep; [left; auto|right; split; [intros [X _]; discriminate X|reflexivity]]. }
  destruct D as [D | [D1 D2]].
  - assert (S : get_message_loop E sha1 od H (k :: keys) d x = get_message_loop E sha1 od H keys d x) by (cbn [get_message_loop]; rewrite (proj2 D), (proj1 D); reflexivity).
    rewrite S. destruct IH as [[I1 I2] | (pre & k' & post & -> & I1 & I2 & I3)]; [left; split; [constructor; auto|exact I2]|]. right. exists (k :: pre), k', post. split; [reflexivity|]. split; [constructor; auto|auto].
  - right. exists [], k, keys. split; [reflexivity|]. split; [constructor|]. auto.
Qed.
Print Assumptions c79_first_usable_session_key.

(** A locked key, and a passphrase, are refused at the first public-key session key, whatever the others are *)
Theorem c79_locked_or_passphrase_refused : forall H E sha1 od f v a kid esk keys d dec pass,
  get_message E sha1 od H (MEncrypted (SKPub f v a kid esk :: keys) d) (ByKey true dec) = Err RuntimeError /\
  get_message E sha1 od H (MEncrypted (SKPub f v a kid esk :: keys) d) (ByPass pass) = Err AttributeError.
Proof. intros. split; reflexivity. Qed.
Print Assumptions c79_locked_or_passphrase_refused.
(** Refuted: a message with a passphrase and a public-key session key cannot be read with either secret in every case: the kind
    that comes first must fit *)
Theorem c79_mixed_session_keys_refuted : forall H E sha1 od sym s e keys d locked dec,
  get_message E sha1 od H (MEncrypted (SKSym sym s e :: keys) d) (ByKey locked dec) = Err TypeError.
Proof. reflexivity. Qed.
Print Assumptions c79_mixed_session_keys_refuted.
(** Refuted: an earlier session key made for another algorithm, on which the secret key's decryption raises anything but
    ValueError (PyCrypto: AttributeError for an ElGamal key used with an RSA session key), hides the message from its recipient *)
Theorem c79_other_exception_stops_refuted : forall H E sha1 od f v a kid esk keys d dec e, e <> ValueError ->
  get_key_and_cipher_algo (dec a) a esk = Err e -> get_message E sha1 od H (MEncrypted (SKPub f v a kid (Some esk) :: keys) d) (ByKey false dec) = Err e.
Proof. intros H E sha1 od f v a kid esk keys d dec e Hn He. cbn [get_message get_message_loop algorithm_and_key]. rewrite He. cbn [bind]. now destruct e. Qed.
Print Assumptions c79_other_exception_stops_refuted.
(** the arguments of public_key_encrypt: one key is a list of one; both, or neither, is a TypeError even with hidden recipients *)
Theorem c79_arguments : forall E sha1 fl rec m alg r rs hs sk iv ip,
  public_key_encrypt E sha1 fl rec m alg (Some r) None hs sk iv ip = public_key_encrypt E sha1 fl rec m alg None (Some [r]) hs sk iv ip /\
  public_key_encrypt E sha1 fl rec m alg (Some r) (Some rs) hs sk iv ip = Err TypeError /\
  public_key_encrypt E sha1 fl rec m alg None None hs sk iv ip = Err TypeError /\
  public_key_encrypt E sha1 fl rec m alg None (Some rs) None sk iv ip = public_key_encrypt E sha1 fl rec m alg None (Some rs) (Some []) sk iv ip.
Proof. repeat split. Qed.
Print Assumptions c79_arguments.
(** Refuted: with integrity_protect=False no message is ever encrypted, to a public key or (C63) with a passphrase: if the session
    keys can be made and the message written, the call raises ValueError. (So nothing is sent unprotected by mistake either.) *)
Theorem c79_unprotected_refuted : forall H E sha1 fl rec m d alg bl pass sk iv rs hs ty hash sym salt count,
  message_octets fl rec m = Ok d -> d <> [] ->
  symmetric_cipher_block_lengths alg = Some bl -> alg <> 0 -> In (zlen sk) (cipher_key_sizes alg) -> zlen iv = bl ->
  ((forall r, In r (rs ++ hs) -> exists esk, encrypted_to fl alg sk r esk) ->
   public_key_encrypt E sha1 fl rec m alg None (Some rs) (Some hs) sk iv false = Err ValueError) /\
  (forall M, symmetric_encrypt E sha1 H fl rec m alg pass sk iv false ty hash sym salt count <> Ok M).
Proof.
  intros H E sha1 fl rec m d alg bl pass sk iv rs hs ty hash sym salt count D1 D2 Hb H0 Hk Li.
  assert (F : encdata_new E sha1 iv alg (Some sk) d false (Some 1) = Err ValueError) by (apply (c43_unprotected_encrypt_refuted E sha1 alg sk bl iv d (Some 1)); assumption).
  split.
  - intros Hall. destruct (pair_up fl alg sk rs) as (lr & R1 & R2). { intros r' I. apply Hall. apply in_or_app. now left. }
    destruct (pair_up fl alg sk hs) as (lh & S1 & S2). { intros r' I. apply Hall. apply in_or_app. now right. }
    assert (Hskn : sk <> []). { intros ->. change (zlen (@nil Z)) with 0 in Hk. unfold cipher_key_sizes in Hk. repeat match type of Hk with In _ (if ?b then _ else _) => destruct b end; cbn [map zrange In] in Hk; vm_compute in Hk; lia. }
    unfold public_key_encrypt. cbn [bind]. rewrite <- R1, <- S1. rewrite (pub_sks fl alg sk false lr Hskn R2). cbn [bind]. rewrite (pub_sks fl alg sk true lh Hskn S2). cbn [bind]. rewrite D1. cbn [bind]. rewrite F. reflexivity.
  - intros M X. unfold symmetric_encrypt in X. apply bind_ok in X as (s & _ & X). apply bind_ok in X as (esk & _ & X). rewrite D1 in X. cbn [bind] in X. rewrite F in X. discriminate X.
Qed.
Print Assumptions c79_unprotected_refuted.
(** a message object without session keys is read by nothing *)
Theorem c79_no_recipients : forall H E sha1 od d x, get_message E sha1 od H (MEncrypted [] d) x = Err ValueError.
Proof. reflexivity. Qed.
Print Assumptions c79_no_recipients.

(** a concrete case: two RSA-like keys with moduli of 32 and 40 octets; the second recipient is a hidden one *)
Definition ex_r1 : recipient := Recip 1 (str "0102030405060708") (Ok (rsa_encrypt 32 (fun x => 256 * x) (repeat 9 40))).
Definition ex_r2 : recipient := Recip 1 (str "1112131415161718") (Ok (rsa_encrypt 40 (fun x => 256 * x) (repeat 7 40))).
Definition ex_dec2 (_ : Z) : list bytes -> res (option bytes) := rsa_decrypt 40 (fun x => x / 256).
Example c79_ex : exists M, public_key_encrypt toy_E toy_sha1 Z.log2 (fun _ => Ok []) ex_literal 7 None (Some [ex_r1]) (Some [ex_r2]) (repeat 9 16) (repeat 5 16) true = Ok M /\
  get_message toy_E toy_sha1 toy_od toy_hash M (ByKey false ex_dec2) = Ok ex_literal.
Proof. eexists. split; [vm_compute; reflexivity|vm_compute; reflexivity]. Qed.
Example c79_unprotected_ex : public_key_encrypt toy_E toy_sha1 Z.log2 (fun _ => Ok []) ex_literal 7 None (Some [ex_r1]) (Some [ex_r2]) (repeat 9 16) (repeat 5 16) false = Err ValueError.
Proof. vm_compute. reflexivity. Qed.
(** ... whose session keys meet the hypotheses *)
Example c79_ex_hyp : exists e1 e2, encrypted_to Z.log2 7 (repeat 9 16) ex_r1 e1 /\ refuses ex_dec2 ex_r1 e1 ValueError /\ encrypted_to Z.log2 7 (repeat 9 16) ex_r2 e2 /\ recovers ex_dec2 ex_r2 e2 7 (repeat 9 16) /\
  good_id ex_r1 /\ good_id ex_r2.
Proof.
  eexists. eexists. split; [eexists; split; [reflexivity|vm_compute; reflexivity]|]. split; [vm_compute; reflexivity|]. split; [eexists; split; [reflexivity|vm_compute; reflexivity]|]. split; [vm_compute; reflexivity|].
  split; (split; [unfold byte; cbn; lia|]); [exists [1; 2; 3; 4; 5; 6; 7; 8]|exists [17; 18; 19; 20; 21; 22; 23; 24]]; (split; [vm_compute; reflexivity|]); (split; [wfl|reflexivity]).
Qed.
