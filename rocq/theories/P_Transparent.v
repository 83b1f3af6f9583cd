(** C72, C63, C79: reading armored text gives what reading the octets in it gives, for every reader of shortcuts.py. *)
From Verif Require Import Base BaseProofs Spec Utils Text Utf8 SpecUtf8 Utf8Proofs Framing SpecFraming Armor SpecArmor ArmorProofs ArmorProps S2k SpecS2k Cipher SymCipher SpecCfb SpecCipher CipherProofs CfbProofs SessionKeys SessionKeysProofs KeyPackets KeyProofs SigPackets DataPackets UserAttr Packets SpecPackets PacketsProofs TransKey Message SpecMessage MsgEncProofs MsgProps Shortcuts SpecShort ShortProofs PubMsg SpecPubMsg PubMsgProofs P_Session P_Message P_PubMsg.

Lemma armor_prefix a t : armor_ok a -> extra_headers a = None -> armor_str a = Ok t -> slice t 0 (zlen DASHES) = DASHES.
Proof.
  intros Ha Hx T. destruct (armor_str_lines a Ha Hx) as (hd & tl & dl & cb & E' & _ & Hd & _). cbv zeta in E'. rewrite T in E'. apply ok_inj in E'.
  assert (X : exists r, hd = DASHES ++ r) by (destruct Hd; eexists; reflexivity). destruct X as (r & ->). assert (Y : exists r', t = DASHES ++ r'). { rewrite E'. cbn [join]. destruct (hlines_of a ++ [] :: dl ++ [61 :: b64encode cb; tl]); eexists; rewrite <- !app_assoc; reflexivity. } destruct Y as (r' & ->). apply (slice_app' [] DASHES); reflexivity.
Qed.
Lemma armor_same_packets a : armor_ok a -> extra_headers a = None -> is_armor (adata a) = false ->
  exists t, armor_str a = Ok t /\ forall flag, read_packets (InStr t) flag = read_packets (InBytes (adata a)) false.
Proof.
  intros Ha Hx N. destruct (c18_round a Ha Hx) as (t & T1 & T2). exists t. split; [exact T1|]. intros flag.
  unfold read_packets. cbn [input_armor]. rewrite (armor_prefix a t Ha Hx T1), N. change (zlist_eqb DASHES DASHES) with true. cbn [bind]. unfold parse_ascii_packet_data. rewrite T2. reflexivity.
Qed.

(** C72. *)
Theorem c72_armor_transparent a : armor_ok a -> extra_headers a = None -> is_armor (adata a) = false ->
  exists t, armor_str a = Ok t /\ forall flag,
    read_message (InStr t) flag = read_message (InBytes (adata a)) false /\
    forall local magic, read_key local magic (InStr t) flag = read_key local magic (InBytes (adata a)) false.
Proof.
  intros Ha Hx N. destruct (armor_same_packets a Ha Hx N) as (t & T & R). exists t. split; [exact T|]. intros flag. split; [unfold read_message; now rewrite R|]. intros. unfold read_key. now rewrite R.
Qed.
Print Assumptions c72_armor_transparent.

(** the first octet of every packet has its high bit set, so no written message is taken for armored text *)
Lemma loop_first fuel data ap : forall rem off res enc, new_body_loop fuel data ap rem off res = Ok enc -> exists t, enc = res ++ t.
Proof.
  induction fuel as [|f IH]; intros rem off res enc E; cbn [new_body_loop] in E; [discriminate|]. destruct (rem =? 0); [apply ok_inj in E as <-; exists []; now rewrite app_nil_r|].
  cbv zeta in E. apply bind_ok in E as ([lb r'] & _ & E). apply IH in E as (t & ->). rewrite <- app_assoc. eexists. reflexivity.
Qed.
Lemma packet_high h ty d enc : 0 <= ty -> packet_bytes (Raw h ty d) = Ok enc -> exists b t, enc = b :: t /\ 128 <= b.
Proof.
  intros H E. unfold packet_bytes, packet_bytes_fuel in E. cbn [hfmt ptype pcontent] in E. destruct h.
  - apply bind_ok in E as (x & Ex & E). apply mk_bytes_inv in Ex as (-> & _). apply loop_first in E as (t & ->). do 2 eexists. split; [reflexivity|]. lia.
  - destruct (old_packet_length_to_bytes (zlen d)) as [lt lb] eqn:O. apply bind_ok in E as (x & Ex & E). apply mk_bytes_inv in Ex as (-> & _). apply bind_ok in E as (l & _ & E). apply ok_inj in E as <-. do 2 eexists. split; [reflexivity|].
    assert (0 <= Z.shiftl ty 2) by (apply Z.shiftl_nonneg; exact H). assert (0 <= lt). { unfold old_packet_length_to_bytes in O. repeat match type of O with context [if ?b then _ else _] => destruct b end; injection O as <- _; lia. } lia.
Qed.
Lemma skeys_types hf keys ks : mapM (skey_packet hf) keys = Ok ks -> Forall (fun p => 0 <= pkt_type p) ks.
Proof.
  revert ks. induction keys as [|k keys IH]; intros ks E; cbn [mapM] in E; [apply ok_inj in E as <-; constructor|]. apply bind_ok in E as (p & Ep & E). apply bind_ok in E as (ps & Es & E). apply ok_inj in E as <-. constructor; [|exact (IH ps Es)].
  destruct k as [sym s esk|fmt v a kid [esk|]|]; try discriminate Ep; apply ok_inj in Ep as <-; cbn; lia.
Qed.
Lemma ops_types hf sigs : forall ps, onepass_packets hf sigs = Ok ps -> Forall (fun p => 0 <= pkt_type p) ps.
Proof.
  induction sigs as [|g sigs IH]; intros ps E; cbn [onepass_packets] in E; [apply ok_inj in E as <-; constructor|]. apply bind_ok in E as (ids & _ & E). apply bind_ok in E as (k & _ & E). destruct (sig_fields (ms_sig g)) as [[st pk] ha]. apply bind_ok in E as (qs & Eq & E). apply ok_inj in E as <-. constructor; [cbn; lia|exact (IH qs Eq)].
Qed.
Lemma sigs_types hf sigs : forall ps, mapM (msig_packet hf) sigs = Ok ps -> Forall (fun p => 0 <= pkt_type p) ps.
Proof.
  induction sigs as [|g sigs IH]; intros ps E; cbn [mapM] in E; [apply ok_inj in E as <-; constructor|]. apply bind_ok in E as (p & Ep & E). apply bind_ok in E as (qs & Eq & E). apply ok_inj in E as <-. constructor; [|exact (IH qs Eq)].
  unfold msig_packet in Ep. destruct (ms_sig g); [discriminate Ep|]. apply ok_inj in Ep as <-. cbn. lia.
Qed.
Lemma message_types hf : forall m ps, Message.to_packets hf m = Ok ps -> Forall (fun p => 0 <= pkt_type p) ps.
Proof.
  fix IH 1. intros m ps E. destruct m as [d n t|d n t|a d|sigs om op|keys d]; cbn [Message.to_packets] in E.
  1,2,3: apply ok_inj in E as <-; constructor; [cbn; lia|constructor].
  - apply bind_ok in E as (ops & E1 & E). apply bind_ok in E as (qs & E2 & E). apply bind_ok in E as (ss & E3 & E). apply ok_inj in E as <-. apply Forall_app. split; [destruct op; [exact (ops_types hf sigs ops E1)|apply ok_inj in E1 as <-; constructor]|]. apply Forall_app. split; [|exact (sigs_types hf sigs ss E3)].
    destruct om as [m|]; [exact (IH m qs E2)|discriminate E2].
  - apply bind_ok in E as (ks & E1 & E). apply bind_ok in E as (p & E2 & E). apply ok_inj in E as <-. apply Forall_app. split; [exact (skeys_types hf keys ks E1)|]. constructor; [|constructor]. unfold encdata_packet in E2. destruct (ed_integrity d); [destruct (ed_version d); [|discriminate E2]|]; apply ok_inj in E2 as <-; cbn; lia.
Qed.
Theorem c72_written_not_armor fl rec m o : message_octets fl rec m = Ok o -> is_armor o = false.
Proof.
  intros E. unfold message_octets in E. apply bind_ok in E as (ps & E1 & E). apply bind_ok in E as (encs & E2 & E). apply ok_inj in E as <-. apply message_types in E1. destruct E1 as [|p ps H _]; [cbn in E2; apply ok_inj in E2 as <-; reflexivity|].
  cbn [mapM] in E2. apply bind_ok in E2 as (e & Ee & E). apply bind_ok in E as (es & _ & E). apply ok_inj in E as <-. unfold pkt_bytes in Ee. apply bind_ok in Ee as (c & _ & Ee). destruct (packet_high _ _ _ _ H Ee) as (b & t & -> & Hb). cbn [concat app]. apply not_armor_high. exact Hb.
Qed.
Print Assumptions c72_written_not_armor.
(** so a written message and any armor of it are read with one and the same result *)
Lemma written_read fl rec m o a : message_octets fl rec m = Ok o -> adata a = o -> armor_ok a -> extra_headers a = None ->
  exists t, armor_str a = Ok t /\ forall flag, read_message (InStr t) flag = read_message (InBytes o) false.
Proof. intros E <- Ha Hx. destruct (c72_armor_transparent a Ha Hx (c72_written_not_armor fl rec m _ E)) as (t & T & R). exists t. split; [exact T|]. intros flag. apply R. Qed.
Lemma octets_read fl rec m o ps : message_octets fl rec m = Ok o -> parse_binary_packet_data pkt_dec o = (ps, None) -> read_message (InBytes o) false = open_message ps.
Proof. intros E P. unfold read_message, read_packets. cbn [input_armor]. rewrite (c72_written_not_armor fl rec m o E). cbn [bind]. rewrite P. reflexivity. Qed.

(** C63. The same as c63_through_packets_partial, as a user sees it: the octets, or any armor of them, are read with read_message; the passphrase gives the message. *)
Theorem c63_through_armor_partial : forall H E sha1 od fl rec m d alg bl pass sk iv ty hash salt count s k n,
  (forall i, 1024 <= i <= 65011712 -> fl i = Z.log2 i) ->
  (forall a hl, hash_lengths a = Some hl -> forall d, zlen (H a d) = hl) -> (forall d, zlen (sha1 d) = 20 /\ wf (sha1 d)) ->
  survives fl rec m d -> wf d ->
  symmetric_cipher_block_lengths alg = Some bl -> alg <> 0 -> In (zlen sk) (cipher_key_sizes alg) -> wf sk -> good_block (E alg sk) bl ->
  new_s2k ty hash alg salt count = Ok s -> to_key H s pass = Ok (Some k) -> good_block (E alg k) bl -> wf iv -> zlen iv = bl ->
  s2k_ok s -> symmetric_cipher_key_lengths alg = Some n -> zlen sk <= n -> zlen d < 2 ^ 32 - 100 ->
  exists M octets, symmetric_encrypt E sha1 H fl rec m alg pass sk iv true ty hash alg salt count = Ok M /\ message_octets fl rec M = Ok octets /\
    (exists M', read_message (InBytes octets) false = Ok M' /\ get_message E sha1 od H M' (ByPass pass) = Ok m) /\
    forall a, adata a = octets -> armor_ok a -> extra_headers a = None ->
      exists t, armor_str a = Ok t /\ forall flag, exists M', read_message (InStr t) flag = Ok M' /\ get_message E sha1 od H M' (ByPass pass) = Ok m.
Proof.
  intros H E sha1 od fl rec m d alg bl pass sk iv ty hash salt count s k n. intros.
  destruct (c63_through_packets_partial H E sha1 od fl rec m d alg bl pass sk iv ty hash salt count s k n) as (M & o & ps & A & B & C & D & G); try assumption.
  exists M, o. split; [exact A|]. split; [exact B|]. pose proof (octets_read fl rec M o ps B C) as R. rewrite D in R. split; [exists M; auto|]. intros a Ea Ha Hx. destruct (written_read fl rec M o a B Ea Ha Hx) as (t & T & Rt). exists t. split; [exact T|]. intros flag. exists M. rewrite Rt. auto.
Qed.
Print Assumptions c63_through_armor_partial.

(** C79. The same as c79_every_recipient_partial for read_message and armored text. *)
Theorem c79_through_armor_partial : forall H E sha1 od fl rec m d alg bl sk iv rs hs pre r post dec,
  (forall i, 1024 <= i <= 65011712 -> fl i = Z.log2 i) -> (forall d, zlen (sha1 d) = 20 /\ wf (sha1 d)) ->
  survives fl rec m d -> wf d -> zlen d < 2 ^ 32 - 100 ->
  symmetric_cipher_block_lengths alg = Some bl -> alg <> 0 -> In (zlen sk) (cipher_key_sizes alg) -> wf sk -> good_block (E alg sk) bl -> wf iv -> zlen iv = bl ->
  rs ++ hs = pre ++ r :: post ->
  (forall r', In r' (rs ++ hs) -> good_id r' /\ exists esk, encrypted_to fl alg sk r' esk /\ esk <> [] /\ zlen esk < 2 ^ 32 - 100) ->
  (forall r' esk, In r' pre -> encrypted_to fl alg sk r' esk -> refuses dec r' esk ValueError \/ recovers dec r' esk alg sk) ->
  (forall esk, encrypted_to fl alg sk r esk -> recovers dec r esk alg sk) ->
  exists M octets, public_key_encrypt E sha1 fl rec m alg None (Some rs) (Some hs) sk iv true = Ok M /\ message_octets fl rec M = Ok octets /\
    (exists M', read_message (InBytes octets) false = Ok M' /\ get_message E sha1 od H M' (ByKey false dec) = Ok m) /\
    forall a, adata a = octets -> armor_ok a -> extra_headers a = None ->
      exists t, armor_str a = Ok t /\ forall flag, exists M', read_message (InStr t) flag = Ok M' /\ get_message E sha1 od H M' (ByKey false dec) = Ok m.
Proof.
  intros H E sha1 od fl rec m d alg bl sk iv rs hs pre r post dec. intros.
  destruct (c79_every_recipient_partial H E sha1 od fl rec m d alg bl sk iv rs hs pre r post dec) as (M & o & ps & A & B & C & D & G); try assumption.
  exists M, o. split; [exact A|]. split; [exact B|]. pose proof (octets_read fl rec M o ps B C) as R. rewrite D in R. split; [exists M; auto|]. intros a Ea Ha Hx. destruct (written_read fl rec M o a B Ea Ha Hx) as (t & T & Rt). exists t. split; [exact T|]. intros flag. exists M. rewrite Rt. auto.
Qed.
Print Assumptions c79_through_armor_partial.
(** the conditions of both are those of c63_ex and of the examples in P_PubMsg.v; an armor they hold of *)
Example c63_through_armor_met : exists M o t, symmetric_encrypt toy_E toy_sha1 toy_hash Z.log2 (fun _ => Ok []) ex_literal 7 [112; 119] (repeat 9 16) (repeat 5 16) true 3 1 7 [1; 2; 3; 4; 5; 6; 7; 8] 1024 = Ok M /\
  message_octets Z.log2 (fun _ => Ok []) M = Ok o /\ armor_str (Armor 1 o None None None None None None None None) = Ok t /\ is_armor o = false /\
  exists M', read_message (InStr t) false = Ok M' /\ get_message toy_E toy_sha1 toy_od toy_hash M' (ByPass [112; 119]) = Ok ex_literal.
Proof. do 3 eexists. split; [vm_compute; reflexivity|]. split; [vm_compute; reflexivity|]. split; [vm_compute; reflexivity|]. split; [vm_compute; reflexivity|]. eexists. split; [vm_compute; reflexivity|]. vm_compute. reflexivity. Qed.
