From Verif Require Import Base BaseProofs Spec Utils UtilsProofs Framing SpecFraming FramingProofs FramingProps Armor S2k SpecS2k Cipher SymCipher SpecCfb SpecCipher CipherProofs CfbProofs SessionKeys SessionKeysProofs KeyPackets KeyProofs Text Utf8 SpecUtf8 Utf8Proofs DataPackets SigPackets SpecPackets Packets PacketsProofs Message SpecMessage MsgEncProofs MsgProps PubMsg SpecPubMsg.

Section P.
Variables (H : Z -> bytes -> bytes) (E : Z -> bytes -> bytes -> bytes) (sha1 : bytes -> bytes) (od : Z -> option bytes -> bytes -> bytes -> res bytes) (fl : Z -> Z) (rec : seckey -> res bytes).

Lemma loop_skip pre keys d x : Forall (fun k => is_pub_key k = true /\ algorithm_and_key E H k x = Err ValueError) pre ->
  get_message_loop E sha1 od H (pre ++ keys) d x = get_message_loop E sha1 od H keys d x.
Proof. induction 1 as [|k pre [Hk He] _ IH]; [reflexivity|]. cbn [app get_message_loop]. rewrite He, Hk. exact IH. Qed.

Lemma pub_sk alg sk b r esk : sk <> [] -> encrypted_to fl alg sk r esk -> pub_session_key fl alg sk b r = Ok (SKPub NewH 3 (r_alg r) (Some (r_id r)) (Some esk)).
Proof. intros Hn (enc & H1 & H2). unfold pub_session_key. destruct sk; [easy|]. rewrite H1. cbn [bind]. rewrite H2. reflexivity. Qed.

Definition sk_of (x : recipient * bytes) : skey := SKPub NewH 3 (r_alg (fst x)) (Some (r_id (fst x))) (Some (snd x)).
Definition pk_of (x : recipient * bytes) : pkt := Pkt NewH (BPkesk (Pkesk 3 (Some (r_id (fst x))) (r_alg (fst x)) (snd x))).
Lemma pub_sks alg sk b l : sk <> [] -> Forall (fun x => encrypted_to fl alg sk (fst x) (snd x)) l -> mapM (pub_session_key fl alg sk b) (map fst l) = Ok (map sk_of l).
Proof. intros Hn. induction 1 as [|[r e] l Hr _ IH]; [reflexivity|]. cbn [map mapM fst]. rewrite (pub_sk alg sk b r e Hn Hr). cbn [bind]. rewrite IH. reflexivity. Qed.
Lemma pair_up alg sk rs : (forall r, In r rs -> exists esk, encrypted_to fl alg sk r esk) -> exists l, map fst l = rs /\ Forall (fun x => encrypted_to fl alg sk (fst x) (snd x)) l.
Proof.
  induction rs as [|r rs IH]; intros Hx; [exists []; split; [reflexivity|constructor]|]. destruct (Hx r (or_introl eq_refl)) as (e & He). destruct IH as (l & L1 & L2); [intros r' Hr; apply Hx; now right|].
  exists ((r, e) :: l). split; [cbn; now rewrite L1|]. constructor; assumption.
Qed.
Lemma enc_fun alg sk r e e' : encrypted_to fl alg sk r e -> encrypted_to fl alg sk r e' -> e = e'.
Proof. intros (x & A & B) (y & C & D). rewrite A in C. injection C as <-. rewrite B in D. now injection D. Qed.

Lemma pub_end m d alg bl sk iv rs hs : exact_log fl -> (forall d, zlen (sha1 d) = 20 /\ wf (sha1 d)) ->
  survives fl rec m d -> wf d ->
  symmetric_cipher_block_lengths alg = Some bl -> alg <> 0 -> In (zlen sk) (cipher_key_sizes alg) -> wf sk -> good_block (E alg sk) bl -> wf iv -> zlen iv = bl ->
  Forall (fun x => encrypted_to fl alg sk (fst x) (snd x)) (rs ++ hs) ->
  exists d', public_key_encrypt E sha1 fl rec m alg None (Some (map fst rs)) (Some (map fst hs)) sk iv true = Ok (MEncrypted (map sk_of (rs ++ hs)) (EncData d' true (Some 1))) /\
    decrypt_data E sha1 od (EncData d' true (Some 1)) alg (Some sk) = Ok m /\ d' = rfc_seipd (E alg sk) bl sha1 iv (slice_from iv (-2)) d /\ wf d' /\ zlen d' = bl + zlen d + 24.
Proof.
  intros Hfl Hs Sv Wd Hb H0 Hk Wsk HE Wiv Liv Hr. pose proof (bs_8_16 alg bl Hb H0) as Hbl.
  pose proof (proj1 Sv) as Ho. destruct (survives_read fl rec m d Sv) as (D2 & D3).
  assert (Hskn : sk <> []). { intros ->. change (zlen (@nil Z)) with 0 in Hk. unfold cipher_key_sizes in Hk. repeat match type of Hk with In _ (if ?b then _ else _) => destruct b end; cbn [map zrange In] in Hk; vm_compute in Hk; lia. }
  destruct (protected_round E od sha1 alg sk bl iv d (Some 1) Hb H0 Hk HE Hs Wiv Liv Wd D2) as (ed & F1 & F2 & F3 & F4 & F5 & F6). destruct ed as [d' ig v]. cbn [ed_integrity ed_version ed_data] in *. subst ig v.
  apply Forall_app in Hr as [R1 R2]. exists d'. split; [|split; [|split; [exact F4|split; [exact F5|]]]].
  - unfold public_key_encrypt. cbn [bind]. rewrite (pub_sks alg sk false rs Hskn R1). cbn [bind]. rewrite (pub_sks alg sk true hs Hskn R2). cbn [bind]. rewrite Ho. cbn [bind]. rewrite F1. cbn [bind]. now rewrite map_app.
  - rewrite F6. exact D3.
  - rewrite F4. apply (seipd_len (E alg sk) bl sha1 iv (slice_from iv (-2)) d ltac:(lia) HE Hs Wiv (last2_wf _ Wiv) Wd Liv (last2_len iv ltac:(lia))).
Qed.
Lemma pub_wire l d' : exact_log fl -> l <> [] -> Forall (fun x => good_id (fst x) /\ snd x <> [] /\ zlen (snd x) < 2 ^ 32 - 100) l -> zlen d' < 2 ^ 32 - 1 ->
  exists o ps, message_octets fl rec (MEncrypted (map sk_of l) (EncData d' true (Some 1))) = Ok o /\ parse_binary_packet_data pkt_dec o = (ps, None) /\
    open_message ps = Ok (MEncrypted (map sk_of l) (EncData d' true (Some 1))) /\ named ps = map (fun x => (Some (r_id (fst x)), r_alg (fst x))) l.
Proof.
  intros Hfl Hn Hl Ld. set (p2 := Pkt NewH (BData (PSeipd 1 d'))). change (2 ^ 32) with 4294967296 in *.
  assert (O1 : Forall (pkt_ok fl rec) (map pk_of l)).
  { clear Hn. induction Hl as [|[r e] l ((Ba & k & K1 & K2 & K3) & Hne & Le) _ IH]; [constructor|]. cbn [map]. constructor; [|exact IH]. unfold pk_of. cbn [fst snd] in *. split; cbn [p_body body_ok body_content p_fmt].
    - split; [unfold byte; lia|]. split; [exact Ba|]. exists k. auto.
    - intros c Hc. unfold representable, pkt_type. cbn [hfmt ptype pcontent p_body body_type]. split; [lia|]. rewrite K1 in Hc. rewrite pkesk_content_of in Hc by (assumption || (unfold byte; lia)).
      apply ok_inj in Hc as <-. rewrite zlen_cons, zlen_app, zlen_cons. lia. }
  assert (O2 : pkt_ok fl rec p2).
  { unfold p2. split; cbn [p_body body_ok body_content p_fmt data_ok]; [unfold byte; lia|]. intros c Hc. unfold representable, pkt_type. cbn [hfmt ptype pcontent p_body body_type data_type]. split; [lia|].
    cbn [data_content] in Hc. apply bind_ok in Hc as (x & X & Hc). apply mk_bytes_inv in X as [-> _]. apply ok_inj in Hc as <-. rewrite zlen_app. change (zlen [1]) with 1. lia. }
  destruct (pkts_round fl rec (map pk_of l ++ [p2]) Hfl) as (encs & E1 & E2 & _); [apply Forall_app; split; [exact O1|constructor; [exact O2|constructor]]|].
  assert (R : map as_read (map pk_of l ++ [p2]) = map pk_of l ++ [p2]).
  { rewrite map_app, map_map. apply (f_equal (fun a => a ++ [p2])). apply map_ext. intros [r e]. reflexivity. }
  rewrite R in E2. exists (concat encs), (map pk_of l ++ [p2]). split; [|split; [exact E2|split]].
  - unfold message_octets. cbn [to_packets]. assert (X : mapM (skey_packet None) (map sk_of l) = Ok (map pk_of l)).
    { clear. induction l as [|[r e] l IH]; [reflexivity|]. cbn [map mapM]. rewrite IH. reflexivity. }
    rewrite X. cbn [bind]. unfold encdata_packet. cbn [ed_integrity ed_version ed_data bind hdr_or]. fold p2. rewrite E1. reflexivity.
  - apply (open_encrypted (map pk_of l) (map sk_of l) p2 (EncData d' true (Some 1)) []); [destruct l; [easy|discriminate]| |reflexivity].
    clear -Hl. induction Hl as [|[r e] l (_ & Hne & _) _ IH]; [constructor|]. cbn [map]. constructor; [|exact IH]. cbn. cbn [snd] in Hne. destruct e; [easy|reflexivity].
  - unfold named. rewrite flat_map_app. cbn [flat_map p2 p_body app]. rewrite app_nil_r. clear. induction l as [|[r e] l IH]; [reflexivity|]. cbn [map flat_map]. rewrite IH. reflexivity.
Qed.
Lemma holder_reads pre r e post dec alg sk d : 
  Forall (fun x => refuses dec (fst x) (snd x) ValueError \/ recovers dec (fst x) (snd x) alg sk) pre -> recovers dec r e alg sk ->
  get_message_loop E sha1 od H (map sk_of (pre ++ (r, e) :: post)) d (ByKey false dec) = decrypt_data E sha1 od d alg (Some sk).
Proof.
  intros Hp Hr. induction Hp as [|[r' e'] pre [X|X] _ IH]; cbn [app map get_message_loop].
  - cbn [algorithm_and_key sk_of fst snd]. unfold recovers in Hr. rewrite Hr. reflexivity.
  - cbn [algorithm_and_key sk_of fst snd is_pub_key]. unfold refuses in X. cbn [fst snd] in X. rewrite X. cbn [bind]. exact IH.
  - cbn [algorithm_and_key sk_of fst snd]. unfold recovers in X. cbn [fst snd] in X. rewrite X. reflexivity.
Qed.
End P.
