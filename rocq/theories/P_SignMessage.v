(** C61 and C47 with one-pass packets, C98: signing a message. *)
From Verif Require Import Base BaseProofs Spec Utils Text Utf8 SpecUtf8 Utf8Proofs Framing SpecFraming Armor SpecArmor ArmorProofs ArmorProps S2k SpecS2k SessionKeys SessionKeysProofs KeyPackets SpecKey KeyProofs SigPackets SpecSig DataPackets UserAttr SpecAttr Packets SpecPackets PacketsProofs TransKey Message SpecMessage MsgProps Shortcuts SpecShort ShortProofs SpecOnePass OnePassProofs P_Packets P_Message.
From Verif Require Import Signable KeyOps SpecVerify SpecSigned CrlfProofs DemoRsa P_Verify SignMessage.

(** C61. With one-pass packets: both parsers read such a sequence back, of the one-pass packets with the first half of the key id. *)
Theorem c61_one_pass_partial fl rec ps : (forall i, 1024 <= i <= 65011712 -> fl i = Z.log2 i) -> Forall (wire_ok fl rec) ps ->
  exists encs, mapM (pkt_bytes fl rec) ps = Ok encs /\ parse_binary_packet_data pkt_dec (concat encs) = (map reread ps, None) /\ parse_binary_packet_stream pkt_dec (concat encs) = (map reread ps, None).
Proof. exact (wire_round fl rec ps). Qed.
Print Assumptions c61_one_pass_partial.

Lemma wire_read fl rec ps encs : (forall i, 1024 <= i <= 65011712 -> fl i = Z.log2 i) -> Forall (wire_ok fl rec) ps -> mapM (pkt_bytes fl rec) ps = Ok encs -> read_packets (InBytes (concat encs)) false = Ok (map reread ps).
Proof.
  intros Hfl F E. destruct (wire_round fl rec ps Hfl F) as (encs' & E1 & E2 & _). rewrite E in E1. apply ok_inj in E1 as <-. unfold read_packets. cbn [input_armor].
  assert (N : is_armor (concat encs) = false). { destruct F as [|p ps Hp _]; [cbn in E; apply ok_inj in E as <-; reflexivity|]. cbn [mapM] in E. apply bind_ok in E as (e & Ee & E). apply bind_ok in E as (es & _ & E). apply ok_inj in E as <-.
    destruct (wire_back fl rec p Hfl Hp) as (c & A & B & C & _). unfold pkt_bytes in Ee. rewrite A in Ee. cbn [bind] in Ee. destruct (packet_first _ _ C (fun _ => B) Ee) as (b & t & -> & Hb). cbn [concat app]. apply not_armor_high. exact Hb. }
  rewrite N. cbn [bind]. rewrite E2. reflexivity.
Qed.
Lemma wire_read_armor fl rec ps encs a : (forall i, 1024 <= i <= 65011712 -> fl i = Z.log2 i) -> Forall (wire_ok fl rec) ps -> mapM (pkt_bytes fl rec) ps = Ok encs -> adata a = concat encs -> armor_ok a -> extra_headers a = None ->
  exists t, armor_str a = Ok t /\ forall flag, read_packets (InStr t) flag = Ok (map reread ps).
Proof.
  intros Hfl F E Ea Ha Hx. destruct (c18_round a Ha Hx) as (t & T1 & T2). exists t. split; [exact T1|]. intros flag. destruct (armor_str_lines a Ha Hx) as (hd & tl & dl & cb & E' & _ & Hd & _). cbv zeta in E'. rewrite T1 in E'. apply ok_inj in E'.
  assert (SL : slice t 0 (zlen DASHES) = DASHES).
  { assert (X : exists r, hd = DASHES ++ r) by (destruct Hd; eexists; reflexivity). destruct X as (r & ->). assert (Y : exists r', t = DASHES ++ r'). { rewrite E'. cbn [join]. destruct (hlines_of a ++ [] :: dl ++ [61 :: b64encode cb; tl]); eexists; rewrite <- !app_assoc; reflexivity. } destruct Y as (r' & ->). apply (slice_app' [] DASHES); reflexivity. }
  unfold read_packets. cbn [input_armor]. rewrite SL. change (zlist_eqb DASHES DASHES) with true. cbn [bind]. unfold parse_ascii_packet_data. rewrite T2. cbn [bind]. destruct (wire_round fl rec ps Hfl F) as (encs' & E1 & E2 & _). rewrite E in E1. apply ok_inj in E1 as <-. rewrite Ea, E2. reflexivity.
Qed.
Lemma issuers_hex fl s ids : sig_ok fl s -> Message.issuer_key_ids s = Ok ids -> Forall (fun kid => exists k, kid = hex_text k /\ wf k /\ zlen k = 8) ids.
Proof.
  intros S E. inversion S as [st pk ha h2 vs hs us B1 B2 B3 L W V Hs Us A1 A2]. subst s. cbn [Message.issuer_key_ids] in E.
  assert (F : Forall (sub_ok fl) (hs ++ us)) by (apply Forall_app; split; assumption). revert ids E F. generalize (hs ++ us). clear. induction l as [|x l IH]; intros ids E F; cbn [flat_map mapM] in E; [apply ok_inj in E as <-; constructor|].
  assert (X : issuer_of x = [] \/ exists k, issuer_of x = [Ok (hex_text k)] /\ wf k /\ zlen k = 8).
  { apply Forall_inv in F. inversion F as [ty c b P _|]; subst x; unfold issuer_of; cbn [sub_type sub_body]; [|left; reflexivity]. destruct (ty =? 16) eqn:T; [|now left]. right. destruct b; cbn [plain_ok] in P; try (exfalso; cbn [In known_subs] in P; lia). destruct P as (_ & k & -> & P). exists k. split; [reflexivity|exact P]. }
  destruct X as [X|(k & X & Y)]; rewrite X in E; cbn [app mapM] in E.
  - exact (IH ids E (Forall_inv_tail F)).
  - apply bind_ok in E as (y & Ey & E). apply ok_inj in Ey. subst y. apply bind_ok in E as (ys & Eys & E). apply ok_inj in E as <-. constructor; [exists k; auto|exact (IH ys Eys (Forall_inv_tail F))].
Qed.
Lemma get_In {A} (l : list A) i x : get l i = Ok x -> In x l.
Proof. unfold get. intros H. repeat match type of H with context [if ?b then _ else _] => destruct b end; try discriminate; match type of H with context [nth_error ?a ?b] => destruct (nth_error a b) eqn:N; [|discriminate] end; apply nth_error_In in N; injection H as <-; exact N. Qed.
Lemma ops_writable fl rec sigs : Forall (sig_writable fl rec) sigs -> forall ops, onepass_packets None sigs = Ok ops -> Forall (wire_ok fl rec) ops /\ Forall (fun p => is_ops p = true) ops /\ length ops = length sigs.
Proof.
  induction 1 as [|g sigs [O [S R]] F IH]; intros ops E; cbn [onepass_packets] in E; [apply ok_inj in E as <-; repeat split; constructor|].
  apply bind_ok in E as (ids & Ei & E). apply bind_ok in E as (k & Ek & E). destruct (sig_fields (ms_sig g)) as [[st pk] ha] eqn:Sf. apply bind_ok in E as (ps & Ep & E). apply ok_inj in E as <-. destruct (IH ps Ep) as (A & B & C).
  cbn [p_body body_ok] in S. pose proof (issuers_hex fl _ ids S Ei) as K. rewrite Forall_forall in K. apply get_In in Ek. specialize (K k Ek).
  split; [|split; [constructor; [reflexivity|exact B]|cbn [length]; now rewrite C]]. constructor; [|exact A]. unfold wire_ok. cbn [p_body]. unfold onepass_ok. cbn [op_version op_sigtype op_hash op_pk op_nested op_key_id].
  inversion S as [st' pk' ha' h2 vs hs us B1 B2 B3 L W V Hs Us A1 A2 Es]. rewrite <- Es in Sf. cbn [sig_fields] in Sf. injection Sf as <- <- <-. split; [unfold byte; lia|]. repeat (split; [assumption|]). split; [destruct sigs; unfold byte; lia|]. exact K.
Qed.
Lemma signed_wire fl rec sigs m p ps : plain_packet m = Some p -> pkt_ok fl rec p -> Forall (sig_writable fl rec) sigs -> to_packets None (MSigned sigs (Some m) true) = Ok ps ->
  Forall (wire_ok fl rec) ps /\ (sigs <> [] -> match ps with p :: _ => is_ops p = true | [] => True end).
Proof.
  intros Hm Hp Hs H. cbn [to_packets] in H. apply bind_ok in H as (ops & H1 & H). rewrite (plain_to_packets m p Hm) in H. cbn [bind] in H. apply bind_ok in H as (ss & H2 & H). apply ok_inj in H as <-.
  destruct (ops_writable fl rec sigs Hs ops H1) as (A & B & C). split.
  - apply Forall_app. split; [exact A|]. constructor; [destruct m; try discriminate Hm; injection Hm as <-; exact Hp|].
    clear -H2 Hs. revert ss H2. induction Hs as [|g sigs [O S] _ IH]; intros ss H2; cbn [mapM] in H2; [apply ok_inj in H2 as <-; constructor|]. apply bind_ok in H2 as (q & Eq & H2). apply bind_ok in H2 as (qs & Eqs & H2). apply ok_inj in H2 as <-. constructor; [|exact (IH qs Eqs)].
    unfold msig_packet in Eq. destruct (ms_sig g) as [? ? ? ? ? ? ? ?|v st pk ha h2 vs hs us] eqn:Eg; [discriminate Eq|]. apply ok_inj in Eq as <-. exact S.
  - intros N. destruct ops as [|o ops]; [destruct sigs; [congruence|discriminate C]|]. exact (Forall_inv B).
Qed.
(** C47. A signed message (with one-pass packets) survives being written as octets, or as any armor of them, and read. *)
Theorem c47_signed_octets_partial fl rec sigs m p ps : (forall i, 1024 <= i <= 65011712 -> fl i = Z.log2 i) -> plain_packet m = Some p -> pkt_ok fl rec p -> sigs <> [] -> Forall (sig_writable fl rec) sigs ->
  to_packets None (MSigned sigs (Some m) true) = Ok ps ->
  exists encs, mapM (pkt_bytes fl rec) ps = Ok encs /\ read_message (InBytes (concat encs)) false = Ok (MSigned sigs (Some m) true) /\
    forall a, adata a = concat encs -> armor_ok a -> extra_headers a = None -> exists t, armor_str a = Ok t /\ forall flag, read_message (InStr t) flag = Ok (MSigned sigs (Some m) true).
Proof.
  intros Hfl Hm Hp N Hs H. destruct (signed_wire fl rec sigs m p ps Hm Hp Hs H) as [A B]. specialize (B N). destruct (wire_round fl rec ps Hfl A) as (encs & E & _). exists encs. split; [exact E|].
  assert (O : open_message (map reread ps) = Ok (MSigned sigs (Some m) true)). { rewrite open_reread by now right. apply (signed_reopen sigs m p ps Hm N); [|exact H]. eapply Forall_impl; [|exact Hs]. intros g [G [S _]]. split; [exact G|]. cbn [p_body body_ok] in S. inversion S. cbn. lia. }
  split; [unfold read_message; rewrite (wire_read fl rec ps encs Hfl A E); exact O|]. intros a Ea Ha Hx. destruct (wire_read_armor fl rec ps encs a Hfl A E Ea Ha Hx) as (t & T & R). exists t. split; [exact T|]. intros flag. unfold read_message. rewrite R. exact O.
Qed.
Print Assumptions c47_signed_octets_partial.

(** the hypotheses of both are met by a message signed twice *)
Lemma ex_sig_ok st : st = 0 \/ st = 1 -> pkt_ok Z.log2 (fun _ => Ok []) (Pkt NewH (BSig (ex_sig st))).
Proof.
  intros B. assert (B0 : byte st) by (unfold byte; lia). assert (V : forall i, 0 <= i -> bit_length i <= 65535 -> SpecSig.value_ok Z.log2 i) by (intros; repeat split; auto).
  split; cbn [p_body p_fmt].
  - apply si_v4; try assumption; try (unfold byte; lia); try reflexivity.
    + repeat constructor; lia.
    + apply Forall_cons; [apply V; cbn; lia|apply Forall_cons; [apply V; cbn; lia|apply Forall_nil]].
    + apply Forall_cons; [|apply Forall_nil]. apply so_plain; [split; [cbn; auto|lia]|]. intros d H. vm_compute in H. apply ok_inj in H. subst d. reflexivity.
    + apply Forall_cons; [|apply Forall_nil]. apply so_plain; [split; [reflexivity|]|]. { exists (repeat 170 8). split; [reflexivity|]. split; [repeat constructor; lia|reflexivity]. } intros d H. vm_compute in H. apply ok_inj in H. subst d. reflexivity.
    + intros a H. vm_compute in H. apply ok_inj in H. subst a. reflexivity.
    + intros a H. vm_compute in H. apply ok_inj in H. subst a. reflexivity.
  - intros d H. destruct B as [-> | ->]; vm_compute in H; apply ok_inj in H; subst d; vm_compute; repeat split; discriminate.
Qed.
Lemma ex_literal_ok : pkt_ok Z.log2 (fun _ => Ok []) (Pkt NewH (BData (PLiteral 98 [97] (TDate 1000) (LBytes [1; 2; 3])))).
Proof. pose proof c61_ex as F. unfold ex_packets in F. do 3 apply Forall_inv_tail in F. exact (Forall_inv F). Qed.
Example c47_signed_octets_used : exists ps encs, to_packets None (MSigned [MSig NewH (ex_sig 0) true; MSig NewH (ex_sig 1) true] (Some ex_literal) true) = Ok ps /\
  mapM (pkt_bytes Z.log2 (fun _ => Ok [])) ps = Ok encs /\ Forall (wire_ok Z.log2 (fun _ => Ok [])) ps /\
  read_message (InBytes (concat encs)) false = Ok (MSigned [MSig NewH (ex_sig 0) true; MSig NewH (ex_sig 1) true] (Some ex_literal) true).
Proof.
  assert (S : Forall (sig_writable Z.log2 (fun _ => Ok [])) [MSig NewH (ex_sig 0) true; MSig NewH (ex_sig 1) true]).
  { apply Forall_cons; [split; [reflexivity|apply ex_sig_ok; auto]|apply Forall_cons; [split; [reflexivity|apply ex_sig_ok; auto]|apply Forall_nil]]. }
  assert (T : exists ps, to_packets None (MSigned [MSig NewH (ex_sig 0) true; MSig NewH (ex_sig 1) true] (Some ex_literal) true) = Ok ps) by (eexists; vm_compute; reflexivity).
  destruct T as (ps & T). destruct (c47_signed_octets_partial Z.log2 (fun _ => Ok []) [MSig NewH (ex_sig 0) true; MSig NewH (ex_sig 1) true] ex_literal _ ps ltac:(reflexivity) eq_refl ex_literal_ok ltac:(discriminate) S T) as (encs & E & R & _).
  exists ps, encs. split; [exact T|]. split; [exact E|]. split; [|exact R]. exact (proj1 (signed_wire _ _ _ ex_literal _ ps eq_refl ex_literal_ok S T)).
Qed.

(** C98. A literal message that sign() signs with an unlocked key can be written as octets or as armored text, with its one-pass packet; what is read
    back is the signed message, and the public key accepts its signature. The conditions: those under which C65 has a signature accepted, and
    that the literal packet and the signature packet are ones the format can hold. *)
Theorem c98_sign_read_verify_partial fl rec md5 sha1 H oid inv elg k sec nonce now prefs m p st hash sm :
  (forall i, 1024 <= i <= 65011712 -> fl i = Z.log2 i) -> library_hashes H oid -> library_numbers fl inv k -> keypair k sec ->
  plain_packet m = Some p -> pkt_ok fl rec p ->
  sign_message fl md5 sha1 H oid inv false k sec nonce now prefs m 4 st hash true = Ok sm ->
  (forall g x, sm = MSigned [g] x true -> sig_writable fl rec g) ->
  (forall g x s, sm = MSigned [g] x true -> sig_of_packet (ms_sig g) = Some s -> Forall (fun v => 0 <= v) (so_values s) /\ (k_alg k = 17 -> Forall (fun v => v <> 0) (so_values s)) /\ full_size k (so_values s)) ->
  verify_message fl md5 sha1 H oid inv elg k sm = Ok [true] /\
  exists ps encs, to_packets None sm = Ok ps /\ mapM (pkt_bytes fl rec) ps = Ok encs /\ read_message (InBytes (concat encs)) false = Ok sm /\
    forall a, adata a = concat encs -> armor_ok a -> extra_headers a = None -> exists t, armor_str a = Ok t /\ forall flag, read_message (InStr t) flag = Ok sm.
Proof.
  intros Hfl LH LN KP Hm Hp E W V. unfold sign_message in E. apply bind_ok in E as (ha & Eh & E). apply bind_ok in E as (d & Ed & E). apply bind_ok in E as ([s g'] & Es & E). apply ok_inj in E as <-.
  specialize (W _ _ eq_refl). specialize (V _ _ s eq_refl). assert (SP : sig_of_packet (packet_of_sig s) = Some s) by (destruct s; reflexivity). specialize (V SP) as (V1 & V2 & V3).
  assert (St : so_type s = st /\ exists kid, Message.issuer_key_ids (packet_of_sig s) = Ok [kid]).
  { unfold sign in Es. apply bind_ok in Es as (u & _ & Es). destruct (hash_supported ha); [|discriminate Es]. cbn [negb] in Es. apply bind_ok in Es as (d' & _ & Es). apply bind_ok in Es as (kid & Ek & Es). cbv zeta in Es. cbn [andb] in Es.
    apply bind_ok in Es as (t & _ & Es). apply bind_ok in Es as (vs & _ & Es). apply (f_equal (fun x => match x with Ok (y, _) => y | Err _ => s end)) in Es. cbv beta iota in Es. subst s. split; [reflexivity|]. exists kid. reflexivity. }
  destruct St as (St & kid & Ids).
  split.
  - cbn [verify_message mapM ms_sig]. rewrite SP, St, Ed. cbn [bind]. rewrite (c65_sign_then_verify_partial fl md5 sha1 H oid inv elg k sec nonce now (IBytes d) false st ha [] s g' LH LN KP ltac:(intros c b []) Es V1 V2 V3). reflexivity.
  - assert (P : exists ps, to_packets None (MSigned [MSig NewH (packet_of_sig s) true] (Some m) true) = Ok ps).
    { cbn [to_packets onepass_packets ms_sig]. rewrite Ids. cbn [bind]. destruct (sig_fields (packet_of_sig s)) as [[a b] c]. rewrite (plain_to_packets m p Hm). eexists. reflexivity. }
    destruct P as (ps & P). destruct (c47_signed_octets_partial fl rec [MSig NewH (packet_of_sig s) true] m p ps Hfl Hm Hp ltac:(discriminate) (Forall_cons _ W (Forall_nil _)) P) as (encs & E1 & E2 & E3).
    exists ps, encs. split; [exact P|]. split; [exact E1|]. split; [exact E2|exact E3].
Qed.
Print Assumptions c98_sign_read_verify_partial.
(** a DSA key signs a text message in the text mode, and the conditions are met *)
Definition demo_H2 (ha : Z) (d : bytes) : bytes := [fold_left (fun a b => (a + b) mod 256) d 0; 7].
Definition demo_message : message := MText (LText (str "hi" ++ [233])) (str "a.txt") 1000.
Definition demo_signed : sigpkt := SigV4 4 1 17 8 [169; 7] [8; 4] [Sub 16 false (SbIssuer (repeat 48 16)); Sub 2 false (SbTime 5)] [].
Lemma demo_signed_eq : sign_message Z.log2 demo_sha1 demo_sha1 demo_H2 demo_oid demo_inv false demo_dsa (SDsa 3) 7 5 (Ok [8; 2]) demo_message 4 1 None true = Ok (MSigned [MSig NewH demo_signed true] (Some demo_message) true).
Proof. vm_compute. reflexivity. Qed.
Lemma demo_signed_ok : pkt_ok Z.log2 (fun _ => Ok []) (Pkt NewH (BSig demo_signed)).
Proof.
  assert (V : forall i, 0 <= i -> bit_length i <= 65535 -> SpecSig.value_ok Z.log2 i) by (intros; repeat split; auto).
  split; cbn [p_body p_fmt].
  - apply si_v4; try (unfold byte; lia); try reflexivity.
    + repeat constructor; lia.
    + apply Forall_cons; [apply V; cbn; lia|apply Forall_cons; [apply V; cbn; lia|apply Forall_nil]].
    + apply Forall_cons; [|apply Forall_cons; [|apply Forall_nil]].
      * apply so_plain; [split; [reflexivity|]|]. { exists (repeat 0 8). split; [reflexivity|]. split; [repeat constructor; lia|reflexivity]. } intros d H. vm_compute in H. apply ok_inj in H. subst d. reflexivity.
      * apply so_plain; [split; [cbn; auto|lia]|]. intros d H. vm_compute in H. apply ok_inj in H. subst d. reflexivity.
    + apply Forall_nil.
    + intros a H. vm_compute in H. apply ok_inj in H. subst a. reflexivity.
    + intros a H. vm_compute in H. apply ok_inj in H. subst a. reflexivity.
  - intros d H. vm_compute in H; apply ok_inj in H; subst d; vm_compute; repeat split; discriminate.
Qed.
Lemma demo_hashes2 : library_hashes demo_H2 demo_oid.
Proof. destruct demo_hashes as (A & B & C). split; [exact A|]. split; [|discriminate]. intros ha d. specialize (B ha d). unfold demo_H in B. apply Forall_cons; [exact (Forall_inv B)|repeat constructor; lia]. Qed.
Example c98_used : exists encs ps, to_packets None (MSigned [MSig NewH demo_signed true] (Some demo_message) true) = Ok ps /\ mapM (pkt_bytes Z.log2 (fun _ => Ok [])) ps = Ok encs /\
  read_message (InBytes (concat encs)) false = Ok (MSigned [MSig NewH demo_signed true] (Some demo_message) true) /\
  verify_message Z.log2 demo_sha1 demo_sha1 demo_H2 demo_oid demo_inv demo_elg demo_dsa (MSigned [MSig NewH demo_signed true] (Some demo_message) true) = Ok [true].
Proof.
  destruct (c98_sign_read_verify_partial Z.log2 (fun _ => Ok []) demo_sha1 demo_sha1 demo_H2 demo_oid demo_inv demo_elg demo_dsa (SDsa 3) 7 5 (Ok [8; 2]) demo_message (Pkt NewH (BData (PLiteral 117 (str "a.txt") (TDate 1000) (LText (str "hi" ++ [233]))))) 1 None
    (MSigned [MSig NewH demo_signed true] (Some demo_message) true)) as (A & ps & encs & B & C & D & _).
  - reflexivity.
  - exact demo_hashes2.
  - exact demo_dsa_numbers.
  - apply (pair_dsa demo_dsa 23 11 4 3); try reflexivity; lia.
  - reflexivity.
  - split; cbn [p_body p_fmt].
    + split; [eexists; vm_compute; reflexivity|]. split; [cbn; repeat (apply Forall_cons; [unfold scalar; lia|]); apply Forall_nil|]. split; [reflexivity|]. split; [vm_compute; discriminate|]. split; [lia|]. split; [cbn; repeat (apply Forall_cons; [unfold scalar; lia|]); apply Forall_nil|discriminate].
    + intros d H. vm_compute in H; apply ok_inj in H; subst d; vm_compute; repeat split; discriminate.
  - exact demo_signed_eq.
  - intros g x E. assert (g = MSig NewH demo_signed true) by congruence. subst g. split; [reflexivity|exact demo_signed_ok].
  - intros g x s E S. assert (g = MSig NewH demo_signed true) by congruence. subst g. assert (s = SigObj 4 1 17 8 [169; 7] [8; 4] [Sub 16 false (SbIssuer (repeat 48 16)); Sub 2 false (SbTime 5)] []) by (vm_compute in S |- *; congruence). subst s. cbn [so_values].
    split; [repeat constructor; lia|]. split; [intros _; repeat constructor; lia|exact Logic.I].
  - exists encs, ps. split; [exact B|]. split; [exact C|]. split; [exact D|exact A].
Qed.

(** What is signed is the literal data: the message inside is the one given, and the hash is the algorithm asked for, else the first the
    key prefers. *)
Theorem c98_chosen_hash fl md5 sha1 H oid inv locked k sec nonce now prefs m version st hash one_pass sm :
  sign_message fl md5 sha1 H oid inv locked k sec nonce now prefs m version st hash one_pass = Ok sm ->
  locked = false /\ exists g, sm = MSigned [g] (Some m) one_pass /\ snd (sig_fields (ms_sig g)) = match hash with Some h => h | None => match prefs with Ok (h :: _) => h | _ => 1 end end.
Proof.
  unfold sign_message, choose_hash. intros E. apply bind_ok in E as (ha & Eh & E). apply bind_ok in E as (d & Ed & E). apply bind_ok in E as ([s g'] & Es & E). apply ok_inj in E as <-.
  unfold sign in Es. destruct locked; [discriminate Es|]. split; [reflexivity|]. eexists. split; [reflexivity|]. cbn [ms_sig packet_of_sig sig_fields snd].
  assert (so_hash s = ha). { apply bind_ok in Es as (u & _ & Es). destruct (hash_supported ha); [|discriminate Es]. cbn [negb] in Es. apply bind_ok in Es as (d' & _ & Es). apply bind_ok in Es as (kid & Ek & Es). cbv zeta in Es. cbn [andb] in Es.
    apply bind_ok in Es as (t & _ & Es). apply bind_ok in Es as (vs & _ & Es). apply (f_equal (fun x => match x with Ok (y, _) => y | Err _ => s end)) in Es. cbv beta iota in Es. subst s. reflexivity. }
  subst ha. destruct hash; [apply ok_inj in Eh; congruence|]. destruct prefs as [[|h l]|]; cbn [bind] in Eh; [apply ok_inj in Eh; congruence|apply ok_inj in Eh; congruence|discriminate Eh].
Qed.
Print Assumptions c98_chosen_hash.
(** Refuted: a key that states no preference signs with MD5, although SHA-1 is what RFC 4880 13.3.2 has every key accept. *)
Theorem c98_default_md5_refuted fl md5 sha1 H oid inv locked k sec nonce now m version st one_pass sm :
  sign_message fl md5 sha1 H oid inv locked k sec nonce now (Ok []) m version st None one_pass = Ok sm -> exists g, sm = MSigned [g] (Some m) one_pass /\ snd (sig_fields (ms_sig g)) = 1.
Proof. intros E. apply c98_chosen_hash in E as (_ & g & E1 & E2). exists g. split; assumption. Qed.
Print Assumptions c98_default_md5_refuted.
Example c98_default_used : exists sm, sign_message Z.log2 demo_sha1 demo_sha1 demo_H2 demo_oid demo_inv false demo_dsa (SDsa 3) 7 5 (Ok []) demo_message 4 1 None true = Ok sm.
Proof. eexists. vm_compute. reflexivity. Qed.
(** Refuted: a first preference that the library cannot compute is not passed over for the next. *)
Theorem c98_unsupported_preference_refuted fl md5 sha1 H oid inv k sec nonce now h l m version st one_pass : hash_lengths h = None -> key_obj_ok k = Ok tt -> (exists d, message_signable st m = Ok d) ->
  sign_message fl md5 sha1 H oid inv false k sec nonce now (Ok (h :: l)) m version st None one_pass = Err UnsupportedDigestAlgorithm.
Proof.
  intros Hh Hk [d Hd]. unfold sign_message, choose_hash. cbn [bind]. rewrite Hd. cbn [bind]. unfold sign. rewrite Hk. cbn [bind]. unfold hash_supported. rewrite Hh. reflexivity.
Qed.
Print Assumptions c98_unsupported_preference_refuted.
Example c98_unsupported_used : hash_lengths 4 = None /\ hash_lengths 8 <> None /\ key_obj_ok demo_dsa = Ok tt /\ (exists d, message_signable 1 demo_message = Ok d).
Proof. split; [reflexivity|]. split; [discriminate|]. split; [reflexivity|]. eexists. vm_compute. reflexivity. Qed.
(** A locked key does not sign. *)
Theorem c98_locked fl md5 sha1 H oid inv k sec nonce now prefs m version st hash one_pass sm :
  sign_message fl md5 sha1 H oid inv true k sec nonce now prefs m version st hash one_pass <> Ok sm.
Proof. intros E. apply c98_chosen_hash in E as (E & _). discriminate E. Qed.
Print Assumptions c98_locked.
(** Refuted: RFC 4880 11.3 lets any message be signed; only a text with characters and a binary message with octets are. *)
Theorem c98_other_messages_refuted fl md5 sha1 H oid inv locked k sec nonce now prefs m version st hash one_pass sm :
  sign_message fl md5 sha1 H oid inv locked k sec nonce now prefs m version st hash one_pass = Ok sm ->
  (exists t n time, m = MText (LText t) n time) \/ (exists d n time, m = MBinary (LBytes d) n time).
Proof.
  unfold sign_message. intros E. apply bind_ok in E as (ha & Eh & E). apply bind_ok in E as (d & Ed & E). clear E.
  destruct m as [[t|b] n time|[t|b] n time| | | ]; cbn [message_signable] in Ed; try discriminate Ed; [left|right]; eauto.
Qed.
Print Assumptions c98_other_messages_refuted.
(** What an accepted signature of a message was made over: the RFC octets of the message's document, if its line ends are canonical already. *)
Theorem c98_accepted_only_if_valid_partial fl md5 sha1 H oid inv elg k g m one_pass s d :
  library_hashes H oid -> library_numbers fl inv k -> sig_of_packet (ms_sig g) = Some s -> so_version s = 4 -> k_alg k <> 20 -> Forall (fun v => 0 <= v) (so_values s) ->
  signed_data m d -> rfc_document (so_type s) d = d -> verify_message fl md5 sha1 H oid inv elg k (MSigned [g] (Some m) one_pass) = Ok [true] ->
  exists kid hashed, obj_key_id fl md5 sha1 k = Ok kid /\ names_issuer (so_hashed s) (so_unhashed s) kid /\ k_alg k = so_pk s /\ subs_bytes fl (so_hashed s) = Ok hashed /\
    pk_valid oid k (so_hash s) (H (so_hash s) (rfc_v4_octets (so_type s) (so_pk s) (so_hash s) hashed (Document (rfc_document (so_type s) d)))) (so_values s).
Proof.
  intros LH LN Sg V A NN D C E. cbn [verify_message mapM] in E. rewrite Sg in E. rewrite C.
  assert (M : message_signable (so_type s) m = Ok d).
  { destruct D as [t n time F|d n time]; cbn [message_signable]; [|reflexivity]. rewrite (encode_strict_scalar t F). cbn [bind]. f_equal. unfold rfc_document in C. unfold text_signable. destruct (so_type s =? 1) eqn:T; [|reflexivity]. pose proof (proj2 (crlf_exact (utf8 t)) C) as X. unfold text_signable in X. change (1 =? 1) with true in X. cbv iota in X. congruence. }
  rewrite M in E. cbn [bind] in E. apply bind_ok in E as (b & E & E'). apply ok_inj in E'. assert (b = true) by congruence. subst b.
  destruct (verify fl md5 sha1 H oid inv elg k s (IBytes d)) as [b|] eqn:Ev; [|discriminate E]. apply ok_inj in E. subst b.
  destruct (c51_accepted_only_if_valid_partial fl md5 sha1 H oid inv elg k s (IBytes d) (Document d) LH LN V A NN eq_refl Ev) as (kid & hashed & X1 & X2 & X3 & X4 & _ & X5). exists kid, hashed. repeat (split; [assumption|]). exact X5.
Qed.
Print Assumptions c98_accepted_only_if_valid_partial.
Example c98_accepted_used : signed_data demo_message (utf8 (str "hi" ++ [233])) /\ rfc_document 1 (utf8 (str "hi" ++ [233])) = utf8 (str "hi" ++ [233]) /\
  verify_message Z.log2 demo_sha1 demo_sha1 demo_H2 demo_oid demo_inv demo_elg demo_dsa (MSigned [MSig NewH demo_signed true] (Some demo_message) true) = Ok [true].
Proof. split; [apply sd_text; cbn; repeat (apply Forall_cons; [unfold scalar; lia|]); apply Forall_nil|]. split; vm_compute; reflexivity. Qed.
(** Refuted without that condition: in text mode the character before a bare line feed is not covered, so a signature for one text is accepted for the text in
    which it is another. *)
Theorem c98_text_substitution_refuted fl md5 sha1 H oid inv elg k g one_pass s a b t n time : sig_of_packet (ms_sig g) = Some s -> so_type s = 1 -> 0 <= a < 128 -> 0 <= b < 128 -> a <> 13 -> b <> 13 -> Forall scalar t ->
  verify_message fl md5 sha1 H oid inv elg k (MSigned [g] (Some (MText (LText (a :: 10 :: t)) n time)) one_pass) = verify_message fl md5 sha1 H oid inv elg k (MSigned [g] (Some (MText (LText (b :: 10 :: t)) n time)) one_pass).
Proof.
  intros Sg T Ha Hb Na Nb F. cbn [verify_message mapM]. rewrite Sg, T.
  assert (X : forall c, 0 <= c < 128 -> utf8_encode (c :: 10 :: t) = Ok (c :: 10 :: utf8 t)).
  { intros c Hc. rewrite encode_strict_scalar by (apply Forall_cons; [unfold scalar; lia|apply Forall_cons; [unfold scalar; lia|exact F]]). f_equal. unfold utf8. cbn [flat_map map concat]. assert (Y : rfc3629 c = [c]) by (unfold rfc3629; replace (c <=? 127) with true by lia; reflexivity). rewrite Y. reflexivity. }
  cbn [message_signable]. rewrite (X a Ha), (X b Hb). cbn [bind]. unfold text_signable. change (1 =? 1) with true. cbv iota. rewrite (crlf_eats a b (utf8 t) Na Nb). reflexivity.
Qed.
Print Assumptions c98_text_substitution_refuted.
Example c98_substitution_used : exists g, sign_message Z.log2 demo_sha1 demo_sha1 demo_H2 demo_oid demo_inv false demo_dsa (SDsa 3) 7 5 (Ok [8]) (MText (LText [49; 10]) [] 5) 4 1 None true = Ok (MSigned [g] (Some (MText (LText [49; 10]) [] 5)) true) /\
  verify_message Z.log2 demo_sha1 demo_sha1 demo_H2 demo_oid demo_inv demo_elg demo_dsa (MSigned [g] (Some (MText (LText [57; 10]) [] 5)) true) = Ok [true].
Proof. eexists. split; [vm_compute; reflexivity|vm_compute; reflexivity]. Qed.
(** Refuted: a binary message signed in text mode is not signed with canonical line ends. *)
Theorem c98_binary_text_mode_refuted d n time : message_signable 1 (MBinary (LBytes d) n time) = Ok (rfc_document 1 d) <-> canonical_text d = d.
Proof. cbn [message_signable]. unfold rfc_document. change (1 =? 1) with true. cbv iota. split; [intros E; apply ok_inj in E; congruence|intros ->; reflexivity]. Qed.
Print Assumptions c98_binary_text_mode_refuted.
