From Verif Require Import Base BaseProofs Spec Utils UtilsProofs Framing SpecFraming FramingProofs FramingProps Armor S2k SpecS2k Cipher SymCipher SpecCfb SpecCipher CipherProofs CfbProofs SessionKeys SessionKeysProofs KeyPackets KeyProofs Text Utf8 SpecUtf8 Utf8Proofs DataPackets SigPackets SpecPackets Packets PacketsProofs Message SpecMessage MsgEncProofs.

(** ** grammar *)
Lemma open_literal p rest f n t d : p_body p = BData (PLiteral f n (TInt t) d) -> open_message (p :: rest) = Ok (if (f =? 117) || (f =? 116) then MText d n t else MBinary d n t).
Proof. intros H. unfold open_message, open_plain, pkt_type. rewrite H. reflexivity. Qed.
Lemma open_compressed p rest a d : p_body p = BData (PCompressed a d) -> open_message (p :: rest) = Ok (MCompressed a d).
Proof. intros H. unfold open_message, open_plain, pkt_type. rewrite H. reflexivity. Qed.
Lemma plain_reopen m p rest : plain_packet m = Some p -> open_message (as_read p :: rest) = Ok m.
Proof. destruct m; try discriminate; intros H; injection H as <-; reflexivity. Qed.
Lemma plain_to_packets m p : plain_packet m = Some p -> to_packets None m = Ok [p].
Proof. destruct m; try discriminate; intros H; injection H as <-; reflexivity. Qed.
Lemma sig_first ps p s : p_body p = BSig s -> open_message (p :: ps) = Err TypeError.
Proof. intros H. unfold open_message. cbn [signed_loop]. rewrite H. reflexivity. Qed.
(** encrypted *)
Definition esk_pkt (p : pkt) : Prop := is_esk_type (pkt_type p) = true.
Lemma esk_loop_all ks : forall acc p rest sks q, Forall2 (fun p k => session_key_of p = Ok k /\ esk_pkt p) (p :: ks) sks -> is_esk_type (pkt_type q) = false ->
  esk_loop acc p (ks ++ q :: rest) = Ok (acc ++ sks, q).
Proof.
  induction ks as [|p2 ks IH]; intros acc p rest sks q H Hq; inversion H as [|? k ? sks' [Hk Ht] H2]; subst; cbn [esk_loop app].
  - inversion H2; subst. unfold esk_pkt in Ht. rewrite Ht, Hk. cbn [bind]. destruct rest; cbn [esk_loop]; rewrite Hq; reflexivity.
  - unfold esk_pkt in Ht. rewrite Ht, Hk. cbn [bind]. rewrite (IH _ _ _ sks' _ H2 Hq). now rewrite <- app_assoc.
Qed.
Lemma esk_loop_inv rest : forall acc p keys q, esk_loop acc p rest = Ok (keys, q) ->
  exists esks sks, keys = acc ++ sks /\ Forall2 (fun p k => session_key_of p = Ok k /\ esk_pkt p) esks sks /\
    ((is_esk_type (pkt_type q) = false /\ exists rest', p :: rest = esks ++ q :: rest') \/ (is_esk_type (pkt_type q) = true /\ p :: rest = esks)).
Proof.
  induction rest as [|p2 rest IH]; intros acc p keys q H; cbn [esk_loop] in H.
  - destruct (is_esk_type (pkt_type p)) eqn:Et.
    + apply bind_ok in H as (k & Hk & H). injection H as <- <-. exists [p], [k]. split; [reflexivity|]. split; [constructor; [easy|constructor]|]. right. auto.
    + injection H as <- <-. exists [], []. split; [now rewrite app_nil_r|]. split; [constructor|]. left. split; [easy|]. now exists [].
  - destruct (is_esk_type (pkt_type p)) eqn:Et.
    + apply bind_ok in H as (k & Hk & H). destruct (IH _ _ _ _ H) as (esks & sks & E1 & E2 & E3). exists (p :: esks), (k :: sks). rewrite E1, <- app_assoc. split; [reflexivity|]. split; [constructor; [easy|exact E2]|].
      destruct E3 as [(E3 & rest' & E4) | (E3 & E4)]; [left; split; [easy|]; exists rest'; cbn [app]; now rewrite E4|right; split; [easy|now rewrite E4]].
    + injection H as <- <-. exists [], []. split; [now rewrite app_nil_r|]. split; [constructor|]. left. split; [easy|]. now exists (p2 :: rest).
Qed.
Lemma encdata_type q d : encdata_of q = Ok d -> is_enc_type (pkt_type q) = true /\ is_esk_type (pkt_type q) = false.
Proof. destruct q as [h b]. unfold encdata_of, pkt_type. cbn [p_body]. destruct b as [x|s|x|x|sub k|sub k|l|dd]; try discriminate. destruct dd; try discriminate; intros _; split; reflexivity. Qed.
Lemma enc_not_esk p : is_enc_type (pkt_type p) = true -> is_esk_type (pkt_type p) = false.
Proof. unfold is_enc_type, is_esk_type. intros H. apply orb_true_iff in H. lia. Qed.
Lemma skey_not_plain p k : session_key_of p = Ok k -> esk_pkt p /\ (forall rest, open_message (p :: rest) = encrypted_from p rest).
Proof.
  destruct p as [h b]. unfold session_key_of, esk_pkt, pkt_type, open_message, open_plain. cbn [p_body]. destruct b as [x|s|x|x|sub y|sub y|l|dd]; try discriminate; intros _; split; reflexivity.
Qed.
Lemma open_encrypted esks keys q d rest : esks <> [] -> Forall2 (fun p k => session_key_of p = Ok k) esks keys -> encdata_of q = Ok d ->
  open_message (esks ++ q :: rest) = Ok (MEncrypted keys d).
Proof.
  intros Hn H Hq. destruct (encdata_type q d Hq) as [T1 T2]. destruct esks as [|p esks]; [easy|]. inversion H as [|? k ? ks Hk Hr]; subst. cbn [app].
  rewrite (proj2 (skey_not_plain p k Hk)). destruct (skey_not_plain p k Hk) as [T3 _]. unfold encrypted_from. destruct (is_enc_type (pkt_type p)) eqn:Te; [apply enc_not_esk in Te; unfold esk_pkt in T3; congruence|].
  rewrite (esk_loop_all esks [] p rest (k :: ks) q); [|constructor; [now split|]|exact T2].
  - cbn [bind app]. rewrite T1. cbn [orb]. rewrite Hq. reflexivity.
  - clear -Hr. induction Hr as [|p k ps ks Hp Hr IH]; constructor; [|exact IH]. split; [exact Hp|]. apply (skey_not_plain p k Hp).
Qed.
Lemma open_default q d rest : encdata_of q = Ok d -> open_message (q :: rest) = Ok (MEncrypted [SKDefault] d).
Proof.
  intros Hq. destruct (encdata_type q d Hq) as [T1 T2]. assert (O : open_message (q :: rest) = encrypted_from q rest).
  { destruct q as [h b]. unfold encdata_of in Hq. cbn [p_body] in Hq. destruct b as [x|s|x|x|sub y|sub y|l|dd]; try discriminate Hq. destruct dd; try discriminate Hq; reflexivity. }
  rewrite O. unfold encrypted_from. rewrite T1. destruct rest; cbn [esk_loop]; rewrite T2; cbn [bind]; rewrite T1; cbn [orb]; rewrite Hq; reflexivity.
Qed.
Lemma signed_loop_signed ps : forall op sigs m r, signed_loop ps op sigs m = Ok r -> exists s m' o, r = MSigned s m' o.
Proof.
  induction ps as [|p ps IH]; intros op sigs m r H; cbn [signed_loop] in H; [injection H as <-; eauto|].
  destruct (p_body p); try (destruct m; [discriminate|apply bind_ok in H as (x & _ & H)]); eauto. destruct m; [|discriminate]. apply bind_ok in H as (g & _ & H). eauto.
Qed.
Lemma encrypted_inv ps keys d : open_message ps = Ok (MEncrypted keys d) ->
  exists esks q rest, ps = esks ++ q :: rest /\ encdata_of q = Ok d /\ ((esks <> [] /\ Forall2 (fun p k => session_key_of p = Ok k) esks keys) \/ (esks = [] /\ keys = [SKDefault])).
Proof.
  intros H. destruct ps as [|p rest]; [discriminate|].
  assert (E : encrypted_from p rest = Ok (MEncrypted keys d)).
  { unfold open_message in H. destruct p as [h b]. cbn [p_body] in H.
    destruct b as [x|s|x|x|sub y|sub y|l|dd]; try (destruct (signed_loop_signed _ _ _ _ _ H) as (s1 & s2 & s3 & X); discriminate X);
      unfold open_plain in H; match type of H with (if ?b then _ else _) = _ => destruct b; [exact H|] end; cbn [p_body] in H; try discriminate H.
    destruct dd as [a z|z|f n t z|v c|u|ty s|v z|z|m0 c z|ty z]; try discriminate H. destruct t; [|discriminate H]. cbn [literal_message] in H. destruct ((f =? 117) || (f =? 116)); discriminate H. }
  unfold encrypted_from in E. apply bind_ok in E as ([keys' q] & E1 & E). destruct keys' as [|k0 ks0] eqn:Ek; [discriminate|]. destruct (is_enc_type (pkt_type q) || is_esk_type (pkt_type q)); [|discriminate].
  apply bind_ok in E as (d' & E2 & E). injection E as <- <-. destruct (encdata_type q d' E2) as [T1 T2].
  destruct (esk_loop_inv _ _ _ _ _ E1) as (esks & sks & F1 & F2 & [(F3 & rest' & F4) | (F3 & _)]); [|congruence]. exists esks, q, rest'. split; [exact F4|]. split; [exact E2|].
  destruct esks as [|e esks].
  - inversion F2; subst sks. cbn [app] in F4. injection F4 as -> ->. rewrite T1 in F1. right. split; [reflexivity|exact F1].
  - left. split; [discriminate|]. cbn [app] in F4. injection F4 as -> _. inversion F2 as [|? ? ? ? [F5 F6] _]; subst. destruct (is_enc_type (pkt_type e)) eqn:Te; [apply enc_not_esk in Te; unfold esk_pkt in F6; congruence|].
    cbn [app] in F1. rewrite F1. clear -F2. induction F2 as [|p k ps ks [Hp _] Hr IH]; constructor; auto.
Qed.
(** signed *)
Lemma msig_of_ok f s : sig_version_ok s -> msig_of f s true = Ok (MSig f s true).
Proof. destruct s as [v ? ? ? ? ? ? ?|v ? ? ? ? ? ? ?]; cbn [sig_version_ok msig_of]; intros H. - replace ((v =? 2) || (v =? 3)) with true by lia. reflexivity. - replace (4 <=? v) with true by lia. reflexivity. Qed.
Lemma msig_of_inv f s g : msig_of f s true = Ok g -> sig_version_ok s /\ g = MSig f s true.
Proof.
  destruct s as [v ? ? ? ? ? ? ?|v ? ? ? ? ? ? ?]; cbn [sig_version_ok msig_of]; intros H.
  - destruct ((v =? 2) || (v =? 3)) eqn:E; [|discriminate]. injection H as <-. split; [lia|reflexivity].
  - destruct (4 <=? v) eqn:E; [|discriminate]. injection H as <-. split; [lia|reflexivity].
Qed.
Lemma signed_tail post x : forall sigs r, signed_loop post true sigs (Some x) = Ok r <-> Forall tail_ok post /\ r = MSigned (sigs ++ msigs (sigs_of post)) (Some x) true.
Proof.
  induction post as [|[h b] post IH]; intros sigs r; cbn [signed_loop sigs_of flat_map msigs map].
  - rewrite app_nil_r. split; [intros H; injection H as <-; split; [constructor|reflexivity]|intros [_ ->]; reflexivity].
  - cbn [p_body p_fmt].
    assert (N : forall b, (forall o, b <> BOnePass o) -> (forall s, b <> BSig s) -> ~ tail_ok (Pkt h b)).
    { intros b0 N1 N2 [T | (s & T & _)]; cbn [p_body] in T; [unfold is_ops in T; cbn [p_body] in T; destruct b0; try discriminate T; exact (N1 _ eq_refl)|exact (N2 _ T)]. }
    destruct b as [y|s|y|y|sub y|sub y|l|dd];
      try (split; [intros H; discriminate H|intros [H _]; inversion H as [|? ? T _]; subst; exfalso; revert T; apply N; discriminate]).
    + split.
      * intros H. apply bind_ok in H as (g & G & H). apply msig_of_inv in G as [G ->]. apply IH in H as [H ->]. split; [constructor; [right; exists s; now split|exact H]|]. cbn [app msigs map fst snd]. now rewrite <- app_assoc.
      * intros [H ->]. inversion H as [|? ? T Hp]; subst. destruct T as [T | (s' & T & V)]; [discriminate T|]. cbn [p_body] in T. injection T as <-. rewrite msig_of_ok by easy. cbn [bind]. apply IH. split; [exact Hp|]. cbn [app msigs map fst snd]. now rewrite <- app_assoc.
    + rewrite IH. cbn [app]. split; intros [H ->]; (split; [|reflexivity]); [constructor; [left; reflexivity|exact H]|inversion H; subst; assumption].
Qed.
Lemma signed_none ps : forall r, signed_loop ps true [] None = Ok r <->
  (Forall (fun p => is_ops p = true) ps /\ r = MSigned [] None true) \/
  exists pre p post x, ps = pre ++ p :: post /\ Forall (fun p => is_ops p = true) pre /\ is_ops p = false /\ (forall s, p_body p <> BSig s) /\ open_message [p] = Ok x /\ Forall tail_ok post /\ r = MSigned (msigs (sigs_of post)) (Some x) true.
Proof.
  induction ps as [|p ps IH]; intros r.
  - cbn [signed_loop]. split; [intros H; injection H as <-; left; split; [constructor|reflexivity]|]. intros [[_ ->] | (pre & p & post & x & E & _)]; [reflexivity|]. destruct pre; discriminate E.
  - destruct (is_ops p) eqn:Eo.
    + assert (S : signed_loop (p :: ps) true [] None = signed_loop ps true [] None). { cbn [signed_loop]. unfold is_ops in Eo. destruct (p_body p); try discriminate Eo. reflexivity. }
      rewrite S, IH. split.
      * intros [[H ->] | (pre & q & post & x & -> & H1 & H2)]; [left; split; [constructor; auto|reflexivity]|]. right. exists (p :: pre), q, post, x. split; [reflexivity|]. split; [constructor; auto|exact H2].
      * intros [[H ->] | (pre & q & post & x & E & H1 & H2 & H3)]; [left; split; [inversion H; subst; assumption|reflexivity]|]. right. destruct pre as [|p' pre]; [cbn [app] in E; injection E as -> _; congruence|]. cbn [app] in E. injection E as <- ->.
        exists pre, q, post, x. split; [reflexivity|]. split; [inversion H1; subst; assumption|auto].
    + split.
      * intros H. destruct p as [h b]. cbn [signed_loop p_body] in H. right.
        destruct b as [y|s|y|y|sub y|sub y|l|dd]; try discriminate Eo; try discriminate H; apply bind_ok in H as (x & Hx & H); apply signed_tail in H as [H ->];
          (match type of Eo with is_ops ?p = false => exists [], p, ps, x end; split; [reflexivity|]; split; [constructor|]; split; [exact Eo|]; split; [cbn [p_body]; discriminate|]; split; [exact Hx|]; split; [exact H|reflexivity]).
      * intros [[H ->] | (pre & q & post & x & E & H1 & H2 & H3 & H4 & H5 & ->)]; [inversion H; congruence|]. destruct pre as [|p' pre]; [|cbn [app] in E; injection E as <- _; inversion H1; congruence]. cbn [app] in E. injection E as -> ->.
        destruct q as [h b]. cbn [p_body] in H3. unfold open_message in H4. cbn [p_body] in H4. cbn [signed_loop p_body].
        destruct b as [y|s|y|y|sub y|sub y|l|dd]; try discriminate Eo; try (exact (False_ind _ (H3 _ eq_refl))); rewrite H4; cbn [bind]; apply signed_tail; (split; [exact H5|reflexivity]).
Qed.
Lemma open_signed ps sigs m op : open_message ps = Ok (MSigned sigs m op) <->
  op = true /\ exists pre post, pre <> [] /\ Forall (fun p => is_ops p = true) pre /\
    ((ps = pre /\ post = [] /\ m = None /\ sigs = []) \/
     exists p x, ps = pre ++ p :: post /\ is_ops p = false /\ (forall s, p_body p <> BSig s) /\ open_message [p] = Ok x /\ m = Some x /\ Forall tail_ok post /\ sigs = msigs (sigs_of post)).
Proof.
  destruct ps as [|p ps].
  - split; [discriminate|]. intros (_ & pre & post & Hn & _ & [(E & _) | (p & x & E & _)]); [congruence|]. destruct pre; discriminate E.
  - destruct (is_ops p) eqn:Eo.
    + assert (S : open_message (p :: ps) = signed_loop ps true [] None). { unfold open_message. cbn [signed_loop]. unfold is_ops in Eo. destruct (p_body p); try discriminate Eo. reflexivity. }
      rewrite S, signed_none. split.
      * intros [[H E] | (pre & q & post & x & -> & H1 & H2 & H3 & H4 & H5 & E)]; injection E as -> -> ->; (split; [reflexivity|]).
        -- exists (p :: ps), []. split; [discriminate|]. split; [now constructor|]. left. auto.
        -- exists (p :: pre), post. split; [discriminate|]. split; [now constructor|]. right. exists q, x. repeat split; auto.
      * intros (-> & pre & post & Hn & Hp & [(<- & -> & -> & ->) | (q & x & E & H1 & H2 & H3 & -> & H5 & ->)]).
        -- left. split; [inversion Hp; subst; assumption|reflexivity].
        -- destruct pre as [|p' pre]; [easy|]. cbn [app] in E. injection E as <- ->. right. exists pre, q, post, x. split; [reflexivity|]. split; [inversion Hp; subst; assumption|]. auto.
    + split.
      * intros H. exfalso. destruct p as [h b]. unfold open_message in H. cbn [p_body signed_loop] in H. destruct b as [y|s|y|y|sub y|sub y|l|dd]; try discriminate Eo; try discriminate H;
        unfold open_plain in H; match type of H with (if ?b then _ else _) = _ => destruct b end; cbn [p_body] in H; try discriminate H;
        try (unfold encrypted_from in H; apply bind_ok in H as ([ks q] & _ & H); destruct ks; [discriminate H|]; match type of H with (if ?b then _ else _) = _ => destruct b; [|discriminate H] end; apply bind_ok in H as (z & _ & H); discriminate H).
        destruct dd as [a z|z|f n t z|v c|u|ty s|v z|z|m0 c z|ty z]; try discriminate H. destruct t; [|discriminate H]. cbn [literal_message] in H. destruct ((f =? 117) || (f =? 116)); discriminate H.
      * intros (_ & pre & post & Hn & Hp & [(E & _) | (q & x & E & _)]); (destruct pre as [|p' pre]; [easy|]); inversion Hp; subst; cbn [app] in E; injection E as <- _; congruence.
Qed.
(** ** writing *)
Lemma as_read_sig h s : as_read (Pkt h (BSig s)) = Pkt h (BSig s). Proof. reflexivity. Qed.
Lemma signed_reopen sigs m p ps : plain_packet m = Some p -> sigs <> [] -> Forall (fun g => ms_one_pass g = true /\ sig_version_ok (ms_sig g)) sigs -> to_packets None (MSigned sigs (Some m) true) = Ok ps ->
  open_message (map as_read ps) = Ok (MSigned sigs (Some m) true).
Proof.
  intros Hm Hn Hs H. cbn [to_packets] in H. apply bind_ok in H as (ops & H1 & H). rewrite (plain_to_packets m p Hm) in H. cbn [bind] in H. apply bind_ok in H as (ss & H2 & H). injection H as <-.
  assert (O : Forall (fun p => is_ops p = true) (map as_read ops) /\ (sigs <> [] -> ops <> [])).
  { clear -H1. revert ops H1. induction sigs as [|g sigs IH]; intros ops H1; cbn [onepass_packets] in H1.
    - injection H1 as <-. split; [constructor|easy].
    - apply bind_ok in H1 as (ids & _ & H1). apply bind_ok in H1 as (k & _ & H1). destruct (sig_fields (ms_sig g)) as [[st pk] ha]. apply bind_ok in H1 as (ps & H3 & H1). injection H1 as <-.
      split; [|discriminate]. constructor; [reflexivity|]. apply (IH ps H3). }
  assert (S : Forall tail_ok (map as_read ss) /\ msigs (sigs_of (map as_read ss)) = sigs).
  { clear -H2 Hs. revert ss H2. induction Hs as [|g sigs [Hg Hv] Hs IH]; intros ss H2; cbn [mapM] in H2.
    - injection H2 as <-. split; [constructor|reflexivity].
    - apply bind_ok in H2 as (q & H3 & H2). apply bind_ok in H2 as (qs & H4 & H2). injection H2 as <-. destruct g as [f s op]. cbn [ms_one_pass ms_sig] in *. subst op. unfold msig_packet in H3. cbn [ms_sig ms_fmt] in H3.
      destruct s as [v ? ? ? ? ? ? ?|v st pk ha h2 vs hs us]; [discriminate H3|]. injection H3 as <-. destruct (IH qs H4) as [I1 I2]. cbn [map as_read hdr_or]. split.
      + constructor; [|exact I1]. right. eexists. split; [reflexivity|exact Hv].
      + cbn [sigs_of flat_map p_body p_fmt app msigs map fst snd]. f_equal. exact I2. }
  apply open_signed. split; [reflexivity|]. exists (map as_read ops), (map as_read ss). rewrite !map_app. cbn [map]. split.
  - intros E. apply (proj2 O Hn). destruct ops; [reflexivity|discriminate E].
  - split; [apply O|]. right. exists (as_read p), m. split; [reflexivity|]. split; [|split; [|split; [|split; [reflexivity|split; [apply S|symmetry; apply S]]]]].
    + destruct m; try discriminate Hm; injection Hm as <-; reflexivity.
    + destruct m; try discriminate Hm; injection Hm as <-; discriminate.
    + now apply plain_reopen.
Qed.
(** ** a message encrypted under a passphrase *)
Section End.
Variables (H : Z -> bytes -> bytes) (E : Z -> bytes -> bytes -> bytes) (sha1 : bytes -> bytes) (od : Z -> option bytes -> bytes -> bytes -> res bytes) (fl : Z -> Z) (rec : seckey -> res bytes).
Hypothesis Hfl : exact_log fl.
Lemma plain_octets m p : plain_packet m = Some p -> pkt_ok fl rec p -> exists d, message_octets fl rec m = Ok d /\ d <> [] /\ (do ps <- all_packets d;; open_message ps) = Ok m.
Proof.
  intros Hm Hp. unfold message_octets. rewrite (plain_to_packets m p Hm). cbn [bind]. destruct (pkts_round fl rec [p] Hfl (Forall_cons _ Hp (Forall_nil _))) as (encs & E1 & E2 & _). rewrite E1. cbn [bind].
  exists (concat encs). split; [reflexivity|]. split.
  - intros E0. rewrite E0 in E2. cbn in E2. discriminate E2.
  - unfold all_packets. rewrite E2. cbn [bind map]. now apply plain_reopen.
Qed.
Lemma plain_survives m p d : plain_packet m = Some p -> pkt_ok fl rec p -> message_octets fl rec m = Ok d -> survives fl rec m d.
Proof.
  intros Hm Hp Ho. destruct (plain_octets m p Hm Hp) as (d0 & D1 & D2 & D3). rewrite Ho in D1. apply ok_inj in D1 as <-. split; [exact Ho|]. unfold all_packets in D3. destruct (parse_binary_packet_data pkt_dec d) as [ps [e|]]; [discriminate D3|]. exists ps. split; [reflexivity|exact D3].
Qed.
Lemma survives_read m d : survives fl rec m d -> d <> [] /\ (do ps <- all_packets d;; open_message ps) = Ok m.
Proof.
  intros (_ & ps & P & O). split; [intros ->; cbn in P; assert (ps = []) by congruence; subst ps; discriminate O|]. unfold all_packets. rewrite P. exact O.
Qed.
Lemma new_s2k_sym ty hash sym salt count s : new_s2k ty hash sym salt count = Ok s -> s2k_sym s = sym.
Proof. unfold new_s2k. repeat match goal with |- (if ?b then _ else _) = _ -> _ => destruct b end; intros X; try discriminate X; injection X as <-; reflexivity. Qed.
Lemma sym_end m d alg bl pass sk iv ty hash salt count s k :
  (forall a hl, hash_lengths a = Some hl -> forall d, zlen (H a d) = hl) -> (forall d, zlen (sha1 d) = 20 /\ wf (sha1 d)) ->
  survives fl rec m d -> wf d ->
  symmetric_cipher_block_lengths alg = Some bl -> alg <> 0 -> In (zlen sk) (cipher_key_sizes alg) -> wf sk -> good_block (E alg sk) bl ->
  new_s2k ty hash alg salt count = Ok s -> to_key H s pass = Ok (Some k) -> good_block (E alg k) bl -> wf iv -> zlen iv = bl ->
  exists e d', symmetric_encrypt E sha1 H fl rec m alg pass sk iv true ty hash alg salt count = Ok (MEncrypted [SKSym alg s (Some e)] (EncData d' true (Some 1))) /\
    get_message E sha1 od H (MEncrypted [SKSym alg s (Some e)] (EncData d' true (Some 1))) (ByPass pass) = Ok m /\
    d' = rfc_seipd (E alg sk) bl sha1 iv (slice_from iv (-2)) d /\ e = rfc_cfb_enc (E alg k) (Z.to_nat bl) (repeat 0 (Z.to_nat bl)) (alg :: sk) /\ wf d' /\ zlen d' = bl + zlen d + 24 /\ wf e /\ zlen e = 1 + zlen sk.
Proof.
  intros HH Hs Sv Wd Hb H0 Hk Wsk HE Hn Ht HE2 Wiv Liv. pose proof (new_s2k_sym _ _ _ _ _ _ Hn) as Sy. pose proof (bs_8_16 alg bl Hb H0) as Hbl.
  pose proof (proj1 Sv) as Ho. destruct (survives_read m d Sv) as (D2 & D3).
  assert (Hskn : sk <> []). { intros ->. change (zlen (@nil Z)) with 0 in Hk. unfold cipher_key_sizes in Hk. repeat match type of Hk with In _ (if ?b then _ else _) => destruct b end; cbn [map zrange In] in Hk; vm_compute in Hk; lia. }
  assert (Ba : byte alg) by (eapply PacketsProofs.bl_byte; eauto).
  destruct (skesk_round H E s alg pass sk bl k HH) as [K1 K2]; try (rewrite ?Sy; assumption). rewrite Sy in K1, K2.
  set (e := rfc_cfb_enc (E alg k) (Z.to_nat bl) (repeat 0 (Z.to_nat bl)) (alg :: sk)) in *.
  destruct (protected_round E od sha1 alg sk bl iv d (Some 1) Hb H0 Hk HE Hs Wiv Liv Wd D2) as (ed & F1 & F2 & F3 & F4 & F5 & F6). destruct ed as [d' ig v]. cbn [ed_integrity ed_version ed_data] in *. subst ig v.
  exists e, d'. split; [|split].
  - unfold symmetric_encrypt. rewrite Hn. cbn [bind]. destruct sk as [|x sk]; [easy|]. rewrite K1. cbn [bind]. rewrite Ho. cbn [bind]. rewrite F1. reflexivity.
  - cbn [get_message get_message_loop algorithm_and_key]. rewrite K2. rewrite F6. exact D3.
  - destruct (seipd_len (E alg sk) bl sha1 iv (slice_from iv (-2)) d ltac:(lia) HE Hs Wiv (last2_wf _ Wiv) Wd Liv (last2_len iv ltac:(lia))) as (L & W & _).
    destruct (rfc_cfb_len (E alg k) bl (repeat 0 (Z.to_nat bl)) (alg :: sk) ltac:(lia) HE2 (wf_zeros _) ltac:(rewrite zlen_repeat; lia) ltac:(constructor; assumption)) as [Le We]. fold e in Le, We.
    split; [exact F4|]. split; [reflexivity|]. split; [exact F5|]. split; [rewrite F4; exact L|]. split; [exact We|]. rewrite Le, zlen_cons. lia.
Qed.
(** the encrypted message survives serialisation *)
Lemma s2k_bytes_len s enc : s2k_ok s -> s2k_bytes fl s = Ok enc -> zlen enc <= 11.
Proof.
  assert (M : forall l b, mk_bytes l = Ok b -> zlen b = zlen l) by (intros l b X; apply mk_bytes_inv in X as [-> _]; reflexivity).
  destruct s as [h a|h a salt|h a salt c|]; cbn [s2k_ok s2k_bytes]; intros Hs X.
  - apply bind_ok in X as (p & X & Y). injection Y as <-. rewrite (M _ _ X). cbn. lia.
  - apply bind_ok in X as (p & X & Y). injection Y as <-. rewrite zlen_app, (M _ _ X). change (zlen [1; h]) with 2. lia.
  - apply bind_ok in X as (p & X & Y). apply bind_ok in Y as (cb & Y & Z). injection Z as <-. rewrite !zlen_app, (M _ _ X). change (zlen [3; h]) with 2.
    unfold int_to_s2k_count in Y. repeat match type of Y with (if ?b then _ else _) = _ => destruct b; try discriminate Y end. cbv zeta in Y. rewrite (M _ _ Y). match goal with |- context [zlen [?x]] => change (zlen [x]) with 1 end. lia.
  - easy.
Qed.
Lemma sym_wire alg s e d' n : byte alg -> s2k_sym s = alg -> s2k_ok s -> wf e -> symmetric_cipher_key_lengths alg = Some n -> zlen e <= n + 1 -> zlen d' < 2 ^ 32 - 1 ->
  exists o ps, message_octets fl rec (MEncrypted [SKSym alg s (Some e)] (EncData d' true (Some 1))) = Ok o /\ parse_binary_packet_data pkt_dec o = (ps, None) /\ open_message ps = Ok (MEncrypted [SKSym alg s (Some e)] (EncData d' true (Some 1))).
Proof.
  intros Ba Sy Os We Hn Le Ld. set (p1 := Pkt NewH (BSkesk (Skesk 4 alg s (Some e)))). set (p2 := Pkt NewH (BData (PSeipd 1 d'))).
  assert (O1 : pkt_ok fl rec p1).
  { unfold p1. split; cbn [p_body body_ok body_content p_fmt].
    - split; [unfold byte; lia|]. split; [auto|]. split; [exact Ba|]. split; [exact Os|]. split; [exact We|]. exists n. auto.
    - intros c Hc. unfold representable, pkt_type. cbn [hfmt ptype pcontent p_body body_type]. split; [lia|].
      unfold skesk_content in Hc. cbn [sk_version sk_sym sk_s2k sk_esk] in Hc. apply bind_ok in Hc as (h & H1 & Hc). apply bind_ok in Hc as (sb & H2 & Hc). apply ok_inj in Hc as <-. apply mk_bytes_inv in H1 as [-> _].
      apply s2k_bytes_len in H2; [|exact Os]. rewrite !zlen_app. change (zlen [4; alg]) with 2.
      assert (n <= 32); [|lia]. unfold symmetric_cipher_key_lengths in Hn. repeat match type of Hn with (if ?b then _ else _) = _ => destruct b end; try discriminate Hn; injection Hn as <-; lia. }
  assert (O2 : pkt_ok fl rec p2).
  { unfold p2. split; cbn [p_body body_ok body_content p_fmt data_ok]; [unfold byte; lia|]. intros c Hc. unfold representable, pkt_type. cbn [hfmt ptype pcontent p_body body_type data_type]. split; [lia|].
    cbn [data_content] in Hc. apply bind_ok in Hc as (x & X & Hc). apply mk_bytes_inv in X as [-> _]. apply ok_inj in Hc as <-. rewrite zlen_app. change (zlen [1]) with 1. change (2 ^ 32) with 4294967296 in Ld. lia. }
  destruct (pkts_round fl rec [p1; p2] Hfl (Forall_cons _ O1 (Forall_cons _ O2 (Forall_nil _)))) as (encs & E1 & E2 & _).
  exists (concat encs), (map as_read [p1; p2]). split; [|split; [exact E2|]].
  - unfold message_octets. change (to_packets None (MEncrypted [SKSym alg s (Some e)] (EncData d' true (Some 1)))) with (Ok [p1; p2]). cbn [bind]. rewrite E1. reflexivity.
  - cbn [map]. unfold p1, p2. cbn [as_read]. apply (open_encrypted [Pkt NewH (BSkesk (Skesk 4 alg s (Some e)))] _ _ _ []); [discriminate|repeat constructor|reflexivity].
Qed.
End End.
