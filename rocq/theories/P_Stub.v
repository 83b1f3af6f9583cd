(** C120: GnuPG's stubs for secret keys that are elsewhere. *)
From Verif Require Import Base BaseProofs Spec SpecUtf8 Utf8Proofs SpecKey SpecS2k SpecCert SpecForeign SpecUnlock SpecStub Utils UtilsProofs HexProofs Text Utf8 S2k S2kProofs SymCipher KeyPackets KeyProofs SessionKeysProofs P_Keys SigPackets SecretV3 KeyLock Unlock Signable KeyOps P_Unlock P_Foreign.

Lemma first_wf n l : wf l -> wf (firstn n l).
Proof. intros W. unfold wf in *. revert n. induction W as [|x l Bx W IH]; intros [|n]; cbn [firstn]; [constructor|constructor|constructor|constructor; [exact Bx|apply IH]]. Qed.
Lemma body_read fl kb k u sym so rest pre spec bl : key_body fl kb k -> u = 254 \/ u = 255 -> symmetric_cipher_block_lengths sym = Some bl -> pre = kb ++ [u; sym] ->
  parse_s2k_bytes sym (pre ++ so ++ rest) (zlen pre) = Ok (spec, zlen (pre ++ so)) ->
  exists p, sec_from_content (kb ++ [u; sym] ++ so ++ rest) = Ok p /\ pub_from_content kb = Ok (s_pub p) /\ s_pub p = k /\ s_s2k p = Some spec /\ s_sym p = sym /\ lk_locked (fresh_key p) = true.
Proof.
  intros K Hu Hb -> P. pose proof K as (ct & alg & ms & mencs & Hct & Hk & Fm & Ekb & _).
  assert (Pub : pub_from_content kb = Ok k) by (exact (proj1 (key_read4 fl (fun _ => []) (fun _ => repeat 0 20) (fun x => conj (proj1 (wfb_spec (repeat 0 20)) eq_refl) eq_refl) kb k K))).
  assert (Ex : rfc_exp_ok 4 None) by (right; split; [lia|reflexivity]).
  eexists. split; [|split; [|split; [|split; [|split]]]].
  - unfold sec_from_content. pose proof (pub_parse 4 ct alg None ms mencs k ([u; sym] ++ so ++ rest) Hct Ex Hk (rfcs_readable _ _ Fm)) as Q. rewrite <- Ekb in Q. rewrite Q. cbn [bind app].
    rewrite get_app_0. cbn [bind]. replace (u =? 0) with false by lia. replace ((u =? 254) || (u =? 255)) with true by lia. replace (u =? 101) with false by lia.
    replace (get (kb ++ u :: sym :: so ++ rest) (zlen kb + 1)) with (@Ok Z sym).
    2:{ symmetry. replace (kb ++ u :: sym :: so ++ rest) with ((kb ++ [u]) ++ sym :: so ++ rest) by now rewrite <- app_assoc. apply get_at. rewrite zlen_app. reflexivity. }
    cbn [bind]. replace (kb ++ u :: sym :: so ++ rest) with ((kb ++ [u; sym]) ++ so ++ rest) by now rewrite <- app_assoc.
    replace (zlen kb + 1 + 1) with (zlen (kb ++ [u; sym])) by (rewrite zlen_app; change (zlen [u; sym]) with 2; lia). rewrite P. cbn [bind orb]. rewrite Hb. reflexivity.
  - exact Pub. - reflexivity. - reflexivity. - reflexivity. - reflexivity.
Qed.
Lemma stub_head sym pre h m rest : parse_s2k_bytes sym (pre ++ [101; h; 71; 78; 85; m] ++ rest) (zlen pre) =
  (if m + 1000 =? 1001 then Ok (GnuPGS2K h (m + 1000) sym None None, zlen pre + 6)
   else if m + 1000 =? 1002 then
     do serial_len <- get (pre ++ [101; h; 71; 78; 85; m] ++ rest) (zlen pre + 6);;
     do serial <- bytearray_to_hex (pre ++ [101; h; 71; 78; 85; m] ++ rest) (zlen pre + 7) (Some serial_len);;
     Ok (GnuPGS2K h (m + 1000) sym (Some serial) (Some serial_len), zlen pre + 7 + serial_len)
   else Err ValueError).
Proof.
  unfold parse_s2k_bytes. cbn [app]. rewrite get_app_0. cbn [bind]. change (101 =? 0) with false. change (101 =? 1) with false. change (101 =? 3) with false. change (101 =? 101) with true. cbv iota zeta. unfold gnupg_from_bytes.
  set (D := pre ++ 101 :: h :: 71 :: 78 :: 85 :: m :: rest).
  assert (G1 : get D (zlen pre + 1) = Ok h) by (unfold D; change (101 :: h :: 71 :: 78 :: 85 :: m :: rest) with ([101] ++ h :: 71 :: 78 :: 85 :: m :: rest); rewrite app_assoc; apply get_at; rewrite zlen_app; reflexivity).
  assert (G2 : get D (zlen pre + 1 + 4) = Ok m) by (unfold D; change (101 :: h :: 71 :: 78 :: 85 :: m :: rest) with ([101; h; 71; 78; 85] ++ m :: rest); rewrite app_assoc; apply get_at; rewrite zlen_app; change (zlen [101; h; 71; 78; 85]) with 5; lia).
  assert (G3 : slice D (zlen pre + 1 + 1) (zlen pre + 1 + 4) = [71; 78; 85]).
  { unfold D. change (101 :: h :: 71 :: 78 :: 85 :: m :: rest) with ([101; h] ++ [71; 78; 85] ++ m :: rest). rewrite app_assoc. replace (zlen pre + 1 + 1) with (zlen (pre ++ [101; h])) by (rewrite zlen_app; change (zlen [101; h]) with 2; lia). apply slice_app'; [reflexivity|]. rewrite zlen_app. change (zlen [101; h]) with 2. change (zlen [71; 78; 85]) with 3. lia. }
  rewrite G1. cbn [bind]. rewrite G3. change (negb (zlist_eqb [71; 78; 85] [71; 78; 85])) with false. cbv iota. rewrite G2. cbn [bind].
  replace (zlen pre + 1 + 5) with (zlen pre + 6) by lia. replace (zlen pre + 6 + 1) with (zlen pre + 7) by lia. reflexivity.
Qed.

(** A stub for an offline key is read as a locked object with the public part that the public packet gives. *)
Theorem c120_offline_read : forall fl kb k sym h rest body bl, key_body fl kb k -> rfc_block_length sym = Some bl -> stub_body kb sym h None rest body ->
  exists p, sec_from_content body = Ok p /\ pub_from_content kb = Ok (s_pub p) /\ s_pub p = k /\ s_s2k p = Some (GnuPGS2K h 1001 sym None None) /\ lk_locked (fresh_key p) = true.
Proof.
  intros fl kb k sym h rest body bl K B (u & so & Hu & So & ->). inversion So as [Bh Eo|]. subst so. rewrite <- block_table in B.
  destruct (body_read fl kb k u sym [101; h; 71; 78; 85; 1] rest (kb ++ [u; sym]) (GnuPGS2K h 1001 sym None None) bl K Hu B eq_refl) as (p & R & P & Ek & S & _ & L).
  - rewrite stub_head. change (1 + 1000 =? 1001) with true. cbv iota. rewrite (zlen_app (kb ++ [u; sym]) [101; h; 71; 78; 85; 1]). reflexivity.
  - exists p. repeat (split; [assumption|]). exact L.
Qed.
Print Assumptions c120_offline_read.

(** A stub for a smartcard with a serial number of evenly many octets is read too; its serial number is the text of the first half of them only. *)
Theorem c120_card_read_partial : forall fl kb k sym h serial rest body bl, key_body fl kb k -> rfc_block_length sym = Some bl -> stub_body kb sym h (Some serial) rest body -> Z.even (zlen serial) = true ->
  exists p, sec_from_content body = Ok p /\ pub_from_content kb = Ok (s_pub p) /\ s_pub p = k /\
    s_s2k p = Some (GnuPGS2K h 1002 sym (Some (hex_text (firstn (Z.to_nat (zlen serial / 2)) serial))) (Some (zlen serial))) /\ lk_locked (fresh_key p) = true.
Proof.
  intros fl kb k sym h serial rest body bl K B (u & so & Hu & So & ->) Ev. inversion So as [|sr Bh W L E1 E2]. subst sr so. rewrite <- block_table in B.
  set (n := Z.to_nat (zlen serial / 2)) in *. assert (Hn : zlen serial = 2 * zlen (firstn n serial)).
  { apply Z.even_spec in Ev as (m & Ev). unfold zlen in *. rewrite firstn_length. unfold n. rewrite Ev. rewrite (Z.mul_comm 2 m), Z.div_mul by lia. lia. }
  destruct (body_read fl kb k u sym ([101; h; 71; 78; 85; 2; zlen serial] ++ serial) rest (kb ++ [u; sym]) (GnuPGS2K h 1002 sym (Some (hex_text (firstn n serial))) (Some (zlen serial))) bl K Hu B eq_refl) as (p & R & P & E & S & _ & Lk).
  - set (pre := kb ++ [u; sym]). change ([101; h; 71; 78; 85; 2; zlen serial] ++ serial) with ([101; h; 71; 78; 85; 2] ++ zlen serial :: serial). rewrite <- (app_assoc [101; h; 71; 78; 85; 2]). rewrite stub_head. change (2 + 1000 =? 1001) with false. change (2 + 1000 =? 1002) with true. cbv iota.
    assert (G : get (pre ++ [101; h; 71; 78; 85; 2] ++ (zlen serial :: serial) ++ rest) (zlen pre + 6) = Ok (zlen serial)) by (cbn [app]; change (101 :: h :: 71 :: 78 :: 85 :: 2 :: zlen serial :: serial ++ rest) with ([101; h; 71; 78; 85; 2] ++ zlen serial :: serial ++ rest); rewrite app_assoc; apply get_at; rewrite zlen_app; reflexivity).
    rewrite G. cbn [bind].
    assert (X : bytearray_to_hex (pre ++ [101; h; 71; 78; 85; 2] ++ (zlen serial :: serial) ++ rest) (zlen pre + 7) (Some (zlen serial)) = Ok (hex_text (firstn n serial))).
    { replace (pre ++ [101; h; 71; 78; 85; 2] ++ (zlen serial :: serial) ++ rest) with ((pre ++ [101; h; 71; 78; 85; 2; zlen serial]) ++ firstn n serial ++ (skipn n serial ++ rest)).
      - replace (zlen pre + 7) with (zlen (pre ++ [101; h; 71; 78; 85; 2; zlen serial])) by (rewrite zlen_app; reflexivity). apply bytearray_to_hex_at; [|exact Hn]. exact (first_wf n serial W).
      - rewrite (app_assoc (firstn n serial)), firstn_skipn. rewrite <- app_assoc. reflexivity. }
    rewrite X. cbn [bind]. change (2 + 1000) with 1002. apply f_equal. apply f_equal. rewrite !zlen_app. change (zlen [101; h; 71; 78; 85; 2]) with 6. change (zlen (zlen serial :: serial)) with (zlen ([zlen serial] ++ serial)). rewrite zlen_app. change (zlen [zlen serial]) with 1. lia.
  - exists p. rewrite <- app_assoc in R. cbn [app] in R |- *. repeat (split; [assumption|]). exact Lk.
Qed.
Print Assumptions c120_card_read_partial.
(** With oddly many octets the packet cannot be read at all. *)
Theorem c120_card_odd_refuted : forall fl kb k sym h serial rest body, key_body fl kb k -> stub_body kb sym h (Some serial) rest body -> Z.odd (zlen serial) = true -> sec_from_content body = Err AssertionError.
Proof.
  intros fl kb k sym h serial rest body K (u & so & Hu & So & ->) Od. inversion So as [|sr Bh W L E1 E2]. subst sr so.
  destruct K as (ct & alg & ms & mencs & Hct & Hk & Fm & Ekb & _). assert (Ex : rfc_exp_ok 4 None) by (right; split; [lia|reflexivity]).
  unfold sec_from_content. pose proof (pub_parse 4 ct alg None ms mencs k ([u; sym] ++ ([101; h; 71; 78; 85; 2; zlen serial] ++ serial) ++ rest) Hct Ex Hk (rfcs_readable _ _ Fm)) as Q. rewrite <- Ekb in Q. rewrite Q. cbn [bind].
  set (R := ([101; h; 71; 78; 85; 2; zlen serial] ++ serial) ++ rest).
  cbn [app]. rewrite get_app_0. cbn [bind]. replace (u =? 0) with false by lia. replace ((u =? 254) || (u =? 255)) with true by lia.
  replace (get (kb ++ u :: sym :: R) (zlen kb + 1)) with (@Ok Z sym).
  2:{ symmetry. replace (kb ++ u :: sym :: R) with ((kb ++ [u]) ++ sym :: R) by now rewrite <- app_assoc. apply get_at. rewrite zlen_app. reflexivity. }
  cbn [bind]. replace (kb ++ u :: sym :: R) with ((kb ++ [u; sym]) ++ R) by now rewrite <- app_assoc.
  replace (zlen kb + 1 + 1) with (zlen (kb ++ [u; sym])) by (rewrite zlen_app; change (zlen [u; sym]) with 2; lia).
  set (pre := kb ++ [u; sym]). subst R. change ([101; h; 71; 78; 85; 2; zlen serial] ++ serial) with ([101; h; 71; 78; 85; 2] ++ zlen serial :: serial). rewrite <- (app_assoc [101; h; 71; 78; 85; 2]). rewrite stub_head. change (2 + 1000 =? 1001) with false. change (2 + 1000 =? 1002) with true. cbv iota.
  assert (G : get (pre ++ [101; h; 71; 78; 85; 2] ++ (zlen serial :: serial) ++ rest) (zlen pre + 6) = Ok (zlen serial)) by (cbn [app]; change (101 :: h :: 71 :: 78 :: 85 :: 2 :: zlen serial :: serial ++ rest) with ([101; h; 71; 78; 85; 2] ++ zlen serial :: serial ++ rest); rewrite app_assoc; apply get_at; rewrite zlen_app; reflexivity).
  rewrite G. cbn [bind]. unfold bytearray_to_hex. assert (M : negb (zlen serial mod 2 =? 0) = true) by (rewrite Zmod_odd, Od; reflexivity). rewrite M. reflexivity.
Qed.
Print Assumptions c120_card_odd_refuted.
(** So no card's serial number is told: a text of [n] characters stands for [n / 2] octets. *)
Theorem c120_card_serial_refuted : forall fl kb k sym h serial rest body bl p s, key_body fl kb k -> rfc_block_length sym = Some bl -> stub_body kb sym h (Some serial) rest body -> serial <> [] ->
  sec_from_content body = Ok p -> s_s2k p = Some s -> forall h' m sym' n, s <> GnuPGS2K h' m sym' (Some (hex_text serial)) n.
Proof.
  intros fl kb k sym h serial rest body bl p s K B S Ne R E h' m sym' n Q. destruct (Z.even (zlen serial)) eqn:Ev.
  - destruct (c120_card_read_partial fl kb k sym h serial rest body bl K B S Ev) as (p' & R' & _ & _ & E' & _). rewrite R in R'. apply ok_inj in R'. subst p'. rewrite E in E'. injection E' as E'. rewrite Q in E'. injection E' as _ _ _ T _.
    apply (f_equal (@length Z)) in T. assert (HL : forall l, length (hex_text l) = (2 * length l)%nat) by (intros l; induction l as [|x l IH]; [reflexivity|]; cbn [hex_text flat_map app length] in *; unfold hex_text in IH; lia).
    rewrite !HL, firstn_length in T. assert (0 < zlen serial) by (destruct serial; [contradiction|]; unfold zlen; cbn [length]; lia). unfold zlen in *. assert (Z.of_nat (length serial) / 2 < Z.of_nat (length serial)) by (apply Z.div_lt; lia). lia.
  - assert (Od : Z.odd (zlen serial) = true) by (rewrite <- Z.negb_even, Ev; reflexivity). rewrite (c120_card_odd_refuted fl kb k sym h serial rest body K S Od) in R. discriminate R.
Qed.
Print Assumptions c120_card_serial_refuted.
(** No passphrase opens a stub: unlock raises and leaves the object as it was, locked. *)
Theorem c120_never_opens : forall E H sha1 p h m sym sn n pass, s_s2k p = Some (GnuPGS2K h m sym sn n) ->
  exists e, unlock_key E H sha1 p pass (fresh_key p) = (fresh_key p, Some e) /\ lk_locked (fresh_key p) = true.
Proof.
  intros E H sha1 p h m sym sn n pass S. assert (X : exists e, unlock_values E H sha1 p pass = Err e).
  { unfold unlock_values. rewrite S. destruct (utf8_encode pass) as [b|e]; [|exists e; reflexivity]. cbn [bind to_key]. unfold decrypt_portion.
    assert (C : exists e, get_cfb_cipher (s_sym p) None (s_iv p) = Err e) by (unfold get_cfb_cipher; destruct (symmetric_cipher_block_lengths (s_sym p)); [destruct (s_sym p =? 0)|]; eexists; reflexivity). destruct C as (e & C).
    destruct (4 <=? k_version (s_pub p)); [exists e; unfold decrypt_portion_v4; rewrite C; reflexivity|]. destruct ((k_version (s_pub p) =? 2) || (k_version (s_pub p) =? 3)); [exists e; unfold decrypt_portion_v3; rewrite C; reflexivity|]. exists ValueError. reflexivity. }
  destruct X as (e & X). exists e. split; [unfold unlock_key; rewrite X; reflexivity|reflexivity].
Qed.
Print Assumptions c120_never_opens.
(** And it signs nothing. *)
Theorem c120_never_signs : forall fl E H sha1 p h m sym sn n pass, s_s2k p = Some (GnuPGS2K h m sym sn n) ->
  forall md5 sha1k oid inv sec nonce now i raw st ha given, sign fl md5 sha1k H oid inv (lk_locked (fst (unlock_key E H sha1 p pass (fresh_key p)))) (s_pub p) sec nonce now i raw 4 st ha given = Err RuntimeError.
Proof. intros fl E H sha1 p h m sym sn n pass S md5 sha1k oid inv sec nonce now i raw st ha given. destruct (c120_never_opens E H sha1 p h m sym sn n pass S) as (e & X & L). rewrite X. cbn [fst]. rewrite L. reflexivity. Qed.
Print Assumptions c120_never_signs.
(** A certificate whose primary key is a stub (gpg --export-secret-subkeys): unlock with the passphrase of the subkeys raises and opens none of them, although each opens alone. *)
Theorem c120_subkeys_refuted : forall fl E H sha1, primitives E H sha1 -> forall p h m sym sn n pass parts, s_s2k p = Some (GnuPGS2K h m sym sn n) -> Forall scalar pass -> Forall (protected_part fl E H sha1 pass) parts ->
  exists ps e, Forall2 (fun x p => sec_from_content (snd x) = Ok p) parts ps /\
    unlock_keys E H sha1 pass (p :: ps) (map fresh_key (p :: ps)) = (map fresh_key (p :: ps), Some e) /\ forallb lk_locked (map fresh_key (p :: ps)) = true /\
    Forall (fun q => exists lk, unlock_key E H sha1 q pass (fresh_key q) = (lk, None) /\ lk_locked lk = false) ps.
Proof.
  intros fl E H sha1 Pr p h m sym sn n pass parts S Sc F. destruct (c120_never_opens E H sha1 p h m sym sn n pass S) as (e & X & L).
  assert (Q : exists ps, Forall2 (fun x p => sec_from_content (snd x) = Ok p) parts ps /\ forallb lk_locked (map fresh_key ps) = true /\ Forall (fun q => exists lk, unlock_key E H sha1 q pass (fresh_key q) = (lk, None) /\ lk_locked lk = false) ps).
  { clear S X L. induction F as [|[[[kb k] [[s numbers] lk]] body] parts (K & Ro & N0 & N10 & P & Hl & Hp) _ (ps & R & L & U)]; [exists []; repeat (split; [constructor|]); constructor|].
    destruct (c119_unlock_partial fl E H sha1 Pr k kb s pass numbers body K Sc Ro N0 N10 P) as (q & Rd & _ & _ & Lq & _ & Un). exists (q :: ps). split; [constructor; assumption|]. split; [cbn [map forallb]; rewrite Lq; exact L|]. constructor; [|exact U].
    exists lk. split; [exact (Un lk Hl Hp)|]. inversion Hl; reflexivity. }
  destruct Q as (ps & R & Lk & U). exists ps, e. split; [exact R|]. split; [cbn [map unlock_keys]; rewrite X; reflexivity|]. split; [cbn [map forallb]; rewrite L; exact Lk|exact U].
Qed.
Print Assumptions c120_subkeys_refuted.

(** ** used *)
Example c120_used : exists p q r, sec_from_content (f_kb ++ [255; 0; 101; 0; 71; 78; 85; 1]) = Ok p /\ s_s2k p = Some (GnuPGS2K 0 1001 0 None None) /\ pub_from_content f_kb = Ok (s_pub p) /\
  sec_from_content (f_kb ++ [254; 7; 101; 2; 71; 78; 85; 2; 4; 18; 52; 86; 120]) = Ok q /\ s_s2k q = Some (GnuPGS2K 2 1002 7 (Some [49; 50; 51; 52]) (Some 4)) /\
  sec_from_content (f_kb ++ [254; 7; 101; 2; 71; 78; 85; 2; 3; 18; 52; 86]) = Err AssertionError /\
  sec_from_content u_body = Ok r /\ unlock_keys u_E u_H u_sha1 u_pass [p; r] [fresh_key p; fresh_key r] = ([fresh_key p; fresh_key r], Some AttributeError) /\
  unlock_keys u_E u_H u_sha1 u_pass [r; p] [fresh_key r; fresh_key p] = ([u_open; fresh_key p], Some AttributeError).
Proof.
  do 3 eexists. split; [vm_compute; reflexivity|]. split; [reflexivity|]. split; [vm_compute; reflexivity|]. split; [vm_compute; reflexivity|]. split; [reflexivity|]. split; [vm_compute; reflexivity|]. split; [vm_compute; reflexivity|]. split; vm_compute; reflexivity.
Qed.
