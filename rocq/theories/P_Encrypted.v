(** C121: encrypted messages of other programs, from their octets. *)
From Verif Require Import Base BaseProofs Spec SpecUtf8 Utf8Proofs KeyLock Unlock SpecKey SpecS2k SpecCfb SpecMessage SpecFraming SpecCert SpecVerify SpecForeign SpecUnlock SpecKeyCrypt SpecEncrypted Utils UtilsProofs Text Utf8 Framing FramingProofs S2k CodecProofs S2kProofs SymCipher CfbProofs SessionKeys SessionKeysProofs KeyPackets KeyProofs SigPackets DataPackets Packets Message MsgEncProofs P_Message P_Session Shortcuts ShortProofs Signable KeyOps KeyCrypt PubMsg P_Grip P_Mail VerifyProofs P_Cert P_Foreign P_Unlock DemoRsa.
Require Import Znumtheory Zpow_facts.

(** ** the session key, from its packet *)
Lemma block_opens size alg sk em : padded_block size alg sk em -> byte alg -> wf sk ->
  pkcs1_unpad em = Some (alg :: sk ++ be_bytes 2 (zsum sk mod 65536)) /\ read_session_block (alg :: sk ++ be_bytes 2 (zsum sk mod 65536)) = Ok (alg, sk) /\ wf em /\ zlen em = size /\ 11 < size /\ 0 < be_val em < 256 ^ (size - 1).
Proof.
  intros (ps & E & W & N & L & Z) Ba Ws. destruct (c24_block alg sk Ba Ws) as (b & Hb & Wb & Rb). assert (Eb : b = alg :: sk ++ be_bytes 2 (zsum sk mod 65536)) by (rewrite session_block_ok in Hb by easy; congruence). subst b.
  set (B := alg :: sk ++ be_bytes 2 (zsum sk mod 65536)) in *. assert (Em : em = [0; 2] ++ ps ++ [0] ++ B) by exact E. clearbody B.
  split; [rewrite Em; apply pkcs1_unpad_ok; assumption|]. split; [exact Rb|].
  assert (We : wf em). { rewrite Em. apply wf_app. split; [apply wfb_spec; reflexivity|]. apply wf_app. split; [exact W|]. apply wf_app. split; [apply wfb_spec; reflexivity|exact Wb]. }
  split; [exact We|]. split; [exact Z|]. assert (Hn : 0 <= zlen B) by apply zlen_nonneg. assert (NB : B <> []) by (intros ->; discriminate Rb). assert (0 < zlen B) by (destruct B; [contradiction|rewrite zlen_cons; pose proof (zlen_nonneg B); lia]).
  assert (Sz : 11 < size). { rewrite <- Z, Em. rewrite !zlen_app. change (zlen [0; 2]) with 2. change (zlen [0]) with 1. lia. }
  split; [exact Sz|]. assert (Et : em = 0 :: 2 :: ps ++ [0] ++ B) by exact Em. rewrite Et. rewrite !be_val_cons. set (T := ps ++ [0] ++ B) in *. assert (Wt : wf T) by (rewrite Et in We; exact (Forall_inv_tail (Forall_inv_tail We))).
  assert (Lt : zlen T = size - 2) by (rewrite Et in Z; rewrite !zlen_cons in Z; lia). pose proof (be_val_nonneg T Wt) as Bt. rewrite zlen_cons, Lt. rewrite Lt in Bt. clear -Bt Sz.
  replace (256 ^ (size - 1)) with (256 * 256 ^ (size - 2)) by (rewrite <- Z.pow_succ_r by lia; f_equal; lia). assert (0 < 256 ^ (size - 2)) by (apply Z.pow_pos_nonneg; lia). nia.
Qed.
Lemma mpi_cut i enc : rfc_mpi i enc -> 0 < i -> exists body, mpi_shape enc body /\ wf body /\ be_val body = i /\ (forall k, zlen body = k <-> octets_of i k).
Proof.
  intros (l & body & -> & L & V & Ln & B & W) Hi. exists body. assert (Wb : wf body) by (apply wf_app in W; apply W). unfold bit_length in *. replace (i =? 0) with false in * by lia. pose proof (Z.log2_nonneg i).
  split; [|split; [exact Wb|split; [exact B|]]].
  - constructor; [exact L|rewrite V, Ln; reflexivity|]. intros ->. change (zlen (@nil Z)) with 0 in Ln. lia.
  - intros k. assert (Oc : octets_of i (zlen body)). { rewrite Ln. change ((Z.log2 i + 1 + 7) / 8) with (nbytes i). apply nbytes_octets. exact Hi. }
    split; [intros <-; exact Oc|]. intros O. exact (octets_unique _ _ _ Oc O).
Qed.
Lemma zero_mpi enc : rfc_mpi 0 enc -> enc = [0; 0].
Proof.
  intros (l & body & -> & L & V & Ln & B & W). unfold bit_length in *. cbn in V, Ln. destruct body as [|x body]; [|rewrite zlen_cons in Ln; pose proof (zlen_nonneg body); lia]. rewrite app_nil_r in *.
  assert (l = [0; 0]); [|assumption]. apply be_val_inj; [exact W|apply wfb_spec; reflexivity|rewrite L; reflexivity|rewrite V; reflexivity].
Qed.

(** What an RSA key makes of a session key packet: the integer must fill the modulus, and is then raised to the secret exponent. *)
Lemma rsa_opens inv od k n e d size c enc pka : rsa_pair k n e d -> octets_of n size -> 0 <= c < n -> rfc_mpi c enc -> In pka [1; 2; 3] ->
  (octets_of c size -> forall em, wf em -> zlen em = size -> be_val em = c ^ d mod n ->
     get_key_and_cipher_algo (key_decrypt inv od k (SRsa d) pka) pka enc = match pkcs1_unpad em with Some m => read_session_block m | None => Err ValueError end) /\
  (~ octets_of c size -> get_key_and_cipher_algo (key_decrypt inv od k (SRsa d) pka) pka enc = Err ValueError).
Proof.
  intros (A1 & A2 & A3 & A4 & A5 & A6 & A7) On Hc M Pk. assert (Es : nbytes n = size) by (apply (octets_unique n); [apply nbytes_octets; lia|exact On]).
  assert (Dk : key_decrypt inv od k (SRsa d) pka = rsa_decrypt size (fun c => Zpow_mod c d n)).
  { unfold key_decrypt. replace ((pka =? 1) || (pka =? 2) || (pka =? 3)) with true by (cbn [In] in Pk; lia). rewrite A2, Es. reflexivity. }
  rewrite Dk. unfold get_key_and_cipher_algo. assert (N1 : pka <> 17 /\ pka <> 19) by (cbn [In] in Pk; lia). destruct N1 as [N1 N2]. rewrite (proj2 (Z.eqb_neq _ _) N1), (proj2 (Z.eqb_neq _ _) N2). cbn [orb].
  destruct (Z.eq_dec c 0) as [->|N0].
  { rewrite (zero_mpi enc M). split; [|reflexivity]. intros [[O1 O2] O3]. exfalso. assert (0 < 256 ^ (size - 1)) by (apply Z.pow_pos_nonneg; lia). lia. }
  destruct (mpi_cut c enc M ltac:(lia)) as (body & Sh & Wb & Vb & Ob). pose proof (read_ems_ok [enc] [body] (Forall2_cons _ _ Sh (Forall2_nil _)) (length enc) [] []) as R. cbn [concat] in R. rewrite app_nil_r in R. cbn [app] in R. change (zlen (@nil Z)) with 0 in R. rewrite R by (destruct Sh as [l b Ll _ _]; rewrite app_length; unfold zlen in Ll; cbn [length]; lia).
  cbn [bind]. split.
  - intros Oc em We Le Ve. unfold rsa_decrypt. rewrite (proj2 (Ob size) Oc), Z.eqb_refl. cbn [negb bind]. rewrite os2ip_be, Vb, Zpow_mod_correct by lia. rewrite <- Ve, left_pad_ok by (assumption || apply On). reflexivity.
  - intros Oc. unfold rsa_decrypt. destruct (zlen body =? size) eqn:Q; [exfalso; apply Oc, Ob; lia|]. reflexivity.
Qed.
Lemma long_app {A} (a b : list A) : (2 <= length a)%nat -> a ++ b <> [].
Proof. destruct a; [cbn [length]; lia|discriminate]. Qed.
Lemma shape_long e b : mpi_shape e b -> (2 <= length e)%nat.
Proof. intros [l c L _ _]. rewrite app_length. unfold zlen in L. lia. Qed.
(** An ElGamal key, whatever random exponent the sender took. *)
Lemma elgamal_opens inv od k p g y x size alg sk body : elgamal_pair inv k p g y x -> octets_of p size -> byte alg -> wf sk -> elgamal_packet p g y size alg sk body ->
  exists kid enc, body = 3 :: kid ++ 16 :: enc /\ wf kid /\ zlen kid = 8 /\ enc <> [] /\ get_key_and_cipher_algo (key_decrypt inv od k (SElg x) 16) 16 enc = Ok (alg, sk).
Proof.
  intros (A1 & A2 & A3 & A4 & P & G & X & Ey & Inv) On Ba Ws (kid & em & r & enc1 & enc2 & Wk & Lk & R & Pb & M1 & M2 & ->). exists kid, (enc1 ++ enc2). split; [reflexivity|]. split; [exact Wk|]. split; [exact Lk|].
  destruct (block_opens size alg sk em Pb Ba Ws) as (U & Rb & We & Le & Sz & Bv). pose proof G as P2.
  assert (Es : (Z.log2 p + 1 + 7) / 8 = size) by (apply (octets_unique p); [change (octets_of p (nbytes p)); apply nbytes_octets; lia|exact On]).
  assert (Nm : forall a, rel_prime a p -> 0 < a mod p < p). { clear - P2. intros a Na. pose proof (Z.mod_pos_bound a p ltac:(lia)). assert (a mod p <> 0); [|lia]. intros Z0. apply Z.mod_divide in Z0; [|lia]. apply Zgcd_1_rel_prime in Na. pose proof (Z.gcd_greatest _ _ _ Z0 (Z.divide_refl p)) as D. rewrite Na in D. apply Z.divide_pos_le in D; lia. }
  assert (Ng : forall m, 0 <= m -> rel_prime (g ^ m) p) by (intros m Hm; apply rel_prime_sym; apply rel_prime_Zpower_r; [exact Hm|]; apply rel_prime_sym; apply Zgcd_1_rel_prime; exact P).
  assert (Yr : y ^ r mod p = g ^ (x * r) mod p). { assert (Pp : 0 < p) by (clear - P2; lia). rewrite Ey, <- Zpower_mod by exact Pp. rewrite <- Z.pow_mul_r by assumption. reflexivity. } assert (Pp : 0 < p) by (clear - P2; lia). assert (Xr : 0 <= x * r) by (clear - X R; nia). assert (Rx : 0 <= r * x) by (clear - X R; nia). assert (Pn : p <> 0) by (clear - Pp; lia).
  assert (Emp : 0 < be_val em < p) by (split; [apply Bv|exact (Z.lt_le_trans _ _ _ (proj2 Bv) (proj1 (proj1 On)))]). set (m := be_val em) in *.
  assert (B1 : 0 < g ^ r mod p < p) by (apply Nm, Ng; exact R).
  assert (B2 : 0 < m * y ^ r mod p < p). { pose proof (Z.mod_pos_bound (m * y ^ r) p Pp) as [Q1 Q2]. split; [|exact Q2]. apply Z.le_neq. split; [exact Q1|]. intros Q. symmetry in Q. rewrite <- Z.mul_mod_idemp_r, Yr, Z.mul_mod_idemp_r in Q by exact Pn.
    apply Z.mod_divide in Q; [|exact Pn]. rewrite Z.mul_comm in Q. apply Gauss in Q; [|apply rel_prime_sym, Ng; exact Xr]. apply Z.divide_pos_le in Q; [|apply Emp]. exact (Z.lt_irrefl _ (Z.lt_le_trans _ _ _ (proj2 Emp) Q)). }
  destruct (mpi_cut _ enc1 M1 (proj1 B1)) as (b1 & Sh1 & W1 & V1 & _). destruct (mpi_cut _ enc2 M2 (proj1 B2)) as (b2 & Sh2 & W2 & V2 & _).
  assert (L1 : (2 <= length enc1)%nat) by exact (shape_long _ _ Sh1).
  split; [exact (long_app enc1 enc2 L1)|].
  pose proof (read_ems_ok [enc1; enc2] [b1; b2] (Forall2_cons _ _ Sh1 (Forall2_cons _ _ Sh2 (Forall2_nil _))) (length (enc1 ++ enc2)) [] []) as Re. cbn [concat] in Re. rewrite app_nil_r in Re. cbn [app] in Re. change (zlen (@nil Z)) with 0 in Re.
  unfold get_key_and_cipher_algo. rewrite Re by (rewrite app_length; exact (Nat.le_trans _ _ _ L1 (Nat.le_add_r _ _))). cbn [bind].
  change (key_decrypt inv od k (SElg x) 16) with (match k_p k, k_g k, k_y k with Some p, Some g, Some y => elg_decrypt (ElgPub p g y) (fun c => (snd c * inv (Zpow_mod (fst c) x p) p) mod p) | _, _, _ => fun _ => Err AttributeError end).
  rewrite A2, A3, A4. cbn [elg_decrypt]. unfold elg_k. cbn [elg_p fst snd]. rewrite Es, !os2ip_be, V1, V2.
  rewrite Zpow_mod_correct by exact Pn. rewrite <- Zpower_mod by exact Pp. rewrite <- Z.pow_mul_r by assumption.
  assert (Dm : (m * y ^ r) mod p * inv (g ^ (r * x) mod p) p mod p = m).
  { specialize (Inv (g ^ (r * x) mod p) (Nm _ (Ng (r * x) Rx)) (proj2 (Zgcd_1_rel_prime _ _) (rel_prime_mod _ _ Pp (Ng (r * x) Rx)))). set (v := inv (g ^ (r * x) mod p) p) in *. clearbody v.
    rewrite Z.mul_mod_idemp_l by exact Pn. replace (m * y ^ r * v) with (m * (v * y ^ r)) by ring. rewrite <- Z.mul_mod_idemp_r by exact Pn. rewrite <- (Z.mul_mod_idemp_r v) by exact Pn. rewrite Yr. rewrite (Z.mul_comm x r). rewrite Inv. rewrite Z.mul_1_r. apply Z.mod_small. split; [apply Z.lt_le_incl|]; apply Emp. }
  rewrite Dm. unfold m. rewrite left_pad_ok by (assumption || apply On). rewrite U. cbn [bind Z.eqb Pos.eqb orb]. exact Rb.
Qed.
Lemma find_zero_split t : forall i, 0 <= i -> find_zero t i <> -1 -> exists a b, t = a ++ 0 :: b /\ Forall (fun x => x <> 0) a /\ find_zero t i = i + zlen a.
Proof.
  induction t as [|x t IH]; intros i Hi F; cbn [find_zero] in *; [contradiction|]. destruct (x =? 0) eqn:Q.
  - exists [], t. assert (x = 0) by lia. subst x. split; [reflexivity|]. split; [constructor|]. change (zlen (@nil Z)) with 0. lia.
  - destruct (IH (i + 1) ltac:(lia) F) as (a & b & -> & N & G). exists (x :: a), b. split; [reflexivity|]. split; [constructor; [lia|exact N]|]. rewrite G, zlen_cons. lia.
Qed.
Lemma unpad_inv em m : pkcs1_unpad em = Some m -> exists ps, em = [0; 2] ++ ps ++ [0] ++ m /\ Forall (fun x => x <> 0) ps /\ 8 <= zlen ps.
Proof.
  unfold pkcs1_unpad. destruct em as [|a [|b t]].
  - cbn. discriminate.
  - destruct (negb _); cbn; discriminate.
  - assert (Sl : slice (a :: b :: t) 0 2 = [a; b]) by (change (a :: b :: t) with ([] ++ [a; b] ++ t); apply slice_app'; reflexivity). rewrite Sl.
    destruct (zlist_eqb [a; b] [0; 2]) eqn:Q; cbn [negb orb]; [|discriminate]. apply zlist_eqb_spec in Q. injection Q as -> ->. destruct (find_zero t 2 <? 10) eqn:F; [discriminate|].
    destruct (find_zero_split t 2 ltac:(lia) ltac:(lia)) as (ps & rest & -> & N & G). intros [= <-]. exists ps. rewrite G in *.
    assert (Sf : slice_from (0 :: 2 :: ps ++ 0 :: rest) (2 + zlen ps + 1) = rest).
    { replace (0 :: 2 :: ps ++ 0 :: rest) with (([0; 2] ++ ps ++ [0]) ++ rest) by (now rewrite <- !app_assoc).
      replace (2 + zlen ps + 1) with (zlen ([0; 2] ++ ps ++ [0])) by (rewrite !zlen_app; change (zlen [0; 2]) with 2; change (zlen [0]) with 1; lia). apply slice_from_app. }
    rewrite Sf. split; [reflexivity|]. split; [exact N|lia].
Qed.
Lemma no_padding_none em size : no_padding size (be_val em) -> wf em -> zlen em = size -> pkcs1_unpad em = None.
Proof. intros N W L. destruct (pkcs1_unpad em) as [m|] eqn:U; [|reflexivity]. exfalso. apply unpad_inv in U as (ps & -> & Z & Le). exact (N ps m W Z Le L eq_refl). Qed.

(** ** the message from its octets *)
(** the object of a session key packet *)
Inductive object_of : Z * bytes -> skey -> Prop :=
| oo_pub fmt v kid a e : wf kid -> zlen kid = 8 -> object_of (1, v :: kid ++ a :: e) (SKPub fmt v a (Some (hex_text kid)) (match e with [] => None | _ => Some e end))
| oo_sym body p : skesk_from_content body = Ok p -> object_of (3, body) (SKSym (sk_sym p) (sk_s2k p) (sk_esk p)).
Definition readable_esk (x : Z * bytes) : Prop := exists k, object_of x k.
Lemma key_length_known a n : rfc_key_length a = Some n -> exists m, symmetric_cipher_key_lengths a = Some m.
Proof. intros K. destruct (Z.eq_dec a 10) as [->|N]; [exists 16; reflexivity|]. exists n. rewrite c23_table by exact N. exact K. Qed.
Lemma any_passphrase v s sb n esk : s2k_octets s sb -> rfc_key_length (s2k_sym s) = Some n -> exists p, skesk_from_content ([v; s2k_sym s] ++ sb ++ esk) = Ok p.
Proof.
  intros So K. destruct (s2k_laid s sb So) as [O B]. destruct (key_length_known _ _ K) as [m Km].
  destruct (c21_round Z.log2 s [v; s2k_sym s] esk (fun i _ => eq_refl) O) as (enc & E1 & _ & E3). rewrite B in E1. apply ok_inj in E1. subst enc.
  change (zlen [v; s2k_sym s]) with 2 in E3. unfold skesk_from_content. set (d := [v; s2k_sym s] ++ sb ++ esk) in *.
  assert (G0 : get d 0 = Ok v) by exact (get_app_l [v; s2k_sym s] (sb ++ esk) 0 v ltac:(lia) eq_refl). assert (G1 : get d 1 = Ok (s2k_sym s)) by exact (get_app_l [v; s2k_sym s] (sb ++ esk) 1 _ ltac:(lia) eq_refl). rewrite G0, G1. cbn [bind]. rewrite E3. cbn [bind]. rewrite Km. eexists. reflexivity.
Qed.
Lemma other_readable x : other_packet x -> readable_esk x.
Proof. intros [[T (v & kid & a & e & B & W & L)]|[T (v & s & sb & n & esk & B & So & K)]]; [|destruct (any_passphrase v s sb n esk So K) as [p P]; rewrite <- B in P]; destruct x as [t b]; cbn [fst snd] in *; subst; [exists (SKPub NewH v a (Some (hex_text kid)) (match e with [] => None | _ => Some e end))|exists (SKSym (sk_sym p) (sk_s2k p) (sk_esk p))]; constructor; assumption. Qed.
Lemma esks_decoded esks : Forall readable_esk esks -> forall rs, map (fun r => (ptype r, pcontent r)) rs = esks -> exists ps ks, Forall2 (fun r p => pkt_dec r = Ok p) rs ps /\ Forall2 object_of esks ks /\
  Forall2 (fun p k => is_esk_type (pkt_type p) = true /\ session_key_of p = Ok k) ps ks.
Proof.
  induction 1 as [|x esks (k & O) _ IH]; intros rs E.
  - destruct rs; [|discriminate E]. exists [], []. repeat constructor.
  - destruct rs as [|r rs]; [discriminate E|]. cbn [map] in E. injection E as E1 E2. destruct (IH rs E2) as (ps & ks & A & B & C). destruct r as [f t c]. cbn [ptype pcontent] in E1. subst x. inversion O as [fmt v kid a e W L Eq Ek|body p P Eq Ek]; subst.
    + exists (Pkt f (BPkesk (Pkesk v (Some (hex_text kid)) a e)) :: ps), (SKPub f v a (Some (hex_text kid)) (match e with [] => None | _ => Some e end) :: ks). split; [|split].
      * constructor; [|exact A]. unfold pkt_dec. cbn [ptype pcontent hfmt]. unfold body_dec. change (1 =? 1) with true. cbv iota. rewrite pkesk_from by assumption. reflexivity.
      * constructor; [constructor; assumption|exact B].
      * constructor; [|exact C]. split; [reflexivity|destruct e; reflexivity].
    + exists (Pkt f (BSkesk p) :: ps), (SKSym (sk_sym p) (sk_s2k p) (sk_esk p) :: ks). split; [|split].
      * constructor; [|exact A]. unfold pkt_dec. cbn [ptype pcontent hfmt]. unfold body_dec. change (3 =? 1) with false. change (3 =? 2) with false. change (3 =? 3) with true. cbv iota. rewrite P. reflexivity.
      * constructor; [constructor; assumption|exact B].
      * constructor; [|exact C]. split; reflexivity.
Qed.
Lemma esk_loop_all ps ks q : Forall2 (fun p k => is_esk_type (pkt_type p) = true /\ session_key_of p = Ok k) ps ks -> is_esk_type (pkt_type q) = false ->
  forall acc, match ps ++ [q] with p :: rest => esk_loop acc p rest | [] => Err IndexError end = Ok (acc ++ ks, q).
Proof.
  intros F Q. induction F as [|p k ps ks [T K] F IH]; intros acc.
  - cbn [app esk_loop]. rewrite Q, app_nil_r. reflexivity.
  - cbn [app]. specialize (IH (acc ++ [k])). destruct (ps ++ [q]) as [|p2 rest] eqn:Eq; [destruct ps; discriminate Eq|]. cbn [esk_loop]. rewrite T, K. cbn [bind]. rewrite IH, <- app_assoc. reflexivity.
Qed.
Lemma encrypted_read E sha1 esks alg sk iv inner octets : encrypted_octets E sha1 esks alg sk iv inner octets -> Forall readable_esk esks -> esks <> [] ->
  exists ks d bl, read_message (InBytes octets) false = Ok (MEncrypted ks (EncData d true (Some 1))) /\ Forall2 object_of esks ks /\
    rfc_block_length alg = Some bl /\ zlen iv = bl /\ wf iv /\ d = rfc_seipd (E alg sk) bl sha1 iv (skipn (length iv - 2) iv) inner.
Proof.
  intros (rs & bl & R & B & L & Wi & M) F N. destruct M as [Wm Em]. remember (rfc_seipd (E alg sk) bl sha1 iv (skipn (length iv - 2) iv) inner) as d eqn:Ed.
  apply map_eq_app in Em as (r1 & r2 & -> & E1 & E2). destruct r2 as [|last [|? ?]]; try discriminate E2. cbn [map] in E2. injection E2 as T C.
  destruct (esks_decoded esks F r1 E1) as (ps & ks & D1 & D2 & D3). set (q := Pkt (hfmt last) (BData (PSeipd 1 d))).
  assert (Dq : pkt_dec last = Ok q). { unfold pkt_dec. rewrite T, C. unfold body_dec. cbn [Z.eqb Pos.eqb]. unfold data_from. cbn [Z.eqb Pos.eqb]. unfold seipd_from. rewrite get_cons_0. cbn [bind]. change (1 :: d) with ([1] ++ d). change 1 with (zlen [1]) at 2. rewrite slice_from_app. reflexivity. }
  exists ks, d, bl. split; [|split; [exact D2|split; [exact B|split; [exact L|split; [exact Wi|exact Ed]]]]].
  assert (Ne : r1 ++ [last] <> []) by (destruct r1; discriminate). unfold read_message. rewrite (proj2 (wire_packets _ _ (ps ++ [q]) R Ne)) by (apply Forall2_app; [exact D1|repeat constructor; exact Dq]). cbn [bind].
  pose proof (esk_loop_all ps ks q D3 eq_refl []) as El. destruct ps as [|p ps]; [inversion D3; subst ks; exfalso; apply N; clear -D2; inversion D2; reflexivity|]. inversion D3 as [|p0 k ps0 ks0 [Tp Kp] D3' Q1 Q2]; subst p0 ps0 ks. rename ks0 into ks. cbn [app] in *. unfold open_message.
  assert (Op : open_plain p (ps ++ [q]) = Ok (MEncrypted (k :: ks) (EncData d true (Some 1)))).
  { unfold open_plain. rewrite Tp, orb_true_r. unfold encrypted_from. assert (En : is_enc_type (pkt_type p) = false) by (unfold is_esk_type, is_enc_type in *; lia). rewrite En, El. cbn [bind]. reflexivity. }
  destruct (p_body p) eqn:Pb; try exact Op; exfalso; unfold pkt_type in Tp; rewrite Pb in Tp; discriminate Tp.
Qed.

Section Encrypted.
Variables (E : Z -> bytes -> bytes -> bytes) (H : Z -> bytes -> bytes) (sha1 : bytes -> bytes) (od : Z -> option bytes -> bytes -> bytes -> res bytes) (inv : Z -> Z -> Z) (oelg : pubkey -> Z -> list bytes -> res (option bytes)).
Hypothesis Pr : primitives E H sha1.

Lemma session_key_size alg sk bl : rfc_key_length alg = Some (zlen sk) -> rfc_block_length alg = Some bl -> alg <> 0 -> In (zlen sk) (cipher_key_sizes alg) /\ symmetric_cipher_block_lengths alg = Some bl /\ byte alg /\ good_block (E alg sk) bl.
Proof.
  destruct Pr as (_ & _ & Bl). intros K B N. assert (Ba : byte alg). { unfold byte. destruct alg as [|p|p]; [lia| |discriminate K]. do 4 (destruct p as [p|p|]; try discriminate K; try lia). }
  split; [|split; [rewrite block_table; exact B|split; [exact Ba|]]].
  - destruct (Z.eq_dec alg 10) as [->|T]; [injection K as K; rewrite <- K; vm_compute; tauto|]. exact (proj2 (key_size _ _ _ N T K B)).
  - intros x W L. destruct (Bl alg sk bl x B L W) as [X1 X2]. split; [exact X2|exact X1].
Qed.
Lemma last_two (iv : bytes) bl alg : rfc_block_length alg = Some bl -> alg <> 0 -> zlen iv = bl -> slice_from iv (-2) = skipn (length iv - 2) iv.
Proof.
  intros B N L. assert (8 <= bl). { destruct alg as [|p|p]; [contradiction| |discriminate B]. do 4 (destruct p as [p|p|]; try discriminate B; try (injection B as <-; lia)). }
  unfold slice_from, clip. unfold zlen in *. replace (-2 <? 0) with true by reflexivity. f_equal. lia.
Qed.
Lemma data_opens alg sk bl iv ps inner : rfc_key_length alg = Some (zlen sk) -> rfc_block_length alg = Some bl -> alg <> 0 -> zlen iv = bl -> wf iv -> wf inner -> rfc_packets ps inner -> ps <> [] ->
  decrypt_data E sha1 od (EncData (rfc_seipd (E alg sk) bl sha1 iv (skipn (length iv - 2) iv) inner) true (Some 1)) alg (Some sk) = read_message (InBytes inner) false.
Proof.
  intros K B N L Wi Wn R Np. destruct (session_key_size alg sk bl K B N) as (Ks & Bt & _ & Gb). assert (Ne : inner <> []). { destruct R as [|part p ps enc encs Hp _]; [contradiction|]. destruct (rfc_head _ _ _ Hp) as (b & t & -> & _). discriminate. }
  destruct (c43_protected_partial E od sha1 alg sk bl iv inner (Some 1) Bt N Ks Gb (proj1 Pr) Wi L Wn Ne) as (d & D1 & D2 & _ & D3).
  assert (Ed : d = EncData (rfc_seipd (E alg sk) bl sha1 iv (skipn (length iv - 2) iv) inner) true (Some 1)).
  { unfold encdata_new in D1. destruct inner as [|x t]; [contradiction|]. apply bind_ok in D1 as (dd & _ & D1). apply ok_inj in D1 as <-. cbn [ed_data] in D2. rewrite D2, (last_two iv bl alg B N L). reflexivity. }
  rewrite <- Ed, D3. unfold read_message, read_packets. cbn [input_armor]. rewrite (wire_not_armor _ _ R Np). cbn [bind]. unfold all_packets, listed. destruct (parse_binary_packet_data pkt_dec inner) as [l [e|]]; reflexivity.
Qed.

(** loop over session keys before the one that opens *)
Lemma loop_skips dec d pre ks : Forall2 object_of pre ks -> Forall (fun x => fst x = 1 /\ forall v kid a e, snd x = v :: kid ++ a :: e -> zlen kid = 8 -> e <> [] /\ get_key_and_cipher_algo (dec a) a e = Err ValueError) pre ->
  forall rest, get_message_loop E sha1 od H (ks ++ rest) d (ByKey false dec) = get_message_loop E sha1 od H rest d (ByKey false dec).
Proof.
  intros F A rest. induction F as [|x k pre ks O F IH]; [reflexivity|]. pose proof (Forall_inv A) as [T X]. specialize (IH (Forall_inv_tail A)). destruct O as [fmt v kid a e W L|body p P]; [|discriminate T]. cbn [snd] in X.
  destruct (X v kid a e eq_refl L) as [Ne G]. cbn [app get_message_loop]. unfold algorithm_and_key. destruct e as [|y e]; [contradiction|]. rewrite G. cbn [bind is_pub_key]. exact IH.
Qed.
Lemma body_parts v v' (kid kid' : bytes) a a' e e' : v :: kid ++ a :: e = v' :: kid' ++ a' :: e' -> zlen kid = 8 -> zlen kid' = 8 -> v = v' /\ kid = kid' /\ a = a' /\ e = e'.
Proof. intros Q L L'. injection Q as -> Q. apply app_inj_len in Q as [-> Q]; [|congruence]. injection Q as -> ->. auto. Qed.
Lemma mpi_nonempty i enc : rfc_mpi i enc -> enc <> [].
Proof. intros (l & body & -> & L & _) Q. apply app_eq_nil in Q as [-> _]. discriminate L. Qed.

(** C121. An encrypted message, from its octets, to an RSA key: session key packets for other RSA keys may come before and any others after it. *)
Theorem c121_rsa_partial : forall k n e d size pre body post alg sk em iv inner ps octets, rsa_pair k n e d -> octets_of n size -> Forall (rsa_elsewhere n d size) pre -> Forall other_packet post ->
  rsa_packet n e size alg sk em body -> rfc_key_length alg = Some (zlen sk) -> alg <> 0 -> wf sk -> rfc_packets ps inner -> ps <> [] -> encrypted_octets E sha1 (pre ++ (1, body) :: post) alg sk iv inner octets ->
  exists m, read_message (InBytes octets) false = Ok m /\
    (octets_of (be_val em ^ e mod n) size -> get_message E sha1 od H m (ByKey false (key_decrypt inv oelg k (SRsa d))) = read_message (InBytes inner) false) /\
    (~ octets_of (be_val em ^ e mod n) size -> Forall (rsa_elsewhere n d size) post -> get_message E sha1 od H m (ByKey false (key_decrypt inv oelg k (SRsa d))) = Err ValueError).
Proof.
  intros k n e d size pre body post alg sk em iv inner ps octets Pa On Fp Fo (kid & pka & enc & Wk & Lk & Pk & Pb & M & ->) Kl N0 Ws R Np Eo. pose proof Pa as (A1 & A2 & A3 & A4 & A5 & A6 & A7).
  assert (Cn : 0 <= be_val em ^ e mod n < n) by (apply Z.mod_pos_bound; clear -A4; lia). set (c := be_val em ^ e mod n) in *.
  pose proof Eo as (rs & bl0 & _ & Bl0 & _ & _ & Wn & _). destruct (session_key_size alg sk bl0 Kl Bl0 N0) as (_ & _ & Ba & _). destruct (block_opens size alg sk em Pb Ba Ws) as (U & Rb & We & Le & Sz & Bv).
  assert (El : forall x, rsa_elsewhere n d size x -> readable_esk x). { intros x (T & v & ki & pk & c0 & en & B & W & L & _). destruct x as [t b]. cbn [fst snd] in *. subst. exists (SKPub NewH v pk (Some (hex_text ki)) (match en with [] => None | _ => Some en end)). constructor; assumption. }
  assert (Skip : forall l, Forall (rsa_elsewhere n d size) l -> Forall (fun x => fst x = 1 /\ forall v kid a e, snd x = v :: kid ++ a :: e -> zlen kid = 8 -> e <> [] /\ get_key_and_cipher_algo (key_decrypt inv oelg k (SRsa d) a) a e = Err ValueError) l).
  { intros l F. refine (Forall_impl _ _ F). clear - Pa On A4. intros x (T & v & ki & pk & c0 & en & B & W & L & Pk & Mp & Cb & Hn). split; [exact T|]. intros v' ki' a' e' B' L'. rewrite B in B'. apply body_parts in B' as (<- & <- & <- & <-); [|exact L|exact L'].
    split; [exact (mpi_nonempty _ _ Mp)|]. destruct (rsa_opens inv oelg k n e d size c0 en pk Pa On Cb Mp Pk) as [O1 O2]. assert (Dec : octets_of c0 size \/ ~ octets_of c0 size) by (unfold octets_of; clear; lia). destruct Dec as [Oc|Oc]; [|exact (O2 Oc)].
    assert (Pb : 0 <= c0 ^ d mod n < 256 ^ size). { pose proof (Z.mod_pos_bound (c0 ^ d) n ltac:(clear -A4; lia)) as [P1 P2]. split; [exact P1|]. exact (Z.lt_trans _ _ _ P2 (proj2 (proj1 On))). }
    set (mm := c0 ^ d mod n) in *. clearbody mm. destruct On as [_ Sp]. assert (Sz : Z.of_nat (Z.to_nat size) = size) by (clear -Sp; lia).
    assert (Vm : be_val (be_bytes (Z.to_nat size) mm) = mm) by (rewrite be_bytes_val, Sz; apply Z.mod_small; exact Pb).
    assert (Lm : zlen (be_bytes (Z.to_nat size) mm) = size) by (rewrite be_bytes_len; exact Sz).
    rewrite (O1 Oc (be_bytes (Z.to_nat size) mm) (be_bytes_wf _ _) Lm Vm). rewrite (no_padding_none _ size); [reflexivity|rewrite Vm; exact (Hn Oc)|apply be_bytes_wf|exact Lm]. }
  assert (Fa : Forall readable_esk (pre ++ (1, 3 :: kid ++ pka :: enc) :: post)).
  { apply Forall_app. split; [exact (Forall_impl _ El Fp)|]. constructor; [|exact (Forall_impl _ other_readable Fo)]. exists (SKPub NewH 3 pka (Some (hex_text kid)) (match enc with [] => None | _ => Some enc end)). constructor; assumption. }
  destruct (encrypted_read _ _ _ _ _ _ _ _ Eo Fa ltac:(destruct pre; discriminate)) as (ks & dd & bl & Rd & Fo2 & Bl & Liv & Wiv & Ed).
  apply Forall2_app_inv_l in Fo2 as (k1 & k2 & F1 & F2 & ->). inversion F2 as [|x kk l l' Ob F3 Q1 Q2]; subst x l k2. exists (MEncrypted (k1 ++ kk :: l') (EncData dd true (Some 1))). split; [exact Rd|]. cbn [get_message].
  destruct (rsa_opens inv oelg k n e d size c enc pka Pa On Cn M Pk) as [O1 O2]. rewrite (loop_skips _ _ pre k1 F1 (Skip pre Fp)). cbn [get_message_loop].
  assert (Ob2 : exists fmt, kk = SKPub fmt 3 pka (Some (hex_text kid)) (Some enc)).
  { clear -Ob Lk M. remember (1, 3 :: kid ++ pka :: enc) as x eqn:Ex. destruct Ob as [fmt v ki a en W L|bd p P]; [|discriminate Ex]. apply (f_equal snd) in Ex. cbn [snd] in Ex. apply body_parts in Ex as (-> & -> & -> & ->); [|exact L|exact Lk]. exists fmt. pose proof (mpi_nonempty _ _ M) as Nn. destruct enc; [contradiction|reflexivity]. }
  destruct Ob2 as (fmt & ->). cbn [algorithm_and_key is_pub_key]. split.
  - intros Oc. assert (Ve : be_val em = c ^ d mod n). { unfold c. symmetry. apply A7. split; [apply Z.lt_le_incl; apply Bv|]. exact (Z.lt_le_trans _ _ _ (proj2 Bv) (proj1 (proj1 On))). }
    rewrite (O1 Oc em We Le Ve), U, Rb. cbn [bind]. subst dd. apply (data_opens alg sk bl iv ps inner); assumption.
  - intros Oc Fpost. rewrite (O2 Oc). cbn [bind]. rewrite <- (app_nil_r l'). rewrite (loop_skips _ _ post l' F3 (Skip post Fpost)). reflexivity.
Qed.
Lemma elg_reads p g y x size c1 c2 e1 e2 k : elgamal_pair inv k p g y x -> octets_of p size -> rfc_mpi c1 e1 -> rfc_mpi c2 e2 -> 0 < c1 -> 0 < c2 -> no_padding size (c2 * inv (c1 ^ x mod p) p mod p) ->
  e1 ++ e2 <> [] /\ get_key_and_cipher_algo (key_decrypt inv oelg k (SElg x) 16) 16 (e1 ++ e2) = Err ValueError.
Proof.
  intros (A1 & A2 & A3 & A4 & P & G & X & Ey & Inv) On M1 M2 P1 P2 Hn. assert (Pp : 0 < p) by (clear -G; lia). assert (Pn : p <> 0) by (clear -Pp; lia).
  assert (Es : (Z.log2 p + 1 + 7) / 8 = size) by (apply (octets_unique p); [change (octets_of p (nbytes p)); apply nbytes_octets; exact Pp|exact On]).
  destruct (mpi_cut _ e1 M1 P1) as (b1 & Sh1 & W1 & V1 & _). destruct (mpi_cut _ e2 M2 P2) as (b2 & Sh2 & W2 & V2 & _). assert (L1 : (2 <= length e1)%nat) by exact (shape_long _ _ Sh1).
  split; [exact (long_app e1 e2 L1)|].
  pose proof (read_ems_ok [e1; e2] [b1; b2] (Forall2_cons _ _ Sh1 (Forall2_cons _ _ Sh2 (Forall2_nil _))) (length (e1 ++ e2)) [] []) as Re. cbn [concat] in Re. rewrite app_nil_r in Re. cbn [app] in Re. change (zlen (@nil Z)) with 0 in Re.
  unfold get_key_and_cipher_algo. rewrite Re by (rewrite app_length; exact (Nat.le_trans _ _ _ L1 (Nat.le_add_r _ _))). cbn [bind].
  change (key_decrypt inv oelg k (SElg x) 16) with (match k_p k, k_g k, k_y k with Some p, Some g, Some y => elg_decrypt (ElgPub p g y) (fun c => (snd c * inv (Zpow_mod (fst c) x p) p) mod p) | _, _, _ => fun _ => Err AttributeError end).
  rewrite A2, A3, A4. cbn [elg_decrypt]. unfold elg_k. cbn [elg_p fst snd]. rewrite Es, !os2ip_be, V1, V2. rewrite Zpow_mod_correct by exact Pn.
  pose proof (Z.mod_pos_bound (c2 * inv (c1 ^ x mod p) p) p Pp) as [B1 B2]. set (mm := c2 * inv (c1 ^ x mod p) p mod p) in *. clearbody mm. destruct On as [[_ On] Sp].
  assert (Sz : Z.of_nat (Z.to_nat size) = size) by (clear -Sp; lia).
  assert (Vm : be_val (be_bytes (Z.to_nat size) mm) = mm) by (rewrite be_bytes_val, Sz; apply Z.mod_small; split; [exact B1|exact (Z.lt_trans _ _ _ B2 On)]).
  assert (Lm : zlen (be_bytes (Z.to_nat size) mm) = size) by (rewrite be_bytes_len; exact Sz). rewrite <- Vm at 1. rewrite left_pad_ok by (exact Lm || exact Sp || apply be_bytes_wf).
  rewrite (no_padding_none _ size); [reflexivity|rewrite Vm; exact Hn|apply be_bytes_wf|exact Lm].
Qed.
(** To an ElGamal key, whatever random exponent the sender took. *)
Theorem c121_elgamal_partial : forall k p g y x size pre body post alg sk iv inner ps octets, elgamal_pair inv k p g y x -> octets_of p size -> Forall (elgamal_elsewhere inv p x size) pre -> Forall other_packet post ->
  elgamal_packet p g y size alg sk body -> rfc_key_length alg = Some (zlen sk) -> alg <> 0 -> wf sk -> rfc_packets ps inner -> ps <> [] -> encrypted_octets E sha1 (pre ++ (1, body) :: post) alg sk iv inner octets ->
  exists m, read_message (InBytes octets) false = Ok m /\ get_message E sha1 od H m (ByKey false (key_decrypt inv oelg k (SElg x))) = read_message (InBytes inner) false.
Proof.
  intros k p g y x size pre body post alg sk iv inner ps octets Pa On Fp Fo Eg Kl N0 Ws R Np Eo.
  pose proof Eo as (rs & bl0 & _ & Bl0 & _ & _ & Wn & _). destruct (session_key_size alg sk bl0 Kl Bl0 N0) as (_ & _ & Ba & _). destruct (elgamal_opens inv oelg k p g y x size alg sk body Pa On Ba Ws Eg) as (kid & enc & -> & Wk & Lk & Nn & O1).
  assert (El : forall q, elgamal_elsewhere inv p x size q -> readable_esk q). { intros q (T & v & ki & c1 & c2 & e1 & e2 & B & W & L & _). destruct q as [t b]. cbn [fst snd] in *. subst. exists (SKPub NewH v 16 (Some (hex_text ki)) (match e1 ++ e2 with [] => None | _ => Some (e1 ++ e2) end)). constructor; assumption. }
  assert (Skip : Forall (fun q => fst q = 1 /\ forall v kid a e, snd q = v :: kid ++ a :: e -> zlen kid = 8 -> e <> [] /\ get_key_and_cipher_algo (key_decrypt inv oelg k (SElg x) a) a e = Err ValueError) pre).
  { refine (Forall_impl _ _ Fp). clear - Pa On. intros q (T & v & ki & c1 & c2 & e1 & e2 & B & W & L & M1 & M2 & P1 & P2 & Hn). split; [exact T|]. intros v' ki' a' e' B' L'. rewrite B in B'. apply body_parts in B' as (<- & <- & <- & <-); [|exact L|exact L'].
    exact (elg_reads p g y x size c1 c2 e1 e2 k Pa On M1 M2 P1 P2 Hn). }
  assert (Fa : Forall readable_esk (pre ++ (1, 3 :: kid ++ 16 :: enc) :: post)).
  { apply Forall_app. split; [exact (Forall_impl _ El Fp)|]. constructor; [|exact (Forall_impl _ other_readable Fo)]. exists (SKPub NewH 3 16 (Some (hex_text kid)) (match enc with [] => None | _ => Some enc end)). constructor; assumption. }
  destruct (encrypted_read _ _ _ _ _ _ _ _ Eo Fa ltac:(destruct pre; discriminate)) as (ks & dd & bl & Rd & Fo2 & Bl & Liv & Wiv & Ed).
  apply Forall2_app_inv_l in Fo2 as (k1 & k2 & F1 & F2 & ->). inversion F2 as [|x0 kk l l' Ob F3 Q1 Q2]; subst x0 l k2. exists (MEncrypted (k1 ++ kk :: l') (EncData dd true (Some 1))). split; [exact Rd|]. cbn [get_message].
  rewrite (loop_skips _ _ pre k1 F1 Skip). cbn [get_message_loop].
  assert (Ob2 : exists fmt, kk = SKPub fmt 3 16 (Some (hex_text kid)) (Some enc)).
  { clear -Ob Lk Nn. remember (1, 3 :: kid ++ 16 :: enc) as z eqn:Ex. destruct Ob as [fmt v ki a en W L|bd q P]; [|discriminate Ex]. apply (f_equal snd) in Ex. cbn [snd] in Ex. apply body_parts in Ex as (-> & -> & -> & ->); [|exact L|exact Lk]. exists fmt. destruct enc; [contradiction|reflexivity]. }
  destruct Ob2 as (fmt & ->). cbn [algorithm_and_key is_pub_key]. rewrite O1. cbn [bind]. subst dd. apply (data_opens alg sk bl iv ps inner); assumption.
Qed.
(** With a passphrase, if its packet is the first; the session key must not be longer than the key the passphrase gives. *)
Lemma passphrase_opens : forall s pass body post alg sk iv inner ps octets, passphrase_packet E H s pass alg sk body -> rfc_ok s pass -> s2k_sym s <> 0 -> s2k_sym s <> 10 -> (forall n, rfc_key_length (s2k_sym s) = Some n -> zlen sk <= n) ->
  Forall other_packet post -> rfc_key_length alg = Some (zlen sk) -> alg <> 0 -> wf sk -> rfc_packets ps inner -> ps <> [] -> encrypted_octets E sha1 ((3, body) :: post) alg sk iv inner octets ->
  exists m, read_message (InBytes octets) false = Ok m /\ forall pass', to_key H s pass' = to_key H s pass -> get_message E sha1 od H m (ByPass pass') = read_message (InBytes inner) false.
Proof.
  intros s pass body post alg sk iv inner ps octets Pp Ro N1 N10 Fit Fo Kl N0 Ws R Np Eo. destruct Pr as (Sh & Hh & Bl).
  pose proof Eo as (rs & bl0 & _ & Bl0 & _ & _ & Wn & _). destruct (session_key_size alg sk bl0 Kl Bl0 N0) as (_ & _ & Ba & _).
  assert (Gen : exists esk, skesk_from_content body = Ok (Skesk 4 (s2k_sym s) s (Some esk)) /\ skesk_get_key H E s (s2k_sym s) pass (Some esk) = Ok (alg, Some sk)).
  { assert (Parse : forall sb esk req, s2k_octets s sb -> rfc_key_length (s2k_sym s) = Some req -> zlen esk <= req + 1 -> wf esk -> skesk_from_content ([4; s2k_sym s] ++ sb ++ esk) = Ok (Skesk 4 (s2k_sym s) s (Some esk))).
    { intros sb esk req So Kq Le We. destruct (s2k_laid s sb So) as [Ok1 Ok2]. assert (Bs : byte (s2k_sym s)). { clear -Kq. unfold byte. destruct (s2k_sym s) as [|q|q]; [lia| |discriminate Kq]. do 4 (destruct q as [q|q|]; try discriminate Kq; try lia). }
      destruct (skesk_parse_back Z.log2 4 s esk req (fun i _ => eq_refl) ltac:(unfold byte; lia) Bs Ok1 ltac:(rewrite c23_table by exact N10; exact Kq) Le We) as (data & D1 & _ & D2).
      unfold skesk_content in D1. cbn [sk_version sk_sym sk_s2k sk_esk] in D1. rewrite mk_bytes_wf in D1 by (apply Forall_cons; [unfold byte; lia|apply Forall_cons; [exact Bs|apply Forall_nil]]). cbn [bind] in D1. rewrite Ok2 in D1. cbn [bind] in D1. apply ok_inj in D1. rewrite <- D1 in D2. exact D2. }
    assert (Key : forall key, passphrase_key H s pass key -> exists req, rfc_key_length (s2k_sym s) = Some req /\ to_key H s pass = Ok (Some key) /\ 0 <= req /\ zlen key = req).
    { intros key (hl & req & n & Kh & Kq & Kn & Ek). exists req. split; [exact Kq|]. assert (Rq : 0 <= req). { clear -Kq. destruct (s2k_sym s) as [|q|q]; [injection Kq as <-; lia| |discriminate Kq]. do 4 (destruct q as [q|q|]; try discriminate Kq; try (injection Kq as <-; lia)). }
      split; [rewrite Ek; apply (to_key_rfc H s pass hl req n); [rewrite hash_table; exact Kh|rewrite c23_table by exact N10; exact Kq|apply Hh; exact Kh|exact Ro|exact Kn]|]. split; [exact Rq|]. eapply derived_size; try eassumption. apply Hh. exact Kh. }
    destruct Pp as [sb key bs alg sk So Pk B|sb key So Pk].
    - destruct (Key key Pk) as (req & Kq & Tk & Rq & Zk). assert (Gb : good_block (E (s2k_sym s) key) bs). { intros x W L. destruct (Bl (s2k_sym s) key bs x B L W) as [X1 X2]. split; [exact X2|exact X1]. }
      assert (Bp : 0 < bs). { clear -B N1. destruct (s2k_sym s) as [|q|q]; [contradiction| |discriminate B]. do 4 (destruct q as [q|q|]; try discriminate B; try (injection B as <-; lia)). }
      assert (Wa : wf (alg :: sk)) by (apply wf_cons; split; assumption). assert (Lz : zlen (repeat 0 (Z.to_nat bs)) = bs) by (rewrite zlen_repeat; lia).
      destruct (rfc_cfb_len (E (s2k_sym s) key) bs (repeat 0 (Z.to_nat bs)) (alg :: sk) Bp Gb (wf_zeros _) Lz Wa) as [Lc Wc].
      exists (rfc_cfb_enc (E (s2k_sym s) key) (Z.to_nat bs) (repeat 0 (Z.to_nat bs)) (alg :: sk)). split; [apply (Parse sb _ req So Kq); [rewrite Lc, zlen_cons; specialize (Fit req Kq); lia|exact Wc]|].
      refine (proj2 (skesk_round H E s alg pass sk bs key _ _ N1 Tk Gb Ba Ws)); [intros a hl Ha; apply Hh; rewrite <- hash_table; exact Ha|rewrite block_table; exact B].
    - destruct (Key key Pk) as (req & Kq & Tk & Rq & Zk). exists []. split; [rewrite <- (app_nil_r sb); apply (Parse sb [] req So Kq); [change (zlen (@nil Z)) with 0; lia|apply wf_nil]|]. apply skesk_no_esk; [exact Tk|right; reflexivity]. }
  destruct Gen as (esk & G1 & G2).
  assert (Fa : Forall readable_esk ((3, body) :: post)) by (constructor; [eexists; apply (oo_sym body _ G1)|exact (Forall_impl _ other_readable Fo)]).
  destruct (encrypted_read _ _ _ _ _ _ _ _ Eo Fa ltac:(discriminate)) as (ks & dd & bl & Rd & Fo2 & Bl' & Liv & Wiv & Ed). inversion Fo2 as [|x0 kk l l' Ob F3 Q1 Q2]; subst x0 l ks.
  exists (MEncrypted (kk :: l') (EncData dd true (Some 1))). split; [exact Rd|]. intros pass' Same. assert (G3 : skesk_get_key H E s (s2k_sym s) pass' (Some esk) = Ok (alg, Some sk)) by (rewrite <- G2; unfold skesk_get_key; rewrite Same; reflexivity). cbn [get_message get_message_loop].
  assert (Ek : kk = SKSym (s2k_sym s) s (Some esk)). { clear -Ob G1. remember (3, body) as z eqn:Ex. destruct Ob as [fmt v ki a en W L|bd q P]; [discriminate Ex|]. injection Ex as ->. rewrite G1 in P. apply ok_inj in P as <-. reflexivity. }
  subst kk. cbn [algorithm_and_key]. rewrite G3. subst dd. apply (data_opens alg sk bl iv ps inner); assumption.
Qed.
Theorem c121_passphrase_partial : forall s pass body post alg sk iv inner ps octets, passphrase_packet E H s pass alg sk body -> rfc_ok s pass -> s2k_sym s <> 0 -> s2k_sym s <> 10 -> (forall n, rfc_key_length (s2k_sym s) = Some n -> zlen sk <= n) ->
  Forall other_packet post -> rfc_key_length alg = Some (zlen sk) -> alg <> 0 -> wf sk -> rfc_packets ps inner -> ps <> [] -> encrypted_octets E sha1 ((3, body) :: post) alg sk iv inner octets ->
  exists m, read_message (InBytes octets) false = Ok m /\ get_message E sha1 od H m (ByPass pass) = read_message (InBytes inner) false.
Proof. intros s pass body post alg sk iv inner ps octets A1 A2 A3 A4 A5 A6 A7 A8 A9 A10 A11 A12. destruct (passphrase_opens s pass body post alg sk iv inner ps octets A1 A2 A3 A4 A5 A6 A7 A8 A9 A10 A11 A12) as (m & R & G). exists m. split; [exact R|]. apply G. reflexivity. Qed.
(** A passphrase that continues the right one past the iterated count opens the message as well (RFC 4880 3.7.1.3 gives it another key, C119). *)
Theorem c121_longer_passphrase_refuted : forall h sym salt count pass tail body post alg sk iv inner ps octets, passphrase_packet E H (IteratedS2K h sym salt count) pass alg sk body -> zlen salt = 8 -> count = 8 + zlen pass -> sym <> 0 -> sym <> 10 ->
  (forall n, rfc_key_length sym = Some n -> zlen sk <= n) -> Forall other_packet post -> rfc_key_length alg = Some (zlen sk) -> alg <> 0 -> wf sk -> rfc_packets ps inner -> ps <> [] -> encrypted_octets E sha1 ((3, body) :: post) alg sk iv inner octets ->
  exists m, read_message (InBytes octets) false = Ok m /\ get_message E sha1 od H m (ByPass (pass ++ tail)) = read_message (InBytes inner) false.
Proof.
  intros h sym salt count pass tail body post alg sk iv inner ps octets A1 Ls Ec A3 A4 A5 A6 A7 A8 A9 A10 A11 A12. pose proof (zlen_nonneg pass) as Np.
  destruct (passphrase_opens (IteratedS2K h sym salt count) pass body post alg sk iv inner ps octets A1 ltac:(split; [exact Ls|lia]) A3 A4 A5 A6 A7 A8 A9 A10 A11 A12) as (m & R & G). exists m. split; [exact R|]. apply G. apply to_key_cut; lia.
Qed.
(** What fails: a passphrase when a public-key packet is first, a key when a passphrase packet is first, and an RSA key when a packet for an ElGamal key comes first. *)
Theorem c121_order_refuted : forall x esks alg sk iv inner octets, Forall other_packet (x :: esks) -> encrypted_octets E sha1 (x :: esks) alg sk iv inner octets ->
  exists m, read_message (InBytes octets) false = Ok m /\
    (fst x = 1 -> forall pass, get_message E sha1 od H m (ByPass pass) = Err AttributeError) /\
    (fst x = 3 -> forall locked dec, get_message E sha1 od H m (ByKey locked dec) = Err TypeError) /\
    (elgamal_for_other x -> forall k d, get_message E sha1 od H m (ByKey false (key_decrypt inv oelg k (SRsa d))) = Err AttributeError) /\
    (rsa_for_other x -> forall k y, get_message E sha1 od H m (ByKey false (key_decrypt inv oelg k (SElg y))) = Err AttributeError).
Proof.
  intros x esks alg sk iv inner octets Fo Eo. destruct (encrypted_read _ _ _ _ _ _ _ _ Eo (Forall_impl _ other_readable Fo) ltac:(discriminate)) as (ks & dd & bl & Rd & Fo2 & _ & _ & _ & Ed). inversion Fo2 as [|x0 kk l l' Ob F3 Q1 Q2]; subst x0 l ks.
  exists (MEncrypted (kk :: l') (EncData dd true (Some 1))). split; [exact Rd|]. cbn [get_message get_message_loop]. clear - Ob. destruct Ob as [fmt v kid a e W L|bd q P].
  - split; [reflexivity|]. split; [discriminate|]. split.
    + intros (_ & v' & kid' & en & B & W' & L' & c1 & c2 & e1 & e2 & Q & M1 & M2 & P1 & P2) k d. cbn [snd] in B. apply body_parts in B as (<- & <- & -> & ->); [|exact L|exact L']. subst en.
      destruct (mpi_cut _ e1 M1 P1) as (b1 & Sh1 & _). destruct (mpi_cut _ e2 M2 P2) as (b2 & Sh2 & _). pose proof (shape_long _ _ Sh1) as L1.
      pose proof (read_ems_ok [e1; e2] [b1; b2] (Forall2_cons _ _ Sh1 (Forall2_cons _ _ Sh2 (Forall2_nil _))) (length (e1 ++ e2)) [] []) as Re. cbn [concat] in Re. rewrite app_nil_r in Re. cbn [app] in Re. change (zlen (@nil Z)) with 0 in Re.
      pose proof (long_app e1 e2 L1) as Ne. assert (Rd : read_ems (length (e1 ++ e2)) (e1 ++ e2) 0 [] = Ok [b1; b2]) by (apply Re; rewrite app_length; exact (Nat.le_trans _ _ _ L1 (Nat.le_add_r _ _))). set (en := e1 ++ e2) in *. clearbody en.
      destruct en as [|z en]; [contradiction|]. cbn [algorithm_and_key]. unfold get_key_and_cipher_algo. rewrite Rd. cbn [bind].
      unfold key_decrypt. cbn [Z.eqb Pos.eqb orb]. destruct (k_p k), (k_g k), (k_y k); reflexivity.
    + intros (_ & v' & kid' & pka & c & en & B & W' & L' & Pk & M & P) k y. cbn [snd] in B. apply body_parts in B as (<- & <- & -> & ->); [|exact L|exact L'].
      destruct (mpi_cut _ en M P) as (b & Sh & _). pose proof (shape_long _ _ Sh) as L1.
      pose proof (read_ems_ok [en] [b] (Forall2_cons _ _ Sh (Forall2_nil _)) (length en) [] []) as Re. cbn [concat] in Re. rewrite !app_nil_r in Re. cbn [app] in Re. change (zlen (@nil Z)) with 0 in Re. specialize (Re (Nat.le_trans 1 2 _ (le_S 1 1 (le_n 1)) L1)).
      destruct en as [|z en]; [cbn in L1; inversion L1|]. cbn [algorithm_and_key]. unfold get_key_and_cipher_algo. rewrite Re. cbn [bind].
      unfold key_decrypt. destruct Pk as [<-|[<-|[<-|[]]]]; cbn [Z.eqb Pos.eqb orb]; destruct (k_n k); reflexivity.
  - split; [discriminate|]. split; [reflexivity|]. split; intros (T & _); discriminate T.
Qed.
(** A locked key object is refused. *)
Theorem c121_locked : forall x esks alg sk iv inner octets dec, Forall other_packet (x :: esks) -> fst x = 1 -> encrypted_octets E sha1 (x :: esks) alg sk iv inner octets ->
  exists m, read_message (InBytes octets) false = Ok m /\ get_message E sha1 od H m (ByKey true dec) = Err RuntimeError.
Proof.
  intros x esks alg sk iv inner octets dec Fo T Eo. destruct (encrypted_read _ _ _ _ _ _ _ _ Eo (Forall_impl _ other_readable Fo) ltac:(discriminate)) as (ks & dd & bl & Rd & Fo2 & _ & _ & _ & Ed). inversion Fo2 as [|x0 kk l l' Ob F3 Q1 Q2]; subst x0 l ks.
  exists (MEncrypted (kk :: l') (EncData dd true (Some 1))). split; [exact Rd|]. clear - Ob T. destruct Ob as [fmt v kid a e W L|bd q P]; [reflexivity|discriminate T].
Qed.
(** From the octets of a protected RSA key, the passphrase and the octets of the message to the document. *)
Theorem c121_unlocked_partial : forall fl k kb s pass p q u keybody n e d size pre body post alg sk em iv inner ps octets, key_body fl kb k -> Forall scalar pass -> rfc_ok s (utf8 pass) -> s2k_sym s <> 0 -> s2k_sym s <> 10 ->
  protected_body E H sha1 kb s pass [d; p; q; u] keybody -> rsa_pair k n e d -> octets_of n size -> Forall (rsa_elsewhere n d size) pre -> Forall other_packet post ->
  rsa_packet n e size alg sk em body -> rfc_key_length alg = Some (zlen sk) -> alg <> 0 -> wf sk -> rfc_packets ps inner -> ps <> [] -> encrypted_octets E sha1 (pre ++ (1, body) :: post) alg sk iv inner octets ->
  octets_of (be_val em ^ e mod n) size ->
  exists o lk m, sec_from_content keybody = Ok o /\ unlock_key E H sha1 o pass (fresh_key o) = (lk, None) /\ signs_with lk (SRsa d) /\ read_message (InBytes octets) false = Ok m /\
    get_message E sha1 od H m (ByKey (lk_locked lk) (key_decrypt inv oelg (s_pub o) (SRsa d))) = read_message (InBytes inner) false.
Proof.
  intros fl k kb s pass p q u keybody n e d size pre body post alg sk em iv inner ps octets K Sc Ro N1 N10 Pb Pa On Fp Fo Rp Kl N0 Ws R Np Eo Oc. pose proof (proj1 Pa) as Al.
  destruct (c119_unlock_partial fl E H sha1 Pr k kb s pass [d; p; q; u] keybody K Sc Ro N1 N10 Pb) as (o & Rd & _ & Ep & _ & _ & Un).
  destruct (c121_rsa_partial k n e d size pre body post alg sk em iv inner ps octets Pa On Fp Fo Rp Kl N0 Ws R Np Eo) as (m & Rm & Op & _).
  exists o, (LKey (k_alg k) (Some d) (Some p) (Some q) (Some u) None false), m. split; [exact Rd|]. split; [apply Un; [apply hn_rsa; cbn [In] in *; tauto|cbn [In] in *; intros I; exfalso; clear -Al I; lia]|]. split; [apply sw_rsa; exact Al|]. split; [exact Rm|]. rewrite Ep. cbn [lk_locked]. exact (Op Oc).
Qed.
End Encrypted.
Print Assumptions c121_rsa_partial.
Print Assumptions c121_elgamal_partial.
Print Assumptions c121_passphrase_partial.
Print Assumptions c121_longer_passphrase_refuted.
Print Assumptions c121_order_refuted.
Print Assumptions c121_locked.
Print Assumptions c121_unlocked_partial.

(** ** used *)
Definition en_primes : list Z := [2; 3; 5; 7; 11; 13; 17; 19; 29; 31; 37; 41; 43; 61; 71; 73; 109; 113; 127; 181; 211; 241; 271; 281; 337; 379; 421; 433; 541; 631; 757; 1009; 2161; 2521; 7561].
Definition en_n : Z := Eval vm_compute in fold_right Z.mul 1 en_primes.
Definition en_rsa := PubKey 4 9 1 None (Some en_n) (Some 31) None None None None.
Lemma en_fermat m : (en_n | m ^ 60481 - m).
Proof.
  assert (Q : en_n = fold_right Z.mul 1 en_primes) by (vm_compute; reflexivity). rewrite Q. apply prod_divide.
  - intros p Hp. apply residue_fixed; [|lia|].
    + revert p Hp. apply Forall_forall. unfold en_primes. repeat (apply Forall_cons; [reflexivity|]). apply Forall_nil.
    + revert p Hp. apply Forall_forall. unfold en_primes. repeat (apply Forall_cons; [vm_compute; reflexivity|]). apply Forall_nil.
  - unfold en_primes. repeat (apply FOP_cons; [repeat (apply Forall_cons; [reflexivity|]); apply Forall_nil|]). apply FOP_nil.
Qed.
Lemma en_pair : rsa_pair en_rsa en_n 31 1951.
Proof.
  split; [cbn; auto|]. split; [reflexivity|]. split; [reflexivity|]. split; [reflexivity|]. split; [lia|]. split; [lia|]. intros m B. assert (N0 : 0 < en_n) by reflexivity.
  rewrite <- Zpower_mod by exact N0. rewrite <- Z.pow_mul_r by lia. change (31 * 1951) with 60481. rewrite <- (Z.mod_small m en_n) at 2 by exact B.
  destruct (en_fermat m) as [c C]. set (a := m ^ 60481) in *. clearbody a. assert (Q : a = m + c * en_n) by lia. rewrite Q, Z.mod_add by discriminate. reflexivity.
Qed.
Lemma en_size : octets_of en_n 30.
Proof. split; [vm_compute; split; [discriminate|reflexivity]|lia]. Qed.
Definition en_mpi (i : Z) : bytes := be_bytes 2 (bit_length i) ++ be_bytes (Z.to_nat ((bit_length i + 7) / 8)) i.
Definition en_sk (x : Z) : bytes := repeat x 16.
Definition en_em (x : Z) : bytes := [0; 2] ++ repeat 5 8 ++ [0] ++ 7 :: en_sk x ++ be_bytes 2 (zsum (en_sk x) mod 65536).
Definition en_body (x : Z) : bytes := 3 :: repeat 1 8 ++ 1 :: en_mpi (Zpow_mod (be_val (en_em x)) 31 en_n).
Definition en_pre : list (Z * bytes) := [(1, 3 :: repeat 2 8 ++ 1 :: [0; 3; 5])].
Definition en_post : list (Z * bytes) := [(3, [4; 7; 0; 8])].
Definition en_inner : bytes := [203; 8; 98; 0; 0; 0; 0; 9; 104; 105].
Definition en_iv := repeat 4 16.
Definition en_wire (l : list (Z * bytes)) : bytes := flat_map (fun x => (192 + fst x) :: zlen (snd x) :: snd x) l.
Definition en_octets (esks : list (Z * bytes)) (sk : bytes) : bytes := en_wire (esks ++ [(18, 1 :: rfc_seipd (u_E 7 sk) 16 u_sha1 en_iv [4; 4] en_inner)]).
Lemma en_wired l : Forall (fun x => 0 <= fst x <= 63 /\ zlen (snd x) <= 191) l -> rfc_packets (map (fun x => Raw NewH (fst x) (snd x)) l) (en_wire l).
Proof.
  induction 1 as [|[t b] l [T B] _ IH]; [constructor|]. cbn [map fst snd] in *. unfold en_wire. cbn [flat_map fst snd]. apply (rps_cons false (Raw NewH t b) _ ((192 + t) :: [zlen b] ++ b)); [|exact IH].
  apply rp_new; [exact T|]. apply nl_one. pose proof (zlen_nonneg b). split; assumption.
Qed.
Lemma en_encrypted esks sk : zlen sk = 16 -> wf sk -> Forall (fun x => 0 <= fst x <= 63 /\ zlen (snd x) <= 191) esks -> encrypted_octets u_E u_sha1 esks 7 sk en_iv en_inner (en_octets esks sk).
Proof.
  intros L W F. set (last := (18, 1 :: rfc_seipd (u_E 7 sk) 16 u_sha1 en_iv [4; 4] en_inner)). exists (map (fun x => Raw NewH (fst x) (snd x)) (esks ++ [last])), 16.
  assert (Wi : wf en_inner) by (apply wfb_spec; reflexivity). assert (Wv : wf en_iv) by (apply wfb_spec; reflexivity).
  split; [|split; [reflexivity|split; [reflexivity|split; [exact Wv|split; [exact Wi|]]]]].
  - apply en_wired. apply Forall_app. split; [exact F|]. apply Forall_cons; [|apply Forall_nil]. subst last. cbn [fst snd]. split; [lia|]. rewrite zlen_cons. unfold rfc_seipd.
    assert (Gb : good_block (u_E 7 sk) 16) by (intros x Wx Lx; destruct (proj2 (proj2 u_primitives) 7 sk 16 x eq_refl Lx Wx) as [A B]; split; assumption).
    assert (Lz : zlen (repeat 0 (Z.to_nat 16)) = 16) by reflexivity.
    assert (Wp : wf (mdc_plaintext u_sha1 en_iv [4; 4] en_inner) /\ zlen (mdc_plaintext u_sha1 en_iv [4; 4] en_inner) = 50) by (split; [apply wfb_spec; reflexivity|reflexivity]). destruct Wp as [Wp Lp].
    rewrite (proj1 (rfc_cfb_len (u_E 7 sk) 16 _ _ ltac:(lia) Gb (wf_zeros _) Lz Wp)), Lp. lia.
  - rewrite map_map. cbn [ptype pcontent]. assert (Id : forall l : list (Z * bytes), map (fun x => (fst x, snd x)) l = l) by (induction l as [|[a b] l IH]; [reflexivity|cbn [map fst snd]; now rewrite IH]). rewrite Id. reflexivity.
Qed.
Lemma mpi_written i : 0 <= i -> bit_length i < 65536 -> rfc_mpi i (en_mpi i).
Proof.
  intros Hi Hb. assert (B0 : 0 <= bit_length i) by (unfold bit_length; destruct (i =? 0); [lia|pose proof (Z.log2_nonneg i); lia]).
  assert (Sz : Z.of_nat (Z.to_nat ((bit_length i + 7) / 8)) = (bit_length i + 7) / 8) by lia.
  exists (be_bytes 2 (bit_length i)), (be_bytes (Z.to_nat ((bit_length i + 7) / 8)) i). split; [reflexivity|]. split; [apply be_bytes_len|].
  split; [rewrite be_bytes_val; apply Z.mod_small; change (256 ^ Z.of_nat 2) with 65536; lia|]. split; [rewrite be_bytes_len; exact Sz|]. split; [|apply wf_app; split; apply be_bytes_wf].
  rewrite be_bytes_val, Sz. apply Z.mod_small. split; [exact Hi|]. unfold bit_length in *. destruct (i =? 0) eqn:Q; [assert (i = 0) by lia; subst i; apply Z.pow_pos_nonneg; lia|].
  pose proof (Z.log2_spec i ltac:(lia)) as [_ S]. eapply Z.lt_le_trans; [exact S|]. change 256 with (2 ^ 8). rewrite <- Z.pow_mul_r by lia. apply Z.pow_le_mono_r; [lia|]. lia.
Qed.
Lemma en_padded x : 0 <= x < 256 -> padded_block 30 7 (en_sk x) (en_em x).
Proof.
  intros B. exists (repeat 5 8). split; [reflexivity|]. split; [apply wfb_spec; reflexivity|]. split; [cbn [repeat]; repeat (apply Forall_cons; [discriminate|]); apply Forall_nil|]. split; [discriminate|].
  unfold en_em. rewrite !zlen_app, !zlen_cons, !zlen_app, be_bytes_len. reflexivity.
Qed.
Lemma en_packet x : 0 <= x < 256 -> rsa_packet en_n 31 30 7 (en_sk x) (en_em x) (en_body x).
Proof.
  intros B. assert (N0 : 0 < en_n) by reflexivity. exists (repeat 1 8), 1, (en_mpi (Zpow_mod (be_val (en_em x)) 31 en_n)). split; [apply wfb_spec; reflexivity|]. split; [reflexivity|]. split; [cbn; tauto|]. split; [apply en_padded; exact B|]. split; [|reflexivity].
  rewrite Zpow_mod_correct by (intros Q; rewrite Q in N0; discriminate N0). pose proof (Z.mod_pos_bound (be_val (en_em x) ^ 31) en_n N0) as [B1 B2]. set (c := be_val (en_em x) ^ 31 mod en_n) in *. clearbody c. apply mpi_written; [exact B1|].
  unfold bit_length. destruct (c =? 0) eqn:Q; [lia|]. assert (Z.log2 c <= Z.log2 en_n) by (apply Z.log2_le_mono; lia). assert (Z.log2 en_n = 234) by (vm_compute; reflexivity). lia.
Qed.
Lemma en_elsewhere : Forall (rsa_elsewhere en_n 1951 30) en_pre.
Proof.
  apply Forall_cons; [|apply Forall_nil]. split; [reflexivity|]. exists 3, (repeat 2 8), 1, 5, [0; 3; 5]. split; [reflexivity|]. split; [apply wfb_spec; reflexivity|]. split; [reflexivity|]. split; [cbn; tauto|].
  split; [exists [0; 3], [5]; repeat (split; [reflexivity|]); apply wfb_spec; reflexivity|]. split; [split; [lia|reflexivity]|]. intros [[Q _] _]. exfalso. vm_compute in Q. apply Q. reflexivity.
Qed.
Lemma en_others : Forall other_packet en_post.
Proof. apply Forall_cons; [|apply Forall_nil]. right. split; [reflexivity|]. exists 4, (SimpleS2K 8 7), [0; 8], 16, []. split; [reflexivity|]. split; [constructor; unfold byte; lia|reflexivity]. Qed.
Lemma en_small x : 0 <= x < 256 -> Forall (fun x => 0 <= fst x <= 63 /\ zlen (snd x) <= 191) (en_pre ++ (1, en_body x) :: en_post).
Proof.
  intros B. apply Forall_app. split; [apply Forall_cons; [split; [cbn; lia|discriminate]|apply Forall_nil]|]. apply Forall_cons; [|apply Forall_cons; [split; [cbn; lia|discriminate]|apply Forall_nil]]. cbn [fst snd]. split; [lia|].
  unfold en_body. rewrite zlen_cons, zlen_app, zlen_cons. unfold en_mpi. rewrite zlen_app, !be_bytes_len. change (zlen (repeat 1 8)) with 8. assert (N0 : 0 < en_n) by reflexivity. rewrite Zpow_mod_correct by (intros Q; rewrite Q in N0; discriminate N0).
  pose proof (Z.mod_pos_bound (be_val (en_em x) ^ 31) en_n N0) as [B1 B2]. set (c := be_val (en_em x) ^ 31 mod en_n) in *. clearbody c. unfold bit_length. assert (Z.log2 c <= Z.log2 en_n) by (apply Z.log2_le_mono; lia). assert (Z.log2 en_n = 234) by (vm_compute; reflexivity). destruct (c =? 0) eqn:Q; [vm_compute; discriminate|]. lia.
Qed.
Lemma en_wf_sk x : 0 <= x < 256 -> wf (en_sk x).
Proof. intros B. apply Forall_forall. intros y I. apply repeat_spec in I. subst y. exact B. Qed.
Lemma en_literal : rfc_packets [Raw NewH 11 [98; 0; 0; 0; 0; 9; 104; 105]] en_inner.
Proof. apply (en_wired [(11, [98; 0; 0; 0; 0; 9; 104; 105])]). apply Forall_cons; [split; [cbn; lia|discriminate]|apply Forall_nil]. Qed.
Lemma en_r9 : 0 <= 9 < 256. Proof. lia. Qed.
Lemma en_r3 : 0 <= 3 < 256. Proof. lia. Qed.
Lemma en_full : octets_of (Zpow_mod (be_val (en_em 9)) 31 en_n) 30.
Proof. unfold octets_of. set (c := Zpow_mod (be_val (en_em 9)) 31 en_n). vm_compute in c. subst c. split; [split; [discriminate|reflexivity]|reflexivity]. Qed.
Lemma en_short : ~ octets_of (Zpow_mod (be_val (en_em 3)) 31 en_n) 30.
Proof. unfold octets_of. set (c := Zpow_mod (be_val (en_em 3)) 31 en_n). vm_compute in c. subst c. intros [[Q _] _]. apply Q. reflexivity. Qed.
(** The sixteen octets 9 as a session key reach the recipient behind another recipient's packet; with the sixteen octets 3 the integer is an octet short. *)
Example c121_rsa_used : exists m m', read_message (InBytes (en_octets (en_pre ++ (1, en_body 9) :: en_post) (en_sk 9))) false = Ok m /\
  get_message u_E u_sha1 no_old u_H m (ByKey false (key_decrypt demo_inv no_dec en_rsa (SRsa 1951))) = Ok (MBinary (LBytes [104; 105]) [] 9) /\
  read_message (InBytes (en_octets (en_pre ++ [(1, en_body 3)]) (en_sk 3))) false = Ok m' /\
  get_message u_E u_sha1 no_old u_H m' (ByKey false (key_decrypt demo_inv no_dec en_rsa (SRsa 1951))) = Err ValueError.
Proof.
  assert (Nn : en_n <> 0) by discriminate.
  destruct (c121_rsa_partial u_E u_H u_sha1 no_old demo_inv no_dec u_primitives en_rsa en_n 31 1951 30 en_pre (en_body 9) en_post 7 (en_sk 9) (en_em 9) en_iv en_inner _ (en_octets (en_pre ++ (1, en_body 9) :: en_post) (en_sk 9)) en_pair en_size en_elsewhere en_others
    (en_packet 9 en_r9) eq_refl ltac:(discriminate) (en_wf_sk 9 en_r9) en_literal ltac:(discriminate) (en_encrypted (en_pre ++ (1, en_body 9) :: en_post) (en_sk 9) eq_refl (en_wf_sk 9 en_r9) (en_small 9 en_r9))) as (m & R & Op & _).
  assert (Sm : Forall (fun x => 0 <= fst x <= 63 /\ zlen (snd x) <= 191) (en_pre ++ [(1, en_body 3)])).
  { pose proof (en_small 3 en_r3) as F. apply Forall_app in F as [F1 F2]. apply Forall_app. split; [exact F1|]. apply Forall_cons; [exact (Forall_inv F2)|apply Forall_nil]. }
  destruct (c121_rsa_partial u_E u_H u_sha1 no_old demo_inv no_dec u_primitives en_rsa en_n 31 1951 30 en_pre (en_body 3) [] 7 (en_sk 3) (en_em 3) en_iv en_inner _ (en_octets (en_pre ++ [(1, en_body 3)]) (en_sk 3)) en_pair en_size en_elsewhere (Forall_nil _)
    (en_packet 3 en_r3) eq_refl ltac:(discriminate) (en_wf_sk 3 en_r3) en_literal ltac:(discriminate) (en_encrypted (en_pre ++ [(1, en_body 3)]) (en_sk 3) eq_refl (en_wf_sk 3 en_r3) Sm)) as (m' & R' & _ & Op').
  exists m, m'. split; [exact R|]. split; [|split; [exact R'|]].
  - rewrite Op; [vm_compute; reflexivity|]. rewrite <- Zpow_mod_correct by exact Nn. exact en_full.
  - apply Op'; [|apply Forall_nil]. rewrite <- Zpow_mod_correct by exact Nn. exact en_short.
Qed.

(** ElGamal: the units modulo the same number, with the generator 23 and the random exponent 12345 *)
Definition en_inv (a p : Z) : Z := Zpow_mod a 60479 p.
Definition en_y : Z := Eval vm_compute in Zpow_mod 23 77 en_n.
Definition en_elg := PubKey 4 9 16 None None None (Some en_n) None (Some 23) (Some en_y).
Lemma unit_inverse n a k l : 1 < n -> 0 <= k -> l = k + 2 -> (n | a ^ l - a) -> Z.gcd a n = 1 -> a ^ k * a mod n = 1.
Proof.
  intros N1 K -> D G. replace (a ^ (k + 2)) with (a * (a ^ k * a)) in D by (rewrite Z.pow_add_r by lia; change (a ^ 2) with (a * (a * 1)); ring). set (b := a ^ k * a) in *. clearbody b.
  replace (a * b - a) with (a * (b - 1)) in D by ring. apply Gauss in D; [|apply rel_prime_sym, Zgcd_1_rel_prime; exact G]. destruct D as [c C]. replace b with (1 + c * n) by lia. rewrite Z.mod_add by lia. apply Z.mod_small. lia.
Qed.
Lemma en_elg_pair : elgamal_pair en_inv en_elg en_n 23 en_y 77.
Proof.
  assert (N0 : 0 < en_n) by reflexivity. assert (Nn : en_n <> 0) by discriminate. split; [reflexivity|]. split; [reflexivity|]. split; [reflexivity|]. split; [reflexivity|]. split; [vm_compute; reflexivity|]. split; [reflexivity|]. split; [discriminate|]. split; [rewrite <- Zpow_mod_correct by exact Nn; vm_compute; reflexivity|].
  intros a B G. unfold en_inv. rewrite Zpow_mod_correct by exact Nn. rewrite Z.mul_mod_idemp_l by exact Nn. apply (unit_inverse en_n a 60479 60481); [reflexivity|discriminate|reflexivity|exact (en_fermat a)|exact G].
Qed.
Definition en_elg_body : bytes := 3 :: repeat 1 8 ++ 16 :: en_mpi (Zpow_mod 23 12345 en_n) ++ en_mpi ((be_val (en_em 9) * Zpow_mod en_y 12345 en_n) mod en_n).
Lemma en_bits c : 0 <= c < en_n -> bit_length c < 65536.
Proof. intros [C0 B]. unfold bit_length. assert (L : Z.log2 c <= Z.log2 en_n) by (apply Z.log2_le_mono, Z.lt_le_incl; exact B). change (Z.log2 en_n) with 234 in L. clear -L. destruct (c =? 0); lia. Qed.
Lemma en_elg_packet : elgamal_packet en_n 23 en_y 30 7 (en_sk 9) en_elg_body.
Proof.
  assert (N0 : 0 < en_n) by reflexivity. assert (Nn : en_n <> 0) by discriminate. exists (repeat 1 8), (en_em 9), 12345, (en_mpi (Zpow_mod 23 12345 en_n)), (en_mpi ((be_val (en_em 9) * Zpow_mod en_y 12345 en_n) mod en_n)).
  split; [apply wfb_spec; reflexivity|]. split; [reflexivity|]. split; [discriminate|]. split; [apply en_padded; exact en_r9|]. split; [|split; [|reflexivity]].
  - rewrite Zpow_mod_correct by exact Nn. pose proof (Z.mod_pos_bound (23 ^ 12345) en_n N0) as B. apply mpi_written; [apply B|apply en_bits; exact B].
  - rewrite Zpow_mod_correct by exact Nn. rewrite Z.mul_mod_idemp_r by exact Nn. pose proof (Z.mod_pos_bound (be_val (en_em 9) * en_y ^ 12345) en_n N0) as B. apply mpi_written; [apply B|apply en_bits; exact B].
Qed.
Definition en_key := rfc_key (u_H 8) (rfc_input u_spec [112]) 1 16.
Definition en_pass_body : bytes := [4; 7] ++ [3; 8; 1; 2; 3; 4; 5; 6; 7; 8; 0] ++ rfc_cfb_enc (u_E 7 en_key) 16 (repeat 0 16) (7 :: en_sk 9).
Example c121_elgamal_used : exists m, read_message (InBytes (en_octets [(1, en_elg_body)] (en_sk 9))) false = Ok m /\
  get_message u_E u_sha1 no_old u_H m (ByKey false (key_decrypt en_inv no_dec en_elg (SElg 77))) = Ok (MBinary (LBytes [104; 105]) [] 9) /\
  get_message u_E u_sha1 no_old u_H m (ByPass [112]) = Err AttributeError.
Proof.
  assert (Sm : Forall (fun x => 0 <= fst x <= 63 /\ zlen (snd x) <= 191) [(1, en_elg_body)]) by (apply Forall_cons; [split; [vm_compute; split; discriminate|vm_compute; discriminate]|apply Forall_nil]).
  pose proof (en_encrypted [(1, en_elg_body)] (en_sk 9) eq_refl (en_wf_sk 9 en_r9) Sm) as Eo.
  destruct (c121_elgamal_partial u_E u_H u_sha1 no_old en_inv no_dec u_primitives en_elg en_n 23 en_y 77 30 [] en_elg_body [] 7 (en_sk 9) en_iv en_inner _ _ en_elg_pair en_size (Forall_nil _) (Forall_nil _) en_elg_packet eq_refl ltac:(discriminate) (en_wf_sk 9 en_r9) en_literal ltac:(discriminate) Eo) as (m & R & Op).
  assert (Fo : Forall other_packet [(1, en_elg_body)]) by (apply Forall_cons; [left; split; [reflexivity|]; do 4 eexists; split; [reflexivity|]; split; [apply wfb_spec; reflexivity|reflexivity]|apply Forall_nil]).
  destruct (c121_order_refuted u_E u_H u_sha1 no_old en_inv no_dec (1, en_elg_body) [] 7 (en_sk 9) en_iv en_inner _ Fo Eo) as (m' & R' & Op' & _). rewrite R in R'. apply ok_inj in R'. subst m'.
  exists m. split; [exact R|]. split; [rewrite Op; vm_compute; reflexivity|]. apply (Op' eq_refl).
Qed.
Example c121_passphrase_used : exists m, read_message (InBytes (en_octets ((3, en_pass_body) :: en_pre) (en_sk 9))) false = Ok m /\
  get_message u_E u_sha1 no_old u_H m (ByPass [112]) = Ok (MBinary (LBytes [104; 105]) [] 9) /\ get_message u_E u_sha1 no_old u_H m (ByKey false (key_decrypt demo_inv no_dec en_rsa (SRsa 1951))) = Err TypeError.
Proof.
  assert (Pp : passphrase_packet u_E u_H u_spec [112] 7 (en_sk 9) en_pass_body).
  { apply (pp_wrapped u_E u_H u_spec [112] [3; 8; 1; 2; 3; 4; 5; 6; 7; 8; 0] en_key 16 7 (en_sk 9)); [|exists 32, 16, 1%nat; split; [reflexivity|]; split; [reflexivity|]; split; [discriminate|reflexivity]|reflexivity].
    apply (so_iterated 8 7 [1; 2; 3; 4; 5; 6; 7; 8] 0); [unfold byte; lia|apply wfb_spec; reflexivity|reflexivity|unfold byte; lia]. }
  assert (Sm : Forall (fun x => 0 <= fst x <= 63 /\ zlen (snd x) <= 191) ((3, en_pass_body) :: en_pre)) by (repeat (apply Forall_cons; [split; [vm_compute; split; discriminate|vm_compute; discriminate]|]); apply Forall_nil).
  pose proof (en_encrypted ((3, en_pass_body) :: en_pre) (en_sk 9) eq_refl (en_wf_sk 9 en_r9) Sm) as Eo.
  assert (Fo : Forall other_packet en_pre) by (apply Forall_cons; [left; split; [reflexivity|]; exists 3, (repeat 2 8), 1, [0; 3; 5]; split; [reflexivity|]; split; [apply wfb_spec; reflexivity|reflexivity]|apply Forall_nil]).
  assert (Fo3 : Forall other_packet ((3, en_pass_body) :: en_pre)) by (apply Forall_cons; [right; split; [reflexivity|]; exists 4, u_spec, [3; 8; 1; 2; 3; 4; 5; 6; 7; 8; 0], 16, (rfc_cfb_enc (u_E 7 en_key) 16 (repeat 0 16) (7 :: en_sk 9)); split; [reflexivity|]; split; [apply (so_iterated 8 7 [1; 2; 3; 4; 5; 6; 7; 8] 0); [unfold byte; lia|apply wfb_spec; reflexivity|reflexivity|unfold byte; lia]|reflexivity]|exact Fo]).
  assert (Ro : rfc_ok u_spec [112]) by (split; [reflexivity|vm_compute; discriminate]).
  assert (N1 : s2k_sym u_spec <> 0) by discriminate. assert (N10 : s2k_sym u_spec <> 10) by discriminate.
  assert (Fit : forall n, rfc_key_length (s2k_sym u_spec) = Some n -> zlen (en_sk 9) <= n) by (intros n Q; injection Q as <-; discriminate).
  assert (Kl : rfc_key_length 7 = Some (zlen (en_sk 9))) by reflexivity. assert (N7 : 7 <> 0) by discriminate.
  pose proof (c121_passphrase_partial u_E u_H u_sha1 no_old demo_inv no_dec u_primitives u_spec [112] en_pass_body en_pre 7 (en_sk 9) en_iv en_inner _ _ Pp Ro N1 N10 Fit Fo Kl N7 (en_wf_sk 9 en_r9) en_literal ltac:(discriminate) Eo) as (m & R & Op).
  destruct (c121_order_refuted u_E u_H u_sha1 no_old demo_inv no_dec (3, en_pass_body) en_pre 7 (en_sk 9) en_iv en_inner _ Fo3 Eo) as (m' & R' & _ & Op' & _). rewrite R in R'. apply ok_inj in R'. subst m'.
  exists m. split; [exact R|]. split; [rewrite Op; vm_compute; reflexivity|].
  apply (Op' eq_refl).
Qed.
(** 1016 octets of passphrase and 8 of salt fill the smallest count *)
Definition en_lkey := rfc_key (u_H 8) (rfc_input u_spec u_long) 1 16.
Definition en_long_body : bytes := [4; 7] ++ [3; 8; 1; 2; 3; 4; 5; 6; 7; 8; 0] ++ rfc_cfb_enc (u_E 7 en_lkey) 16 (repeat 0 16) (7 :: en_sk 9).
Example c121_longer_passphrase_used : exists m, read_message (InBytes (en_octets [(3, en_long_body)] (en_sk 9))) false = Ok m /\
  get_message u_E u_sha1 no_old u_H m (ByPass (u_long ++ [33])) = Ok (MBinary (LBytes [104; 105]) [] 9).
Proof.
  assert (Pp : passphrase_packet u_E u_H u_spec u_long 7 (en_sk 9) en_long_body).
  { apply (pp_wrapped u_E u_H u_spec u_long [3; 8; 1; 2; 3; 4; 5; 6; 7; 8; 0] en_lkey 16 7 (en_sk 9)); [|exists 32, 16, 1%nat; split; [reflexivity|]; split; [reflexivity|]; split; [discriminate|reflexivity]|reflexivity].
    apply (so_iterated 8 7 [1; 2; 3; 4; 5; 6; 7; 8] 0); [unfold byte; lia|apply wfb_spec; reflexivity|reflexivity|unfold byte; lia]. }
  assert (Sm : Forall (fun x => 0 <= fst x <= 63 /\ zlen (snd x) <= 191) [(3, en_long_body)]) by (apply Forall_cons; [split; [vm_compute; split; discriminate|vm_compute; discriminate]|apply Forall_nil]).
  pose proof (en_encrypted [(3, en_long_body)] (en_sk 9) eq_refl (en_wf_sk 9 en_r9) Sm) as Eo.
  assert (Fit : forall n, rfc_key_length 7 = Some n -> zlen (en_sk 9) <= n) by (intros n Q; injection Q as <-; discriminate).
  assert (N7 : 7 <> 0) by discriminate. assert (N10 : 7 <> 10) by discriminate.
  pose proof (c121_longer_passphrase_refuted u_E u_H u_sha1 no_old demo_inv no_dec u_primitives 8 7 [1; 2; 3; 4; 5; 6; 7; 8] 1024 u_long [33] en_long_body [] 7 (en_sk 9) en_iv en_inner _ _ Pp eq_refl eq_refl N7 N10 Fit (Forall_nil _) eq_refl N7 (en_wf_sk 9 en_r9) en_literal ltac:(discriminate) Eo) as (m & R & Op).
  exists m. split; [exact R|]. rewrite Op. vm_compute. reflexivity.
Qed.
