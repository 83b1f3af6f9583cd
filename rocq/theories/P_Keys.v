(** Property theorems C25-C27, C37: key packets (pgp/packets/packets.py) and fingerprints (pgp/utils.py). *)
From Verif Require Import Base BaseProofs Spec Utils UtilsProofs HexProofs S2k SpecS2k S2kProofs Cipher SymCipher SpecCfb CfbProofs SessionKeys SessionKeysProofs KeyPackets SpecKey KeyProofs.

(** C25. Any key with its integers in canonical MPIs is written as RFC 4880 5.5.2 says and parses back to the same key,
    also when other octets follow; [fl] is math.log, exact on the integers of the key. *)
Theorem c25_parse_back : forall fl v ct alg exp ms k, 0 <= ct < 2 ^ 32 -> rfc_exp_ok v exp -> rfc_key v ct alg exp ms = Some k ->
  Forall (fun i => 0 <= i /\ bit_length i <= 65535 /\ (0 < i -> fl i = Z.log2 i)) ms ->
  exists encs, Forall2 rfc_mpi ms encs /\ pub_content fl k = Ok (rfc_pub_body v ct alg exp encs) /\
    forall rest, pub_values (rfc_pub_body v ct alg exp encs ++ rest) = Ok (zlen (rfc_pub_body v ct alg exp encs), k).
Proof.
  intros fl v ct alg exp ms k Hct He Hk Hm. destruct (pub_write fl v ct alg exp ms k Hct He Hk Hm) as (encs & F & W). exists encs. split; [easy|]. split; [easy|].
  intros rest. apply (pub_parse v ct alg exp ms encs k rest); auto using rfcs_readable.
Qed.
Print Assumptions c25_parse_back.
(** whatever parses is a public key body, possibly followed by other octets *)
Theorem c25_only_bodies : forall data k, wf data -> pub_from_content data = Ok k -> exists v ct alg exp ms encs rest,
  data = rfc_pub_body v ct alg exp encs ++ rest /\ rfc_key v ct alg exp ms = Some k /\
  Forall2 readable_mpi ms encs /\ rfc_exp_ok v exp /\ 0 <= ct < 2 ^ 32.
Proof.
  intros data k Hw H. unfold pub_from_content in H. apply bind_ok in H as ([o k'] & H & E). injection E as <-.
  destruct (pub_inv data o k' Hw H) as (v & ct & alg & exp & ms & encs & rest & A & B & C). exists v, ct, alg, exp, ms, encs, rest. tauto.
Qed.
Print Assumptions c25_only_bodies.
(** such a body is written back as it was exactly when its integers were canonical and nothing followed: a non-canonical
    MPI is normalised and trailing octets are dropped *)
Theorem c25_reserialise_iff_canonical : forall fl v ct alg exp ms encs k rest data, 0 <= ct < 2 ^ 32 -> rfc_exp_ok v exp -> rfc_key v ct alg exp ms = Some k ->
  Forall2 readable_mpi ms encs -> Forall (fun i => bit_length i <= 65535 /\ (0 < i -> fl i = Z.log2 i)) ms ->
  data = rfc_pub_body v ct alg exp encs ++ rest ->
  pub_from_content data = Ok k /\ (pub_content fl k = Ok data <-> Forall2 rfc_mpi ms encs /\ rest = []).
Proof. exact pub_again. Qed.
Print Assumptions c25_reserialise_iff_canonical.
Theorem c25_unknown_algorithm_rejected : forall v ct alg exp rest, 0 <= ct < 2 ^ 32 -> rfc_exp_ok v exp -> ~ In alg [1; 2; 3; 16; 17; 20] ->
  pub_from_content (rfc_pub_body v ct alg exp [rest]) = Err NotImplementedError.
Proof.
  intros v ct alg exp rest Hct He Hn. unfold pub_from_content. rewrite body_hdr. rewrite (pub_unknown_alg v ct alg exp) by easy. reflexivity.
Qed.
Print Assumptions c25_unknown_algorithm_rejected.
Theorem c25_old_version_rejected : forall v t, v < 2 -> 4 <= zlen t -> pub_from_content (v :: t) = Err ValueError.
Proof. intros v t Hv Ht. unfold pub_from_content. now rewrite pub_old_version. Qed.
Print Assumptions c25_old_version_rejected.
(** refuted part of "the same octets": an RSA key whose exponent carries a leading zero bit count *)
Theorem c25_noncanonical_refuted : exists data k data', pub_from_content data = Ok k /\ pub_content Z.log2 k = Ok data' /\ data <> data' /\ wf data.
Proof.
  exists ([4; 0; 0; 0; 1; 1] ++ [0; 9; 1; 3] ++ [0; 5; 3]), (PubKey 4 1 1 None (Some 259) (Some 3) None None None None), ([4; 0; 0; 0; 1; 1] ++ [0; 9; 1; 3] ++ [0; 2; 3]).
  split; [reflexivity|]. split; [vm_compute; reflexivity|]. split; [discriminate|]. repeat constructor; unfold byte; lia.
Qed.
Print Assumptions c25_noncanonical_refuted.
Example c25_ex : rfc_key 4 1500000000 17 None [23; 11; 4; 6] = Some (PubKey 4 1500000000 17 None None None (Some 23) (Some 11) (Some 4) (Some 6)) /\
  pub_content Z.log2 (PubKey 4 1500000000 17 None None None (Some 23) (Some 11) (Some 4) (Some 6)) = Ok [4; 89; 104; 47; 0; 17; 0; 5; 23; 0; 4; 11; 0; 3; 4; 0; 3; 6] /\
  pub_from_content [4; 89; 104; 47; 0; 17; 0; 5; 23; 0; 4; 11; 0; 3; 4; 0; 3; 6] = Ok (PubKey 4 1500000000 17 None None None (Some 23) (Some 11) (Some 4) (Some 6)) /\
  pub_from_content [3; 89; 104; 47; 0; 0; 7; 1; 0; 5; 23; 0; 4; 11] = Ok (PubKey 3 1500000000 1 (Some 7) (Some 23) (Some 11) None None None None).
Proof. vm_compute. auto. Qed.

(** C26. A secret key body with a simple, salted or iterated specifier: it parses to its parts, and a packet with
    these parts (canonical integers, some encrypted material) is written as that body. *)
Theorem c26_parse_partial : forall fl v ct alg exp ms encs k u s iv bl enc, (forall i, 1024 <= i <= 65011712 -> fl i = Z.log2 i) ->
  0 <= ct < 2 ^ 32 -> rfc_exp_ok v exp -> rfc_key v ct alg exp ms = Some k -> Forall2 readable_mpi ms encs ->
  u = 254 \/ u = 255 -> s2k_ok s -> symmetric_cipher_block_lengths (s2k_sym s) = Some bl -> zlen iv = bl ->
  exists sb, s2k_bytes fl s = Ok sb /\ wf sb /\
  sec_from_content (rfc_pub_body v ct alg exp encs ++ [u; s2k_sym s] ++ sb ++ iv ++ enc) = Ok (SecKey k (Some s) (s2k_sym s) iv enc (u =? 255) (u =? 254)).
Proof. exact sec_parse. Qed.
Print Assumptions c26_parse_partial.
Theorem c26_reserialise_partial : forall fl rec v ct alg exp ms encs k u s sb iv bl enc, (forall i, 1024 <= i <= 65011712 -> fl i = Z.log2 i) ->
  0 <= ct < 2 ^ 32 -> rfc_exp_ok v exp -> rfc_key v ct alg exp ms = Some k -> Forall2 rfc_mpi ms encs ->
  Forall (fun i => bit_length i <= 65535 /\ (0 < i -> fl i = Z.log2 i)) ms ->
  u = 254 \/ u = 255 -> s2k_ok s -> s2k_bytes fl s = Ok sb -> symmetric_cipher_block_lengths (s2k_sym s) = Some bl -> zlen iv = bl -> enc <> [] ->
  exists p, sec_from_content (rfc_pub_body v ct alg exp encs ++ [u; s2k_sym s] ++ sb ++ iv ++ enc) = Ok p /\
    sec_content fl rec p = Ok (rfc_pub_body v ct alg exp encs ++ [u; s2k_sym s] ++ sb ++ iv ++ enc).
Proof.
  intros fl rec v ct alg exp ms encs k u s sb iv bl enc Hfl Hct He Hk Hr Hm Hu Hs Hsb Hb Hiv Hne.
  destruct (sec_parse fl v ct alg exp ms encs k u s iv bl enc Hfl Hct He Hk (rfcs_readable _ _ Hr) Hu Hs Hb Hiv) as (sb' & E1 & _ & E2).
  rewrite Hsb in E1. injection E1 as <-. eexists. split; [exact E2|].
  assert (Hm' : Forall (fun i => 0 <= i /\ bit_length i <= 65535 /\ (0 < i -> fl i = Z.log2 i)) ms).
  { clear Hk E2. induction Hr as [|i e ms es (l & b & -> & _ & _ & _ & <- & Hw) Hr IH]; [constructor|]. inversion Hm as [|? ? [? ?] ?]; subst.
    apply wf_app in Hw as [_ Hw]. pose proof (be_val_nonneg b Hw). constructor; [|auto]. split; [lia|easy]. }
  assert (Hsym : byte (s2k_sym s)).
  { unfold symmetric_cipher_block_lengths in Hb. unfold byte. destruct (_ =? 0) eqn:? in Hb; [lia|]. destruct (_ && _) eqn:? in Hb; [lia|]. destruct (_ && _) eqn:? in Hb; [lia|discriminate]. }
  destruct (sec_write fl v ct alg exp ms k u s iv bl enc sb rec Hct He Hk Hm' Hu Hsym Hsb Hb Hiv Hne) as (encs' & F & W). rewrite W.
  replace encs' with encs; [reflexivity|]. clear - Hr F. revert encs' F. induction Hr as [|i e ms es Hi Hr IH]; intros encs' F; inversion F as [|? e' ? es' Hi' F1]; subst; [easy|].
  f_equal; [now apply (CodecProofs.rfc_mpi_unique i)|now apply IH].
Qed.
Print Assumptions c26_reserialise_partial.
(** refuted part: no unencrypted secret key (usage octet 0), nor one with usage octet 101, ever parses *)
Theorem c26_unencrypted_refuted : forall data o k u, pub_values data = Ok (o, k) -> get data o = Ok u -> u = 0 \/ u = 101 ->
  sec_from_content data = Err UnboundLocalError.
Proof. exact sec_unencrypted. Qed.
Print Assumptions c26_unencrypted_refuted.
(** nor one whose usage octet is directly a cipher number *)
Theorem c26_cipher_usage_refuted : forall data o k u, pub_values data = Ok (o, k) -> get data o = Ok u -> ~ In u [0; 101; 254; 255] ->
  sec_from_content data = Err ValueError.
Proof. exact sec_plain_sym. Qed.
Print Assumptions c26_cipher_usage_refuted.
Example c26_ex : let data := [4; 0; 0; 0; 9; 1; 0; 9; 1; 3; 0; 2; 3; 254; 7; 3; 2; 1; 2; 3; 4; 5; 6; 7; 8; 96] ++ repeat 77 16 ++ [1; 2; 3] in
  exists p, sec_from_content data = Ok p /\ s_s2k p = Some (IteratedS2K 2 7 [1; 2; 3; 4; 5; 6; 7; 8] 65536) /\ s_enc p = [1; 2; 3] /\ sec_content Z.log2 (Ok []) p = Ok data.
Proof. eexists. split; [vm_compute; reflexivity|]. split; [reflexivity|]. split; vm_compute; reflexivity. Qed.
Example c26_ex_unencrypted : sec_from_content ([4; 0; 0; 0; 9; 1; 0; 9; 1; 3; 0; 2; 3; 0] ++ [0; 2; 3; 0; 5]) = Err UnboundLocalError.
Proof. reflexivity. Qed.

(** C27. Material encrypted as RFC 4880 5.5.3 says (CFB of the MPIs and their SHA-1) decrypts to the values... *)
Theorem c27_rfc_material_decrypts : forall E sha1 sym k bs iv ms encs, symmetric_cipher_block_lengths sym = Some bs -> sym <> 0 -> In (zlen k) (cipher_key_sizes sym) -> zlen iv = bs -> wf iv ->
  good_block (E sym k) bs -> (forall d, zlen (sha1 d) = 20 /\ wf (sha1 d)) -> Forall2 readable_mpi ms encs ->
  decrypt_portion_v4 E sha1 (Some k) sym iv (rfc_cfb_enc (E sym k) (Z.to_nat bs) iv (concat encs ++ sha1 (concat encs))) false true = Ok ms.
Proof. exact c27_values. Qed.
Print Assumptions c27_rfc_material_decrypts.
(** ... and with the SHA-1 check on, only plaintexts that end in the SHA-1 of the rest are accepted *)
Theorem c27_only_good_sha1 : forall E sha1 sym k bs iv ct vs, symmetric_cipher_block_lengths sym = Some bs -> sym <> 0 -> In (zlen k) (cipher_key_sizes sym) -> zlen iv = bs -> wf iv ->
  good_block (E sym k) bs -> wf ct -> (forall d, zlen (sha1 d) = 20) ->
  decrypt_portion_v4 E sha1 (Some k) sym iv ct false true = Ok vs -> exists m, rfc_cfb_dec (E sym k) (Z.to_nat bs) iv ct = m ++ sha1 m.
Proof. exact c27_accept. Qed.
Print Assumptions c27_only_good_sha1.
Theorem c27_bad_sha1_rejected : forall E sha1 sym k bs iv m h, symmetric_cipher_block_lengths sym = Some bs -> sym <> 0 -> In (zlen k) (cipher_key_sizes sym) -> zlen iv = bs -> wf iv ->
  good_block (E sym k) bs -> wf (m ++ h) -> zlen h = 20 -> h <> sha1 m ->
  decrypt_portion_v4 E sha1 (Some k) sym iv (rfc_cfb_enc (E sym k) (Z.to_nat bs) iv (m ++ h)) false true = Err ValueError.
Proof. exact c27_reject. Qed.
Print Assumptions c27_bad_sha1_rejected.
(** refuted part: material with a two-octet checksum (usage 255) never decrypts *)
Theorem c27_checksum_refuted : forall E sha1 sym k bs iv ct h, symmetric_cipher_block_lengths sym = Some bs -> sym <> 0 -> In (zlen k) (cipher_key_sizes sym) -> zlen iv = bs -> wf iv ->
  good_block (E sym k) bs -> wf ct -> decrypt_portion_v4 E sha1 (Some k) sym iv ct true h = Err TypeError.
Proof. exact dec_checksum. Qed.
Print Assumptions c27_checksum_refuted.
(** refuted part: what the code itself encrypts is not that material: for every list of values either encryption raises
    ValueError, or its result is a block and two octets longer than the material that decryption expects *)
Theorem c27_own_encryption_refuted : forall fl E sha1 sym k bs iv values d, symmetric_cipher_block_lengths sym = Some bs -> sym <> 0 -> In (zlen k) (cipher_key_sizes sym) -> zlen iv = bs -> wf iv ->
  good_block (E sym k) bs -> (forall d, zlen (sha1 d) = 20 /\ wf (sha1 d)) -> key_values_data fl values = Ok d -> wf d ->
  if zlen d mod bs =? 0 then exists e, encrypt_key_values_v4 fl E sha1 values k sym iv false true = Ok e /\ zlen e = zlen d + 20 + (bs + 2)
  else encrypt_key_values_v4 fl E sha1 values k sym iv false true = Err ValueError.
Proof. exact c27_lock. Qed.
Print Assumptions c27_own_encryption_refuted.
(** concrete toy cipher and hash: the RFC material decrypts, the code's own does not *)
Definition toyK (a : Z) (k b : bytes) : bytes := firstn 16 (map (fun x => (x * 5 + 3) mod 256) (rev b) ++ repeat 1 16).
Definition toyS (d : bytes) : bytes := repeat ((fold_left Z.add d 7) mod 256) 20.
Example c27_ex : let iv := repeat 9 16 in let k := repeat 3 16 in let m := [0; 9; 1; 3] ++ [0; 2; 3] in
  decrypt_portion_v4 toyK toyS (Some k) 7 iv (rfc_cfb_enc (toyK 7 k) 16 iv (m ++ toyS m)) false true = Ok [259; 3] /\
  decrypt_portion_v4 toyK toyS (Some k) 7 iv (rfc_cfb_enc (toyK 7 k) 16 iv (m ++ repeat 0 20)) false true = Err ValueError /\
  encrypt_key_values_v4 Z.log2 toyK toyS [259; 3] k 7 iv false true = Err ValueError /\
  (exists e, encrypt_key_values_v4 Z.log2 toyK toyS [3; 2 ^ 86] k 7 iv false true = Ok e /\ zlen e = 16 + 20 + 18 /\
             decrypt_portion_v4 toyK toyS (Some k) 7 iv e false true = Err ValueError).
Proof. split; [vm_compute; reflexivity|]. split; [vm_compute; reflexivity|]. split; [vm_compute; reflexivity|]. eexists. split; [vm_compute; reflexivity|]. split; vm_compute; reflexivity. Qed.

(** C37. The fingerprint of a version 4 (or later) key is the hexadecimal SHA-1 of 0x99, the two-octet length and the
    RFC 4880 public body *)
Theorem c37_fingerprint_v4_partial : forall fl md5 sha1 v ct alg exp ms k, 0 <= ct < 2 ^ 32 -> rfc_exp_ok v exp -> 4 <= v -> rfc_key v ct alg exp ms = Some k ->
  Forall (fun i => 0 <= i /\ bit_length i <= 65535 /\ (0 < i -> fl i = Z.log2 i)) ms -> (forall d, wf (sha1 d)) ->
  exists encs, Forall2 rfc_mpi ms encs /\
    fingerprint fl md5 sha1 k = Ok (hex_text (sha1 ([153] ++ be_bytes 2 (zlen (rfc_pub_body v ct alg exp encs)) ++ rfc_pub_body v ct alg exp encs))).
Proof. exact fp_v4. Qed.
Print Assumptions c37_fingerprint_v4_partial.
(** the key id is its last 16 digits, that is the last 8 octets *)
Theorem c37_key_id : forall fl md5 sha1 k h, wf h -> zlen h = 20 -> fingerprint fl md5 sha1 k = Ok (hex_text h) -> key_id fl md5 sha1 k = Ok (hex_text (slice_from h 12)).
Proof. intros fl md5 sha1 k h Hw Hl H. unfold key_id. rewrite H. cbn [bind]. now rewrite last16. Qed.
Print Assumptions c37_key_id.
(** the hashed octets determine the key: two keys with the same hashed octets are the same key *)
Theorem c37_hashed_octets_determine_key : forall fl k k' c c' v ct alg exp ms v' ct' alg' exp' ms',
  0 <= ct < 2 ^ 32 -> rfc_exp_ok v exp -> rfc_key v ct alg exp ms = Some k -> Forall (fun i => 0 <= i /\ bit_length i <= 65535 /\ (0 < i -> fl i = Z.log2 i)) ms ->
  0 <= ct' < 2 ^ 32 -> rfc_exp_ok v' exp' -> rfc_key v' ct' alg' exp' ms' = Some k' -> Forall (fun i => 0 <= i /\ bit_length i <= 65535 /\ (0 < i -> fl i = Z.log2 i)) ms' ->
  pub_content fl k = Ok c -> pub_content fl k' = Ok c' -> hash_key c = hash_key c' -> k = k'.
Proof.
  intros fl k k' c c' v ct alg exp ms v' ct' alg' exp' ms' A1 A2 A3 A4 B1 B2 B3 B4 Hc Hc' H. apply hash_key_inj in H. subst c'.
  destruct (c25_parse_back fl v ct alg exp ms k A1 A2 A3 A4) as (e & _ & P1 & P2). destruct (c25_parse_back fl v' ct' alg' exp' ms' k' B1 B2 B3 B4) as (e' & _ & Q1 & Q2).
  rewrite Hc in P1. rewrite Hc' in Q1. injection P1 as P1. injection Q1 as Q1. specialize (P2 []). specialize (Q2 []). rewrite app_nil_r in *. rewrite <- P1 in P2. rewrite <- Q1 in Q2. congruence.
Qed.
Print Assumptions c37_hashed_octets_determine_key.
(** refuted part: version 2 and 3 RSA and ElGamal keys have no fingerprint at all, and other version 2 and 3 keys all
    share one *)
Theorem c37_v3_refuted : forall fl md5 sha1 k, k_version k < 4 ->
  fingerprint fl md5 sha1 k = if is_rsa_alg (k_alg k) || is_elg_alg (k_alg k) then Err AttributeError else hexdigest (md5 []).
Proof. intros fl md5 sha1 k H. unfold fingerprint. now replace (k_version k <? 4) with true by lia. Qed.
Print Assumptions c37_v3_refuted.
Example c37_ex : key_id Z.log2 toyS toyS (PubKey 4 9 1 None (Some 259) (Some 3) None None None None) = Ok (hex_text (repeat 205 8)) /\
  fingerprint Z.log2 toyS toyS (PubKey 3 9 1 (Some 1) (Some 259) (Some 3) None None None None) = Err AttributeError.
Proof. vm_compute. auto. Qed.
