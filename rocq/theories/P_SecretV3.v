(** C27, versions 2 and 3, and what decrypt sets *)
From Verif Require Import Base BaseProofs Spec Utils S2k Cipher SymCipher SpecCfb CfbProofs KeyPackets SpecKey KeyProofs SecretV3 P_Keys.

(** C27: a secret key packet of version 4 whose material was encrypted as RFC 4880 5.5.3 says, under the key derived from the
    passphrase, decrypts to the secret values of its algorithm, each in its place. *)
Theorem c27_packet_decrypts : forall E sha1 k key bs ms encs, 4 <= k_version (s_pub k) ->
  symmetric_cipher_block_lengths (s_sym k) = Some bs -> s_sym k <> 0 -> In (zlen key) (cipher_key_sizes (s_sym k)) -> zlen (s_iv k) = bs -> wf (s_iv k) ->
  good_block (E (s_sym k) key) bs -> (forall d, zlen (sha1 d) = 20 /\ wf (sha1 d)) -> Forall2 readable_mpi ms encs ->
  s_checksum k = false -> s_hash k = true -> s_enc k = rfc_cfb_enc (E (s_sym k) key) (Z.to_nat bs) (s_iv k) (concat encs ++ sha1 (concat encs)) ->
  (In (k_alg (s_pub k)) [1; 2; 3] -> forall d p q u, ms = [d; p; q; u] -> packet_decrypt E sha1 (Ok (Some key)) k = Ok (RsaSecrets d p q u)) /\
  (In (k_alg (s_pub k)) [16; 17; 20] -> forall x, ms = [x] -> packet_decrypt E sha1 (Ok (Some key)) k = Ok (OneSecret x)).
Proof.
  intros E sha1 k key bs ms encs V B S K I W G H F C Hh Enc.
  assert (D : decrypt_portion E sha1 (k_version (s_pub k)) (Some key) (s_sym k) (s_iv k) (s_enc k) (s_checksum k) (s_hash k) = Ok ms).
  { unfold decrypt_portion. replace (4 <=? k_version (s_pub k)) with true by (symmetry; apply Z.leb_le; exact V). rewrite C, Hh, Enc.
    exact (c27_rfc_material_decrypts E sha1 (s_sym k) key bs (s_iv k) ms encs B S K I W G H F). }
  unfold packet_decrypt. cbn [bind]. rewrite D. cbn [bind]. split.
  - intros A d p q u ->. unfold is_rsa_alg. destruct A as [<-|[<-|[<-|[]]]]; reflexivity.
  - intros A x ->. unfold is_rsa_alg. destruct A as [<-|[<-|[<-|[]]]]; reflexivity.
Qed.
Print Assumptions c27_packet_decrypts.
(** refuted part: no secret key of version 2 or 3 can be decrypted, whatever its material and the passphrase; with any material
    and a usable key it is an AttributeError *)
Theorem c27_version3_refuted : forall E sha1 to_key k, k_version (s_pub k) = 2 \/ k_version (s_pub k) = 3 ->
  (forall r, packet_decrypt E sha1 to_key k <> Ok r) /\
  (forall key o, to_key = Ok (Some key) -> get_cfb_cipher (s_sym k) (Some key) (s_iv k) = Ok o -> s_enc k <> [] -> packet_decrypt E sha1 to_key k = Err AttributeError).
Proof.
  intros E sha1 to_key k V.
  assert (D : forall key, decrypt_portion E sha1 (k_version (s_pub k)) key (s_sym k) (s_iv k) (s_enc k) (s_checksum k) (s_hash k) =
                          decrypt_portion_v3 sha1 key (s_sym k) (s_iv k) (s_enc k) (s_checksum k) (s_hash k)).
  { intros key. unfold decrypt_portion. destruct V as [-> | ->]; reflexivity. }
  split.
  - intros r. unfold packet_decrypt. destruct to_key as [key|]; cbn [bind]; [|discriminate]. rewrite D. unfold decrypt_portion_v3.
    destruct (get_cfb_cipher _ _ _); cbn [bind]; [|discriminate]. destruct (s_enc k); [|discriminate]. destruct (s_checksum k); [discriminate|].
    assert (N : forall vs, vs = @nil Z -> (if is_rsa_alg (k_alg (s_pub k)) then match vs with d :: p :: q :: u :: _ => Ok (RsaSecrets d p q u) | _ => Err IndexError end
      else if (k_alg (s_pub k) =? 16) || (k_alg (s_pub k) =? 17) || (k_alg (s_pub k) =? 20) then match vs with x :: _ => Ok (OneSecret x) | [] => Err IndexError end else Err ValueError) <> Ok r).
    { intros vs ->. destruct (is_rsa_alg _); [discriminate|]. destruct (_ || _); discriminate. }
    destruct (s_hash k); [destruct (negb _); [discriminate|]|]; cbn [bind]; exact (N [] eq_refl).
  - intros key o -> O Ne. unfold packet_decrypt. cbn [bind]. rewrite D. unfold decrypt_portion_v3. rewrite O. cbn [bind]. destruct (s_enc k); [contradiction|reflexivity].
Qed.
Print Assumptions c27_version3_refuted.
(** ... nor can secret values be encrypted for them *)
Theorem c27_version3_encrypt_refuted : forall fl opened v t r, encrypt_key_values_v3 fl opened (v :: t) <> Ok r.
Proof. intros. unfold encrypt_key_values_v3. destruct opened; cbn [bind]; [|discriminate]. destruct (key_values_data _ _); discriminate. Qed.
Print Assumptions c27_version3_encrypt_refuted.
(** too few values: an RSA packet of version 4 that decrypts to fewer than four values is refused with IndexError *)
Theorem c27_too_few_values : forall E sha1 k key ms, decrypt_portion E sha1 (k_version (s_pub k)) (Some key) (s_sym k) (s_iv k) (s_enc k) (s_checksum k) (s_hash k) = Ok ms ->
  In (k_alg (s_pub k)) [1; 2; 3] -> zlen ms < 4 -> packet_decrypt E sha1 (Ok (Some key)) k = Err IndexError.
Proof.
  intros E sha1 k key ms D A L. unfold packet_decrypt. cbn [bind]. rewrite D. cbn [bind]. unfold is_rsa_alg.
  assert (Q : match ms with d :: p :: q :: u :: _ => Ok (RsaSecrets d p q u) | _ => Err IndexError end = Err IndexError).
  { destruct ms as [|a [|b [|c [|d t]]]]; try reflexivity. exfalso. unfold zlen in L. cbn [length] in L. lia. }
  destruct A as [<-|[<-|[<-|[]]]]; exact Q.
Qed.
Print Assumptions c27_too_few_values.
Example c27_packet_ex : let iv := repeat 9 16 in let key := repeat 3 16 in let m := [0; 9; 1; 3] in
  packet_decrypt toyK toyS (Ok (Some key)) (SecKey (PubKey 4 9 17 None None None (Some 7) (Some 5) (Some 3) (Some 2)) (Some (SimpleS2K 2 7)) 7 iv (rfc_cfb_enc (toyK 7 key) 16 iv (m ++ toyS m)) false true) = Ok (OneSecret 259) /\
  packet_decrypt toyK toyS (Ok (Some key)) (SecKey (PubKey 3 9 17 (Some 0) None None (Some 7) (Some 5) (Some 3) (Some 2)) (Some (SimpleS2K 2 7)) 7 iv (rfc_cfb_enc (toyK 7 key) 16 iv (m ++ toyS m)) false true) = Err AttributeError.
Proof. split; [vm_compute; reflexivity|vm_compute; reflexivity]. Qed.
