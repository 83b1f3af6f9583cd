(** Property theorems C45-C46: chaining modes (pgp/cipher/base.py) and the IDEA block cipher (pgp/cipher/aidea.py). *)
From Verif Require Import Base BaseProofs Spec Utils Cipher SpecCipher CipherProofs CipherProps Idea SpecIdea IdeaProofs IdeaModel.

(** C45. However the plaintext is split into calls and however the ciphertext is split into calls (each call of a
    length the mode accepts), a fresh object decrypts what a fresh object encrypted; outputs have the inputs' lengths. *)
Theorem c45_decrypt_inverts : forall (E D : bytes -> bytes) (ctr : nat -> bytes) bs ks key mode IV hc seg o chunks,
  0 < bs -> block_cipher bs E D -> (forall k, wf (ctr k) /\ zlen (ctr k) = bs) -> (forall iv, IV = Some iv -> wf iv) ->
  cipher_new bs ks key mode IV hc seg = Ok o ->
  Forall (fun c => wf c /\ valid_len o (zlen c)) chunks ->
  exists outs o', encrypt_calls E ctr o chunks = Ok (outs, o') /\ map zlen outs = map zlen chunks /\
  forall pieces, concat pieces = concat outs -> Forall (fun c => valid_len o (zlen c)) pieces ->
  exists res o'', decrypt_calls E D ctr o pieces = Ok (res, o'') /\ concat res = concat chunks.
Proof. exact c45_round. Qed.
Print Assumptions c45_decrypt_inverts.
(** what is written is the ciphertext of NIST SP 800-38A *)
Theorem c45_modes_are_sp800_38a : forall (E D : bytes -> bytes) (ctr : nat -> bytes) bs ks key mode iv hc seg o chunks outs o',
  0 < bs -> block_cipher bs E D -> (forall k, wf (ctr k) /\ zlen (ctr k) = bs) -> wf iv ->
  cipher_new bs ks key mode (Some iv) hc seg = Ok o ->
  Forall (fun c => wf c /\ valid_len o (zlen c)) chunks ->
  encrypt_calls E ctr o chunks = Ok (outs, o') ->
  (mode = MODE_ECB -> forall bl, concat bl = concat chunks -> Forall (fun b => zlen b = bs) bl -> concat outs = concat (ecb_spec E bl)) /\
  (mode = MODE_CBC -> forall bl, concat bl = concat chunks -> Forall (fun b => zlen b = bs) bl -> concat outs = concat (cbc_spec E iv bl)) /\
  (mode = MODE_CFB -> forall s bl, c_seg o = 8 * s -> concat bl = concat chunks -> Forall (fun b => zlen b = s) bl -> concat outs = concat (cfb_spec E (Z.to_nat s) iv bl)) /\
  (mode = MODE_OFB -> forall n, zlen (concat chunks) <= bs * Z.of_nat n -> concat outs = xor_bytes (concat chunks) (concat (ofb_blocks E iv n))).
Proof. exact c45_spec. Qed.
Print Assumptions c45_modes_are_sp800_38a.
Theorem c45_ctr_is_sp800_38a : forall (E D : bytes -> bytes) (ctr : nat -> bytes) bs ks key IV hc seg o chunks outs o' n,
  0 < bs -> block_cipher bs E D -> (forall k, wf (ctr k) /\ zlen (ctr k) = bs) ->
  cipher_new bs ks key MODE_CTR IV hc seg = Ok o -> encrypt_calls E ctr o chunks = Ok (outs, o') ->
  zlen (concat chunks) <= bs * Z.of_nat n -> concat outs = xor_bytes (concat chunks) (concat (ctr_blocks E ctr n)).
Proof. exact c45_spec_ctr. Qed.
Print Assumptions c45_ctr_is_sp800_38a.
(** a length the mode cannot take is refused, never silently cut or padded *)
Theorem c45_bad_length_rejected : forall (E D : bytes -> bytes) (ctr : nat -> bytes) bs ks key mode IV hc seg o c,
  cipher_new bs ks key mode IV hc seg = Ok o -> ~ valid_len o (zlen c) ->
  cipher_encrypt E ctr o c = Err ValueError /\ cipher_decrypt E D ctr o c = Err ValueError.
Proof. exact c45_rejects. Qed.
Print Assumptions c45_bad_length_rejected.
(** constructing an object succeeds only for the five modes, an accepted key size, an IV of one block where the mode
    has one, whole-octet CFB segments of at most a block, and a counter exactly for CTR *)
Theorem c45_new_validates : forall bs ks key mode IV hc seg o, cipher_new bs ks key mode IV hc seg = Ok o ->
  In mode [MODE_ECB; MODE_CBC; MODE_CFB; MODE_OFB; MODE_CTR] /\ c_mode o = mode /\ In (zlen key) ks /\
  (mode <> MODE_ECB -> mode <> MODE_CTR -> exists iv, IV = Some iv /\ zlen iv = bs) /\
  (mode = MODE_CFB -> exists s, 0 < s <= bs /\ c_seg o = 8 * s) /\ (hc = true <-> mode = MODE_CTR).
Proof.
  intros bs ks key mode IV hc seg o H. destruct (cipher_new_inv _ _ _ _ _ _ _ _ H) as (H1 & H2 & _ & _ & _ & H3 & H4 & H5 & H6).
  repeat split; try easy; try tauto. intros A B. destruct (H4 A B) as (iv & ? & _ & ?). eauto.
Qed.
Print Assumptions c45_new_validates.

(** a concrete cipher: rotate a 4-octet block and flip bits *)
Definition toyE (b : bytes) : bytes := match b with [p; q; r; s] => [s; Z.lxor p 90; q; r] | _ => b end.
Definition toyD (b : bytes) : bytes := match b with [s; p; q; r] => [Z.lxor p 90; q; r; s] | _ => b end.
Definition toy_ctr (k : nat) : bytes := [1; 2; 3; Z.of_nat k mod 256].
Lemma toy_ok : block_cipher 4 toyE toyD.
Proof.
  intros b Hw Hl. unfold zlen in Hl. destruct b as [|p [|q [|r [|s [|? ?]]]]]; cbn in Hl; try lia. cbn [toyE toyD].
  rewrite !wf_cons in Hw. destruct Hw as (Hp & Hq & Hr & Hs & _). split.
  - split; [|reflexivity]. rewrite !wf_cons. repeat split; try apply Hs; try apply Hq; try apply Hr; try constructor.
    + apply lxor_byte; [exact Hp|unfold byte; lia].
    + apply lxor_byte; [exact Hp|unfold byte; lia].
  - rewrite Z.lxor_assoc. now rewrite Z.lxor_nilpotent, Z.lxor_0_r.
Qed.
Example c45_example : exists o outs o', cipher_new 4 [16] (repeat 7 16) MODE_CFB (Some [9; 8; 7; 6]) false 16 = Ok o /\
  encrypt_calls toyE toy_ctr o [[1; 2]; [3; 4; 5; 6]] = Ok (outs, o') /\ concat outs <> [1; 2; 3; 4; 5; 6] /\
  exists o'', decrypt_calls toyE toyD toy_ctr o [slice (concat outs) 0 4; slice (concat outs) 4 6] = Ok ([[1; 2; 3; 4]; [5; 6]], o'').
Proof. eexists _, _, _. split; [reflexivity|]. split; [vm_compute; reflexivity|]. split; [vm_compute; discriminate|]. eexists. vm_compute. reflexivity. Qed.
Example c45_example_ctr : exists o outs o', cipher_new 4 [16] (repeat 7 16) MODE_CTR None true 0 = Ok o /\
  encrypt_calls toyE toy_ctr o [[1]; [2; 3; 4; 5; 6; 7; 8]; [9]] = Ok (outs, o') /\
  exists o'', decrypt_calls toyE toyD toy_ctr o [concat outs] = Ok ([[1; 2; 3; 4; 5; 6; 7; 8; 9]], o'').
Proof. eexists _, _, _. split; [reflexivity|]. split; [vm_compute; reflexivity|]. eexists. vm_compute. reflexivity. Qed.

(** C46. Encryption is published IDEA, for every key and block. *)
Theorem c46_encrypt_is_idea : forall key b s, wf key -> zlen key = 16 -> wf b -> words_of b = Some s ->
  idea_encrypt key b = Ok (octets_of (idea_words (idea_subkey (be_val key)) s)).
Proof. exact c46_enc. Qed.
Print Assumptions c46_encrypt_is_idea.
Theorem c46_decrypt_inverts : forall key b, wf key -> zlen key = 16 -> wf b -> zlen b = 8 ->
  exists c, idea_encrypt key b = Ok c /\ wf c /\ zlen c = 8 /\ idea_decrypt key c = Ok b.
Proof. exact c46_inverse. Qed.
Print Assumptions c46_decrypt_inverts.
(** the 16-bit trick used for multiplication is multiplication modulo 65537 with 0 standing for 65536 *)
Theorem c46_mul_is_mod_65537 : forall x y, (mul x y) mod 65536 = imul (x mod 65536) (y mod 65536).
Proof. exact mul_spec. Qed.
Print Assumptions c46_mul_is_mod_65537.
Theorem c46_mul_inverse : forall x, 0 <= x < 65536 -> exists y, mul_inv x = Ok y /\ 0 <= y < 65536 /\ (rep x * rep y) mod 65537 = 1.
Proof. exact mul_inv_ok. Qed.
Print Assumptions c46_mul_inverse.
Theorem c46_group : (forall a b c, 0 <= a < 65536 -> 0 <= b < 65536 -> 0 <= c < 65536 -> imul (imul a b) c = imul a (imul b c)) /\
  (forall a b, imul a b = imul b a) /\ (forall a, 0 <= a < 65536 -> imul a 1 = a) /\
  (forall a, 0 <= a < 65536 -> exists b, mul_inv a = Ok b /\ 0 <= b < 65536 /\ imul a b = 1).
Proof.
  repeat split; [exact imul_assoc|exact imul_comm|exact imul_1|]. intros a Ha. exists (inv_word a). now apply inv_word_ok.
Qed.
Print Assumptions c46_group.
Theorem c46_bad_block_rejected : forall key b, wf key -> zlen key = 16 -> wf b -> zlen b <> 8 ->
  (exists e, idea_encrypt key b = Err e) /\ (exists e, idea_decrypt key b = Err e).
Proof. exact c46_bad_block. Qed.
Print Assumptions c46_bad_block_rejected.
(** hence IDEA is a block cipher in the sense of C45, so every mode of C45 applied to it round-trips *)
Definition idea_E (key b : bytes) : bytes := match idea_encrypt key b with Ok c => c | Err _ => [] end.
Definition idea_D (key b : bytes) : bytes := match idea_decrypt key b with Ok c => c | Err _ => [] end.
Theorem c46_idea_is_block_cipher : forall key, wf key -> zlen key = 16 -> block_cipher 8 (idea_E key) (idea_D key).
Proof.
  intros key Hk Hl b Hb Hbl. destruct (c46_inverse key b Hk Hl Hb Hbl) as (c & H1 & H2 & H3 & H4).
  unfold idea_E, idea_D. rewrite H1, H4. auto.
Qed.
Print Assumptions c46_idea_is_block_cipher.
Example c46_test_vector : idea_encrypt [0; 1; 0; 2; 0; 3; 0; 4; 0; 5; 0; 6; 0; 7; 0; 8] [0; 0; 0; 1; 0; 2; 0; 3] = Ok [17; 251; 237; 43; 1; 152; 109; 229]
  /\ idea_decrypt [0; 1; 0; 2; 0; 3; 0; 4; 0; 5; 0; 6; 0; 7; 0; 8] [17; 251; 237; 43; 1; 152; 109; 229] = Ok [0; 0; 0; 1; 0; 2; 0; 3].
Proof. split; vm_compute; reflexivity. Qed.
