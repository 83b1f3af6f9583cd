(** Property theorems C21-C23: string-to-key specifiers. *)
From Verif Require Import Base BaseProofs Utils UtilsProofs S2k SpecS2k S2kProofs.

(** C21. The logarithm is only used on 1024..65011712 (see C04). *)
Theorem c21_s2k_round_trip : forall (fl : Z -> Z) s pre suf,
  (forall i, 1024 <= i <= 65011712 -> fl i = Z.log2 i) -> s2k_ok s ->
  exists enc, s2k_bytes fl s = Ok enc /\ wf enc /\
    parse_s2k_bytes (s2k_sym s) (pre ++ enc ++ suf) (zlen pre) = Ok (s, zlen (pre ++ enc)).
Proof. exact c21_round. Qed.
Print Assumptions c21_s2k_round_trip.
(** anything parsed from octets that were really there is valid and is written back unchanged,
    except the GnuPG extension, which can be parsed but never written *)
Theorem c21_s2k_reserialise : forall (fl : Z -> Z) sym data off s off',
  (forall i, 1024 <= i <= 65011712 -> fl i = Z.log2 i) -> wf data -> 0 <= off ->
  parse_s2k_bytes sym data off = Ok (s, off') -> off' <= zlen data ->
  s2k_sym s = sym /\
  match s with
  | GnuPGS2K _ _ _ _ _ => s2k_bytes fl s = Err TypeError
  | _ => s2k_ok s /\ s2k_bytes fl s = Ok (slice data off off')
  end.
Proof. exact c21_again. Qed.
Print Assumptions c21_s2k_reserialise.
Theorem c21_unknown_type_rejected : forall sym data off t, get data off = Ok t ->
  t <> 0 -> t <> 1 -> t <> 3 -> t <> 101 -> parse_s2k_bytes sym data off = Err ValueError.
Proof. exact c21_unknown. Qed.
Print Assumptions c21_unknown_type_rejected.
(** the GnuPG extension is parsed and cannot be written *)
Theorem c21_gnupg_refuted : exists data s, parse_s2k_bytes 9 data 0 = Ok (s, zlen data) /\ s2k_bytes Z.log2 s = Err TypeError.
Proof. exists [101; 0; 71; 78; 85; 1]. eexists. split; vm_compute; reflexivity. Qed.
Print Assumptions c21_gnupg_refuted.
(** a salted specifier cut short is accepted with a short salt and an offset beyond the data *)
Theorem c21_truncated_salt_refuted : exists data s off, parse_s2k_bytes 9 data 0 = Ok (s, off) /\ zlen data < off /\ s2k_salt s = [1; 2].
Proof. exists [1; 2; 1; 2]. eexists _, _. split; [vm_compute; reflexivity|]. split; reflexivity. Qed.
Print Assumptions c21_truncated_salt_refuted.
Example c21_example : s2k_ok (IteratedS2K 8 9 [1; 2; 3; 4; 5; 6; 7; 8] 65536) /\
  s2k_bytes Z.log2 (IteratedS2K 8 9 [1; 2; 3; 4; 5; 6; 7; 8] 65536) = Ok [3; 8; 1; 2; 3; 4; 5; 6; 7; 8; 96] /\
  parse_s2k_bytes 9 [3; 8; 1; 2; 3; 4; 5; 6; 7; 8; 96] 0 = Ok (IteratedS2K 8 9 [1; 2; 3; 4; 5; 6; 7; 8] 65536, 11).
Proof.
  split; [|vm_compute; auto]. split; [unfold byte; lia|]. split; [repeat constructor; unfold byte; lia|]. split; [reflexivity|].
  exists 96. split; [unfold byte; lia|reflexivity].
Qed.

(** C22. [H alg] is the hash function; the key does not depend on how many instances are available
    once they produce enough octets. *)
Theorem c22_to_key_is_rfc : forall (H : Z -> bytes -> bytes) s pass hl req n,
  rfc_hash_length (s2k_hash s) = Some hl -> rfc_key_length (s2k_sym s) = Some req -> s2k_sym s <> 10 ->
  (forall d, zlen (H (s2k_hash s) d) = hl) ->
  rfc_ok s pass -> req <= hl * Z.of_nat n ->
  to_key H s pass = Ok (Some (rfc_key (H (s2k_hash s)) (rfc_input s pass) n req)).
Proof.
  intros H s pass hl req n A B T C. apply (to_key_rfc H s pass hl req n); [rewrite hash_table; exact A|rewrite c23_table by exact T; exact B|exact C].
Qed.
Print Assumptions c22_to_key_is_rfc.
(** a salt and passphrase longer than the count must be hashed whole (RFC 4880 3.7.1.3); the code cuts them *)
Theorem c22_long_passphrase_refuted : exists (H : Z -> bytes -> bytes) s pass,
  s2k_ok s /\ (forall d, zlen (H (s2k_hash s) d) = 20) /\ hash_lengths (s2k_hash s) = Some 20 /\
  to_key H s pass <> Ok (Some (rfc_key (H (s2k_hash s)) (rfc_input s pass) 2 16)) /\
  to_key H s pass = to_key H s (pass ++ [7]).
Proof.
  exists (fun _ d => repeat (zlen d mod 256) 20), (IteratedS2K 2 7 [1; 2; 3; 4; 5; 6; 7; 8] 1024), (repeat 65 1100).
  split; [split; [unfold byte; lia|]; split; [repeat constructor; unfold byte; lia|]; split; [reflexivity|]; exists 0; split; [unfold byte; lia|reflexivity]|].
  split; [intros; unfold zlen; rewrite repeat_length; reflexivity|]. split; [reflexivity|]. split; [vm_compute; discriminate|vm_compute; reflexivity].
Qed.
Print Assumptions c22_long_passphrase_refuted.
(** the two cases where nothing is derived: a GnuPG specifier gives None, an unknown algorithm a TypeError *)
Theorem c22_gnupg_no_key : forall H h m a sn sl pass, to_key H (GnuPGS2K h m a sn sl) pass = Ok None.
Proof. reflexivity. Qed.
Print Assumptions c22_gnupg_no_key.
Example c22_example : to_key (fun _ d => repeat (zlen d mod 256) 20) (IteratedS2K 2 9 [1; 2; 3; 4; 5; 6; 7; 8] 1024) [65] =
  Ok (Some (repeat 0 20 ++ repeat 1 12)) /\ rfc_ok (IteratedS2K 2 9 [1; 2; 3; 4; 5; 6; 7; 8] 1024) [65].
Proof. split; [vm_compute; reflexivity|]. split; [reflexivity|]. unfold zlen; cbn; lia. Qed.

(** C23 *)
Theorem c23_key_length : forall (H : Z -> bytes -> bytes) s pass k req,
  (forall a hl, rfc_hash_length a = Some hl -> forall d, zlen (H a d) = hl) ->
  rfc_key_length (s2k_sym s) = Some req -> s2k_sym s <> 10 ->
  to_key H s pass = Ok (Some k) -> zlen k = req.
Proof.
  intros H s pass k req A B T C. apply (to_key_len H s pass k req); [intros a hl; rewrite hash_table; apply A|rewrite c23_table by exact T; exact B|exact C].
Qed.
Print Assumptions c23_key_length.
(** the other tables are those of the RFC *)
Theorem c23_hash_and_block_tables : forall a, hash_lengths a = rfc_hash_length a /\ symmetric_cipher_block_lengths a = rfc_block_length a.
Proof. intros a. split; [apply hash_table|apply block_table]. Qed.
Print Assumptions c23_hash_and_block_tables.
(** the library's table agrees with RFC 4880 for every algorithm except Twofish, whose 256-bit key is cut to 128 *)
Theorem c23_table_partial : forall a, a <> 10 -> symmetric_cipher_key_lengths a = rfc_key_length a.
Proof. exact c23_table. Qed.
Print Assumptions c23_table_partial.
Theorem c23_twofish_refuted : symmetric_cipher_key_lengths 10 = Some 16 /\ rfc_key_length 10 = Some 32.
Proof. split; reflexivity. Qed.
Print Assumptions c23_twofish_refuted.
Example c23_example : exists k, to_key (fun _ d => repeat (zlen d mod 256) 20) (SimpleS2K 2 9) [65; 66] = Ok (Some k) /\ zlen k = 32.
Proof. eexists. split; vm_compute; reflexivity. Qed.
