(** Property theorems C01-C07: integer, MPI, S2K-count, hexadecimal and length codecs. *)
From Verif Require Import Base BaseProofs Spec Utils UtilsProofs HexProofs Framing SpecFraming FramingProofs CodecProofs.

(** C01 *)
Theorem c01_int_to_2byte : forall (i : Z) (pre suf : bytes), 0 <= i ->
  zlen (int_to_2byte i) = 2 /\ wf (int_to_2byte i) /\
  bytes_to_int (pre ++ int_to_2byte i ++ suf) (zlen pre) 2 = Ok (i mod 2 ^ 16).
Proof. exact c01_2. Qed.
Print Assumptions c01_int_to_2byte.
Theorem c01_int_to_4byte : forall (i : Z) (pre suf : bytes), 0 <= i ->
  zlen (int_to_4byte i) = 4 /\ wf (int_to_4byte i) /\
  bytes_to_int (pre ++ int_to_4byte i ++ suf) (zlen pre) 4 = Ok (i mod 2 ^ 32).
Proof. exact c01_4. Qed.
Print Assumptions c01_int_to_4byte.
Theorem c01_int_to_8byte : forall (i : Z) (pre suf : bytes), 0 <= i ->
  zlen (int_to_8byte i) = 8 /\ wf (int_to_8byte i) /\
  bytes_to_int (pre ++ int_to_8byte i ++ suf) (zlen pre) 8 = Ok (i mod 2 ^ 64).
Proof. exact c01_8. Qed.
Print Assumptions c01_int_to_8byte.
(** bytes_to_int is the big-endian value of the octets it covers and fails exactly when they are not there *)
Theorem c01_bytes_to_int_value : forall (data : bytes) (offset len : Z), 0 <= offset -> 0 < len ->
  bytes_to_int data offset len =
    if offset + len <=? zlen data then Ok (be_val (slice data offset (offset + len))) else Err IndexError.
Proof. exact bytes_to_int_exact. Qed.
Print Assumptions c01_bytes_to_int_value.
Example c01_example : int_to_2byte 258 = [1; 2] /\ bytes_to_int [9; 1; 2; 7] 1 2 = Ok 258 /\ int_to_2byte 65537 = [0; 1].
Proof. vm_compute. auto. Qed.

(** C02. [fl i] is what int(math.floor(math.log(i, 2))) returns on the platform. *)
Theorem c02_mpi_round_trip : forall (fl : Z -> Z) (i : Z) (pre suf : bytes),
  0 <= i -> bit_length i <= 65535 ->
  (0 < i -> Z.log2 i <= fl i <= 65534) ->          (* the floating-point log2 does not undershoot *)
  exists enc, int_to_mpi fl i = Ok enc /\ wf enc /\
    mpi_to_int (pre ++ enc ++ suf) (zlen pre) = Ok (i, zlen (pre ++ enc)).
Proof. exact c02_round_trip. Qed.
Print Assumptions c02_mpi_round_trip.
(** whatever the logarithm returns, the decoded value is i modulo the octets that were written *)
Theorem c02_mpi_exact : forall (fl : Z -> Z) (i : Z) (pre suf enc : bytes),
  0 < i -> 0 <= fl i <= 65534 -> int_to_mpi fl i = Ok enc ->
  mpi_to_int (pre ++ enc ++ suf) (zlen pre) = Ok (i mod 256 ^ ((fl i + 1 + 7) / 8), zlen (pre ++ enc)).
Proof. exact mpi_decode_encode. Qed.
Print Assumptions c02_mpi_exact.
Theorem c02_negative_rejected : forall (fl : Z -> Z) (i : Z), i < 0 -> int_to_mpi fl i = Err ValueError.
Proof. exact c02_negative. Qed.
Print Assumptions c02_negative_rejected.
(** If the logarithm undershoots by one at 2^2960 (IEEE doubles do: floor(log(2**2960)/log(2)) = 2959),
    the MPI written for 2^2960 reads back as 0. *)
Theorem c02_mpi_undershoot_refuted : exists (fl : Z -> Z) (i : Z) (enc : bytes),
  fl i = Z.log2 i - 1 /\ 0 < i /\ bit_length i <= 65535 /\ int_to_mpi fl i = Ok enc /\ mpi_to_int enc 0 = Ok (0, zlen enc).
Proof. exact c02_undershoot. Qed.
Print Assumptions c02_mpi_undershoot_refuted.
(** integers of more than 65535 bits do not fit an MPI and are silently mangled *)
Theorem c02_mpi_too_long_refuted : exists (i : Z) (enc : bytes),
  0 <= i /\ int_to_mpi Z.log2 i = Ok enc /\ mpi_to_int enc 0 = Ok (0, 2).
Proof. exact c02_too_long. Qed.
Print Assumptions c02_mpi_too_long_refuted.
Example c02_example : int_to_mpi Z.log2 511 = Ok [0; 9; 1; 255] /\ mpi_to_int [7; 0; 9; 1; 255; 3] 1 = Ok (511, 5).
Proof. vm_compute. auto. Qed.

(** C03 *)
Theorem c03_mpi_canonical_partial : forall (fl : Z -> Z) (i : Z) (enc : bytes),
  0 <= i -> bit_length i <= 65535 -> (0 < i -> fl i = Z.log2 i) ->      (* the logarithm is exact at i *)
  int_to_mpi fl i = Ok enc -> rfc_mpi i enc.
Proof. exact c03_canonical. Qed.
Print Assumptions c03_mpi_canonical_partial.
(** RFC MPIs are unique, so the encoding is then the only one *)
Theorem c03_rfc_mpi_unique : forall i a b, rfc_mpi i a -> rfc_mpi i b -> a = b.
Proof. exact rfc_mpi_unique. Qed.
Print Assumptions c03_rfc_mpi_unique.
(** a logarithm that rounds up (doubles do, at 2^48 - 1) makes the announced bit length wrong *)
Theorem c03_mpi_canonical_refuted : exists (fl : Z -> Z) (i : Z) (enc : bytes),
  0 < i < 2 ^ 64 /\ fl i = Z.log2 i + 1 /\ int_to_mpi fl i = Ok enc /\ ~ rfc_mpi i enc.
Proof. exact c03_refuted. Qed.
Print Assumptions c03_mpi_canonical_refuted.
Example c03_example : exists enc, int_to_mpi Z.log2 (2 ^ 1023 + 5) = Ok enc /\ zlen enc = 130.
Proof. eexists. split; [vm_compute; reflexivity|reflexivity]. Qed.

(** C04. The logarithm is only used on 1024..65011712, far from rounding trouble. *)
Theorem c04_s2k_count_round_trip : forall (fl : Z -> Z),
  (forall i, 1024 <= i <= 65011712 -> fl i = Z.log2 i) ->
  forall c, byte c -> int_to_s2k_count fl (s2k_count_to_int c) = Ok [c].
Proof. exact c04_round_trip. Qed.
Print Assumptions c04_s2k_count_round_trip.
Theorem c04_s2k_count_accepts_exactly : forall (fl : Z -> Z),
  (forall i, 1024 <= i <= 65011712 -> fl i = Z.log2 i) ->
  forall i, (exists bs, int_to_s2k_count fl i = Ok bs) <-> (exists c, byte c /\ i = s2k_count_to_int c).
Proof. exact c04_accepts. Qed.
Print Assumptions c04_s2k_count_accepts_exactly.
Theorem c04_s2k_count_rejects : forall (fl : Z -> Z),
  (forall i, 1024 <= i <= 65011712 -> fl i = Z.log2 i) ->
  forall i, (forall c, byte c -> i <> s2k_count_to_int c) -> int_to_s2k_count fl i = Err ValueError.
Proof. exact c04_rejects. Qed.
Print Assumptions c04_s2k_count_rejects.
(** the decoded count is the RFC 4880 3.7.1.3 value *)
Theorem c04_s2k_count_value : forall c, byte c -> s2k_count_to_int c = (16 + c mod 16) * 2 ^ (c / 16 + 6).
Proof. exact c04_value. Qed.
Print Assumptions c04_s2k_count_value.
Example c04_example : s2k_count_to_int 96 = 65536 /\ int_to_s2k_count Z.log2 65536 = Ok [96] /\ int_to_s2k_count Z.log2 65537 = Err ValueError.
Proof. vm_compute. auto. Qed.

(** C05 *)
Theorem c05_hex_round_trip : forall bs, wf bs ->
  bytearray_to_hex bs 0 None = Ok (hex_text bs) /\ hex_to_bytes (hex_text bs) None = Ok bs.
Proof. exact c05_round_trip. Qed.
Print Assumptions c05_hex_round_trip.
Theorem c05_hex_at_offset : forall pre bs suf, wf bs ->
  bytearray_to_hex (pre ++ bs ++ suf) (zlen pre) (Some (2 * zlen bs)) = Ok (hex_text bs).
Proof. exact c05_at_offset. Qed.
Print Assumptions c05_hex_at_offset.
Theorem c05_hex_expected_length : forall bs n, wf bs -> 0 < n ->
  exists r, hex_to_bytes (hex_text bs) (Some n) = Ok r /\ zlen r = n /\ be_val r = be_val bs mod 256 ^ n.
Proof. exact c05_expected. Qed.
Print Assumptions c05_hex_expected_length.
Theorem c05_int_to_hex : forall i n, 0 <= i -> 0 < n ->
  int_to_hex i (Some n) = hex_fixed (Z.to_nat n) i /\ zlen (int_to_hex i (Some n)) = n.
Proof. exact c05_int. Qed.
Print Assumptions c05_int_to_hex.
(** consistency of the two ways a key id is printed *)
Theorem c05_hex_of_octets_is_hex_of_value : forall bs, wf bs -> bs <> [] ->
  hex_text bs = int_to_hex (be_val bs) (Some (2 * zlen bs)).
Proof. exact c05_consistent. Qed.
Print Assumptions c05_hex_of_octets_is_hex_of_value.
(** lower-case digits are read like upper-case ones: [lower] turns A..F into a..f *)
Theorem c05_lower_case : forall s n, let lower c := if (65 <=? c) && (c <=? 70) then c + 32 else c in
  hex_to_bytes (map lower s) n = hex_to_bytes s n.
Proof.
  intros s n lower. assert (H : forall c, hexval (lower c) = hexval c).
  { intros c. unfold lower, hexval. destruct ((65 <=? c) && (c <=? 70)) eqn:E; [|rewrite ?E; reflexivity].
    replace ((48 <=? c + 32) && (c + 32 <=? 57)) with false by lia. replace ((65 <=? c + 32) && (c + 32 <=? 70)) with false by lia. replace ((97 <=? c + 32) && (c + 32 <=? 102)) with true by lia.
    replace ((48 <=? c) && (c <=? 57)) with false by lia. rewrite ?E. f_equal. lia. }
  assert (I : forall l, int16_2 (map lower l) = int16_2 l). { intros [|a [|b [|c l]]]; try reflexivity. cbn [map int16_2]. now rewrite !H. }
  assert (L : zlen (map lower s) = zlen s) by (unfold zlen; now rewrite map_length).
  assert (P : forall m i, hex_pairs m i (map lower s) = hex_pairs m i s).
  { induction m as [|m IH]; intros i; [reflexivity|]. cbn [hex_pairs]. rewrite IH. unfold slice. rewrite L, skipn_map, firstn_map, I. reflexivity. }
  unfold hex_to_bytes. rewrite L, P. reflexivity.
Qed.
Print Assumptions c05_lower_case.
Example c05_lower_example : hex_to_bytes [97; 98; 48; 53] None = Ok [171; 5].
Proof. vm_compute. reflexivity. Qed.
Example c05_example : bytearray_to_hex [171; 5] 0 None = Ok [65; 66; 48; 53] /\ hex_to_bytes [65; 66; 48; 53] (Some 3) = Ok [0; 171; 5].
Proof. vm_compute. auto. Qed.

(** C06 *)
Theorem c06_new_length_round_trip : forall (n : Z) (ap : bool) (pre suf : bytes), 0 <= n <= 4294967295 ->
  exists l, new_packet_length_to_bytes n ap = Ok (l, 0) /\ wf l /\
    new_packet_length (pre ++ l ++ suf) (zlen pre) = Ok (zlen (pre ++ l), n, false).
Proof. exact c06_round_trip. Qed.
Print Assumptions c06_new_length_round_trip.
Theorem c06_new_length_conforms : forall (n : Z) (ap : bool), 0 <= n <= 4294967295 ->
  exists l, new_packet_length_to_bytes n ap = Ok (l, 0) /\ rfc_new_length n l /\
    zlen l = (if n <=? 191 then 1 else if n <=? 8383 then 2 else 5) /\
    forall l', rfc_new_length n l' -> zlen l <= zlen l'.
Proof. exact c06_conforms. Qed.
Print Assumptions c06_new_length_conforms.
Theorem c06_new_length_reads_every_rfc_length : forall n l pre suf, rfc_new_length n l ->
  new_packet_length (pre ++ l ++ suf) (zlen pre) = Ok (zlen pre + zlen l, n, false).
Proof. exact rfc_new_length_parse. Qed.
Print Assumptions c06_new_length_reads_every_rfc_length.
Theorem c06_new_length_rejects : forall n, 4294967295 < n -> new_packet_length_to_bytes n false = Err ValueError.
Proof. exact c06_rejects. Qed.
Print Assumptions c06_new_length_rejects.
Example c06_example : new_packet_length_to_bytes 8383 false = Ok ([223; 255], 0) /\
  new_packet_length [223; 255] 0 = Ok (2, 8383, false) /\ new_packet_length_to_bytes 8384 true = Ok ([255; 0; 0; 32; 192], 0).
Proof. vm_compute. auto. Qed.

(** C07. [t] is the tag octet without length type (a multiple of 4). *)
Theorem c07_old_length_round_trip : forall (n t lt : Z) (lb pre body suf : bytes), 0 <= n ->
  old_packet_length_to_bytes n = (lt, lb) -> t mod 4 = 0 -> zlen body = n ->
  (n < 16777216 \/ suf = []) ->
  wf lb /\ 0 <= lt <= 3 /\
  old_packet_length (pre ++ (t + lt) :: lb ++ body ++ suf) (zlen pre) = Ok (zlen pre + 1 + zlen lb, n).
Proof. exact c07_round_trip. Qed.
Print Assumptions c07_old_length_round_trip.
(** an indeterminate length takes everything up to the end of the buffer *)
Theorem c07_old_length_indeterminate : forall (n t : Z) (pre rest : bytes), 16777216 <= n -> t mod 4 = 0 ->
  old_packet_length_to_bytes n = (3, []) /\
  old_packet_length (pre ++ (t + 3) :: rest) (zlen pre) = Ok (zlen pre + 1, zlen rest).
Proof. exact c07_indeterminate. Qed.
Print Assumptions c07_old_length_indeterminate.
Example c07_example : old_packet_length_to_bytes 256 = (1, [1; 0]) /\
  old_packet_length ([5; 153; 1; 0] ++ repeat 7 256 ++ [8]) 1 = Ok (4, 256).
Proof. vm_compute. auto. Qed.
