(** C57: the compression wrappers lose no data. *)
From Verif Require Import Base BaseProofs Spec Utils Framing Armor KeyPackets SigPackets DataPackets Packets PacketsProofs SpecPackets Message SpecMessage MsgProps Compression SpecCompression CompressionProofs.

(** DeflateCompression: whatever pieces the data comes in, the result is a raw deflate stream of all of it (RFC 1951, which is
    what RFC 4880 9.3 asks of algorithm 1) ... *)
Theorem c57_deflate_compresses_all : forall z inflate, zlib_ok inflate z -> forall level c pieces, cnew z level = Ok c -> pieces <> [] ->
  exists w raw, feed z (w_compress z) (new_wrapper z true level) pieces = Ok w /\ w_flush z w = Ok raw /\ inflate raw = Some (concat pieces).
Proof. intros z inflate Zk level c pieces. now apply deflate_compress. Qed.
Print Assumptions c57_deflate_compresses_all.
(** ... and a raw stream that arrives in any pieces is expanded to all of its data. *)
Theorem c57_deflate_expands_all : forall z inflate, zlib_ok inflate z -> forall level raw data pieces, inflate raw = Some data ->
  concat pieces = raw -> pieces <> [] ->
  exists w, feed z (w_decompress z) (new_wrapper z true level) pieces = Ok w /\ w_flush z w = Ok data.
Proof. intros z inflate Zk level raw data pieces. now apply deflate_decompress. Qed.
Print Assumptions c57_deflate_expands_all.
(** ZlibCompression: the same holds for expanding ... *)
Theorem c57_zlib_expands_all : forall z inflate, zlib_ok inflate z -> forall level s data pieces, zlib_stream inflate s data ->
  concat pieces = s -> pieces <> [] ->
  exists w, feed z (w_decompress z) (new_wrapper z false level) pieces = Ok w /\ w_flush z w = Ok data.
Proof. intros z inflate Zk level s data pieces. now apply zlib_decompress. Qed.
Print Assumptions c57_zlib_expands_all.
(** ... but the compressed stream is one of the first piece alone, *)
Theorem c57_zlib_compresses_first_partial : forall z inflate, zlib_ok inflate z -> forall level c piece rest, cnew z level = Ok c ->
  exists w s, feed z (w_compress z) (new_wrapper z false level) (piece :: rest) = Ok w /\ w_flush z w = Ok s /\ zlib_stream inflate s piece.
Proof. intros z inflate Zk level c piece rest. now apply zlib_compress. Qed.
Print Assumptions c57_zlib_compresses_first_partial.
(** so all the data of later calls is lost: the stream expands to the first piece. *)
Theorem c57_zlib_later_pieces_lost_refuted : forall z inflate, zlib_ok inflate z -> forall level c piece rest, cnew z level = Ok c -> concat rest <> [] ->
  exists w s w' data, feed z (w_compress z) (new_wrapper z false level) (piece :: rest) = Ok w /\ w_flush z w = Ok s /\
    feed z (w_decompress z) (new_wrapper z false None) [s] = Ok w' /\ w_flush z w' = Ok data /\ data <> concat (piece :: rest).
Proof.
  intros z inflate Zk level c piece rest C N. destruct (zlib_compress z inflate Zk level c piece rest C) as (w & s & F & Fl & S).
  destruct (zlib_decompress z inflate Zk None s piece [s] S) as (w' & F' & Fl'); [cbn; apply app_nil_r|discriminate|].
  exists w, s, w', piece. repeat split; try assumption. cbn [concat]. intros E. rewrite <- (app_nil_r piece) in E at 1. apply app_inv_head in E. congruence.
Qed.
Print Assumptions c57_zlib_later_pieces_lost_refuted.
(** A packet sequence compressed with algorithm 0, 1 or 2 is expanded to the same sequence. *)
Theorem c57_packets_round_trip_partial : forall z inflate, zlib_ok inflate z -> forall bz2 fl rec alg level c ps,
  (forall i, 1024 <= i <= 65011712 -> fl i = Z.log2 i) -> Forall (pkt_ok fl rec) ps ->
  (alg = 0 \/ ((alg = 1 \/ alg = 2) /\ cnew z level = Ok c)) ->
  exists s, compress_packets z bz2 fl rec alg level ps = Ok s /\ decompress_data z alg s = Ok (map as_read ps).
Proof. intros z inflate Zk bz2 fl rec alg level c ps. now apply packets_compress_round with (inflate := inflate). Qed.
Print Assumptions c57_packets_round_trip_partial.
(** The octets are in the format the algorithm number names: none, RFC 1951, RFC 1950. *)
Theorem c57_formats : forall z inflate, zlib_ok inflate z -> forall bz2 alg level c data s,
  (alg = 0 \/ ((alg = 1 \/ alg = 2) /\ cnew z level = Ok c)) -> compress_octets z bz2 alg level data = Ok s ->
  (alg = 0 -> s = data) /\ (alg = 1 -> inflate s = Some data) /\ (alg = 2 -> zlib_stream inflate s data).
Proof.
  intros z inflate Zk bz2 alg level c data s A E. destruct (octets_round z inflate Zk bz2 alg level c data A) as (s' & E' & _ & R).
  rewrite E in E'. apply (f_equal (fun r => match r with Ok x => x | Err _ => [] end)) in E'. subst s'. split; [|exact R].
  intros ->. unfold compress_octets in E. cbn [Z.eqb] in E. now injection E as <-.
Qed.
Print Assumptions c57_formats.
(** message.compress(algorithm, level).get_message() is the message, if that survives being written and read (a literal, signed or encrypted one, C108). *)
Theorem c57_message_round_trip_partial : forall z inflate, zlib_ok inflate z -> forall bz2 fl rec alg level c m d,
  survives fl rec m d -> (alg = 0 \/ ((alg = 1 \/ alg = 2) /\ cnew z level = Ok c)) ->
  exists m', message_compress z bz2 fl rec alg level m = Ok m' /\ compressed_get_message z m' = Ok m.
Proof.
  intros z inflate Zk bz2 fl rec alg level c m d (Ho & ps & Pp & Po) A.
  destruct (octets_round z inflate Zk bz2 alg level c d A) as (s & C & D & _). exists (MCompressed alg s).
  unfold message_octets in Ho. apply bind_ok in Ho as (qs & Q & Ho). apply bind_ok in Ho as (encs & Q2 & Ho). injection Ho as Ho. split.
  - unfold message_compress, compress_packets. rewrite Q. cbn [bind]. rewrite Q2. cbn [bind]. rewrite Ho, C. reflexivity.
  - unfold compressed_get_message, decompress_data. rewrite D. cbn [bind]. rewrite Pp. cbn [bind]. exact Po.
Qed.
Print Assumptions c57_message_round_trip_partial.
(** Refuted: BZip2 data (algorithm 3) can be made but never read, and without a level nothing can be compressed with it. *)
Theorem c57_bzip2_unreadable_refuted : forall z bz2 data, decompress_data z 3 data = Err TypeError /\ compress_octets z bz2 3 None data = Err TypeError /\
  compressed_get_message z (MCompressed 3 data) = Err TypeError.
Proof. intros. repeat split. Qed.
Print Assumptions c57_bzip2_unreadable_refuted.
(** A library with the assumed behaviour: stored blocks. *)
Example c57_used_library : zlib_ok demo_inflate demo_zlib /\ cnew demo_zlib (Some 6) = Ok [].
Proof. split; [exact demo_zlib_ok|reflexivity]. Qed.
Example c57_used_pieces : (do w <- feed demo_zlib (w_compress demo_zlib) (new_wrapper demo_zlib true (Some 6)) [[1; 2]; []; [3]];; w_flush demo_zlib w) = Ok (stored [1; 2; 3]) /\
  (do w <- feed demo_zlib (w_decompress demo_zlib) (new_wrapper demo_zlib true None) [firstn 3 (stored [1; 2; 3]); skipn 3 (stored [1; 2; 3])];; w_flush demo_zlib w) = Ok [1; 2; 3].
Proof. split; vm_compute; reflexivity. Qed.
Example c57_used_lost : (do w <- feed demo_zlib (w_compress demo_zlib) (new_wrapper demo_zlib false (Some 6)) [[1; 2]; [3]];; w_flush demo_zlib w) =
  Ok ([120; 1] ++ stored [1; 2] ++ [0; 6; 0; 4]).
Proof. vm_compute. reflexivity. Qed.
Example c57_used_message : (do m' <- message_compress demo_zlib (fun _ _ => Ok []) Z.log2 (fun _ => Ok []) 2 (Some 6) (MBinary (LBytes [1; 2; 3]) [97] 1000);;
  compressed_get_message demo_zlib m') = Ok (MBinary (LBytes [1; 2; 3]) [97] 1000).
Proof. vm_compute. reflexivity. Qed.
