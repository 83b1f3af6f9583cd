(** Property theorems C08-C15: packet framing. *)
From Verif Require Import Base BaseProofs Spec Utils Framing SpecFraming FramingProofs FramingProps.

(** C08. Old-format bodies of 2^24 octets and more use the indeterminate length, see
    [c08_indeterminate_round_trip]. *)
Theorem c08_packet_round_trip : forall (p : raw_packet) (pre suf : bytes),
  representable p -> pcontent p <> [] ->
  exists enc, packet_bytes p = Ok enc /\ rfc_packet false p enc /\
    raw_from_data (pre ++ enc ++ suf) (zlen pre) = Ok (zlen (pre ++ enc), p).
Proof. exact c08_round_trip. Qed.
Print Assumptions c08_packet_round_trip.
(** the parser reads every RFC 4880 packet with definite or partial lengths, not only its own output *)
Theorem c08_parser_reads_rfc_packets : forall part p enc pre suf, rfc_packet part p enc ->
  raw_from_data (pre ++ enc ++ suf) (zlen pre) = Ok (zlen (pre ++ enc), p).
Proof. exact raw_from_data_rfc. Qed.
Print Assumptions c08_parser_reads_rfc_packets.
(** old format, body of 2^24 octets or more: right only at the end of the buffer; anything that follows
    is swallowed into the body *)
Theorem c08_indeterminate_round_trip : forall t body suf, 0 <= t <= 15 -> 16777216 <= zlen body ->
  packet_bytes (Raw OldH t body) = Ok (128 + 4 * t + 3 :: body) /\
  raw_from_data (128 + 4 * t + 3 :: body ++ suf) 0 = Ok (1 + zlen (body ++ suf), Raw OldH t (body ++ suf)).
Proof. exact packet_bytes_indeterminate. Qed.
Print Assumptions c08_indeterminate_round_trip.
(** a type above 15 with the old header format is silently written as a different packet *)
Theorem c08_old_header_big_type_refuted : exists p enc p' o,
  hfmt p = OldH /\ ptype p = 17 /\ packet_bytes p = Ok enc /\ raw_from_data enc 0 = Ok (o, p') /\
  hfmt p' = NewH /\ ptype p' <> 17.
Proof. exact c08_old_big_type. Qed.
Print Assumptions c08_old_header_big_type_refuted.
Example c08_example : representable (Raw NewH 13 (repeat 65 200)) /\
  (exists enc, packet_bytes (Raw NewH 13 (repeat 65 200)) = Ok (205 :: 192 :: 8 :: enc)) /\
  packet_bytes (Raw OldH 6 [4; 1; 2]) = Ok [152; 3; 4; 1; 2] /\
  raw_from_data [9; 152; 3; 4; 1; 2; 7; 7] 1 = Ok (6, Raw OldH 6 [4; 1; 2]).
Proof. split; [vm_compute; repeat split; congruence|]. split; [eexists; vm_compute; reflexivity|]. split; vm_compute; reflexivity. Qed.

(** C09 *)
Theorem c09_empty_old_packet_partial : forall t pre suf, 0 <= t <= 15 ->
  exists enc, packet_bytes (Raw OldH t []) = Ok enc /\
    raw_from_data (pre ++ enc ++ suf) (zlen pre) = Ok (zlen (pre ++ enc), Raw OldH t []).
Proof. exact c09_old. Qed.
Print Assumptions c09_empty_old_packet_partial.
(** new format: an empty packet is written without any length octet, so the parser fails at the end of
    the data and otherwise takes the next packet's tag octet for a length *)
Theorem c09_empty_new_packet_refuted : forall t, 0 <= t <= 63 ->
  packet_bytes (Raw NewH t []) = Ok [192 + t] /\
  raw_from_data [192 + t] 0 = Err IndexError /\
  (forall enc, rfc_packet false (Raw NewH t []) enc -> enc <> [192 + t]).
Proof. exact c09_new. Qed.
Print Assumptions c09_empty_new_packet_refuted.
Theorem c09_empty_new_packet_swallows_refuted : exists ps encs,
  (forall p, In p ps -> representable p) /\ mapM packet_bytes ps = Ok encs /\
  fst (parse_binary_packet_data (fun r => Ok r) (concat encs)) <> ps.
Proof. exact c09_swallows. Qed.
Print Assumptions c09_empty_new_packet_swallows_refuted.

(** C10 *)
Theorem c10_parse_concatenation : forall {A} (dec : raw_packet -> res A) (ps : list raw_packet) (objs : list A),
  (forall p, In p ps -> representable p /\ pcontent p <> []) -> mapM dec ps = Ok objs ->
  exists encs, mapM packet_bytes ps = Ok encs /\ parse_binary_packet_data dec (concat encs) = (objs, None).
Proof. exact @c10_concat. Qed.
Print Assumptions c10_parse_concatenation.
Theorem c10_parse_rfc_sequence : forall {A} (dec : raw_packet -> res A) ps enc objs, rfc_packets ps enc ->
  mapM dec ps = Ok objs -> parse_binary_packet_data dec enc = (objs, None).
Proof. exact @parse_rfc_packets. Qed.
Print Assumptions c10_parse_rfc_sequence.
(** ... and from a stream *)
Theorem c10_parse_stream_concatenation : forall {A} (dec : raw_packet -> res A) (ps : list raw_packet) (objs : list A),
  (forall p, In p ps -> representable p /\ pcontent p <> []) -> mapM dec ps = Ok objs ->
  exists encs, mapM packet_bytes ps = Ok encs /\ parse_binary_packet_stream dec (concat encs) = (objs, None).
Proof. exact @c10_stream. Qed.
Print Assumptions c10_parse_stream_concatenation.
Example c10_example : parse_binary_packet_data (fun r => Ok r) [152; 3; 4; 1; 2; 205; 2; 65; 66] =
  ([Raw OldH 6 [4; 1; 2]; Raw NewH 13 [65; 66]], None).
Proof. vm_compute. reflexivity. Qed.

(** C11 *)
Theorem c11_progress : forall (data : bytes) (o o' : Z) (p : raw_packet),
  wf data -> 0 <= o -> raw_from_data data o = Ok (o', p) -> o < o'.
Proof. exact raw_from_data_progress. Qed.
Print Assumptions c11_progress.
(** framing errors are IndexError and nothing else; in particular the model's loop bound is never hit *)
Theorem c11_framing_errors : forall (data : bytes) (o : Z) (e : exn),
  wf data -> 0 <= o -> raw_from_data data o = Err e -> e = IndexError.
Proof. exact raw_from_data_err. Qed.
Print Assumptions c11_framing_errors.
Theorem c11_parse_loop_terminates : forall {A} (dec : raw_packet -> res A) (data : bytes),
  wf data -> (forall r, dec r <> Err OutOfFuel) ->
  snd (parse_binary_packet_data dec data) <> Some OutOfFuel /\
  zlen (fst (parse_binary_packet_data dec data)) <= zlen data.
Proof. exact @c11_total. Qed.
Print Assumptions c11_parse_loop_terminates.
Example c11_example : raw_from_data [255; 224; 1; 0] 0 = Ok (4, Raw NewH 63 [1]) /\ raw_from_data [255; 254; 1; 0] 0 = Err IndexError.
Proof. vm_compute. auto. Qed.

(** C12. Exact behaviour on every proper prefix of a packet: a cut in the header raises IndexError, a cut
    in the body returns the packet with whatever octets are there. *)
Theorem c12_truncation_behaviour_partial : forall p enc k, rfc_packet false p enc -> 0 <= k < zlen enc ->
  let header := zlen enc - zlen (pcontent p) in
  raw_from_data (firstn (Z.to_nat k) enc) 0 =
    if k <? header then Err IndexError
    else Ok (zlen enc, Raw (hfmt p) (ptype p) (firstn (Z.to_nat (k - header)) (pcontent p))).
Proof. exact truncated_packet. Qed.
Print Assumptions c12_truncation_behaviour_partial.
Theorem c12_truncated_accepted_refuted : exists p enc p',
  representable p /\ packet_bytes p = Ok enc /\
  parse_binary_packet_data (fun r => Ok r) (removelast enc) = ([p'], None) /\ p' <> p.
Proof. exact c12_refuted. Qed.
Print Assumptions c12_truncated_accepted_refuted.

(** C13 *)
Theorem c13_stream_agrees : forall {A} (dec : raw_packet -> res A) p enc suf, rfc_packet false p enc ->
  packet_from_packet_stream dec (enc ++ suf) = (do o <- dec p;; Ok (o, suf)) /\
  packet_from_packet_data dec (enc ++ suf) 0 = (do o <- dec p;; Ok (zlen enc, o)).
Proof. exact @c13_agrees. Qed.
Print Assumptions c13_stream_agrees.
(** but an old-format indeterminate length is read from a buffer and refused from a stream *)
Theorem c13_indeterminate_disagrees_refuted : exists data r,
  packet_from_packet_data (fun r => Ok r) data 0 = Ok (zlen data, r) /\
  packet_from_packet_stream (fun r => Ok r) data = Err ValueError.
Proof. exact c13_indeterminate. Qed.
Print Assumptions c13_indeterminate_disagrees_refuted.
Example c13_example : packet_from_packet_stream (fun r => Ok r) [205; 2; 65; 66; 1; 2] = Ok (Raw NewH 13 [65; 66], [1; 2]).
Proof. vm_compute. reflexivity. Qed.

(** C14. Buffer parser: every chunking is reassembled. *)
Theorem c14_partial_lengths_buffer_partial : forall t body enc pre suf, 0 < t <= 63 -> rfc_new_body body enc ->
  raw_from_data (pre ++ (192 + t :: enc) ++ suf) (zlen pre) = Ok (zlen (pre ++ 192 + t :: enc), Raw NewH t body).
Proof. exact c14_buffer. Qed.
Print Assumptions c14_partial_lengths_buffer_partial.
(** Stream parser: it expects another tag octet before every chunk. *)
Theorem c14_partial_lengths_stream_refuted : exists p enc,
  rfc_packet true p enc /\ packet_from_packet_data (fun r => Ok r) enc 0 = Ok (zlen enc, p) /\
  packet_from_packet_stream (fun r => Ok r) enc = Err ValueError.
Proof. exact c14_stream. Qed.
Print Assumptions c14_partial_lengths_stream_refuted.
Example c14_example : rfc_new_body [1; 2; 3; 4; 5] [225; 1; 2; 224; 3; 2; 4; 5].
Proof. apply (nb_part 1 [1;2] [3;4;5]); [lia|reflexivity|]. apply (nb_part 0 [3] [4;5]); [lia|reflexivity|].
  apply (nb_last [4;5] [2]). apply (nl_one 2). lia. Qed.

(** C15 *)
Theorem c15_serialisation_terminates_partial : forall p fuel, (2 <= fuel)%nat ->
  hfmt p = OldH \/ ~ In (ptype p) [8; 9; 11; 18] \/ zlen (pcontent p) <= 4294967295 ->
  packet_bytes_fuel fuel p = packet_bytes p /\ packet_bytes p <> Err OutOfFuel.
Proof.
  intros p fuel Hf [A|[A|A]]; apply packet_bytes_terminates; auto. right; left.
  destruct (is_data_type (ptype p)) eqn:E; [exfalso|reflexivity]. apply A. unfold is_data_type in E. rewrite !orb_true_iff, !Z.eqb_eq in E. cbn. intuition.
Qed.
Print Assumptions c15_serialisation_terminates_partial.
(** new-format data packets of 4 GiB or more: the loop never ends, however long it runs *)
Theorem c15_serialisation_diverges_refuted : forall t body, In t [8; 9; 11; 18] -> 4294967295 < zlen body ->
  forall fuel, packet_bytes_fuel fuel (Raw NewH t body) = Err OutOfFuel.
Proof. intros t body I. apply c15_diverges. cbn in I. destruct I as [<-|[<-|[<-|[<-|[]]]]]; reflexivity. Qed.
Print Assumptions c15_serialisation_diverges_refuted.
Example c15_example : exists body : bytes, In 11 [8; 9; 11; 18] /\ 4294967295 < zlen body.
Proof. exists (repeat 0 (Z.to_nat 4294967296)). split; [cbn; tauto|]. rewrite zlen_repeat, Z2Nat.id; lia. Qed.
