(** C61, C62: sequences of packet objects, in binary and in armor. *)
From Verif Require Import Base BaseProofs Spec SpecUtf8 Utils Framing SpecFraming Armor SpecArmor ArmorProps S2k SpecS2k SessionKeys SessionKeysProofs KeyPackets SpecKey KeyProofs DataPackets SigPackets SpecSig UserAttr SpecAttr Packets SpecPackets PacketsProofs.

(** C61. A sequence of packet objects that the format can hold is serialised packet by packet, and both parsers read the
    concatenation back to the same sequence. [fl] is math.log base 2, exact on specifier counts; [rec] is not used because a
    secret key has its encrypted portion. *)
Theorem c61_sequence_round_trip_partial : forall fl rec ps, (forall i, 1024 <= i <= 65011712 -> fl i = Z.log2 i) -> Forall (pkt_ok fl rec) ps ->
  exists encs, mapM (pkt_bytes fl rec) ps = Ok encs /\ parse_binary_packet_data pkt_dec (concat encs) = (map as_read ps, None) /\
    parse_binary_packet_stream pkt_dec (concat encs) = (map as_read ps, None).
Proof. exact pkts_round. Qed.
Print Assumptions c61_sequence_round_trip_partial.
(** every packet keeps its header format and type *)
Theorem c61_type_kept : forall p, p_fmt (as_read p) = p_fmt p /\ pkt_type (as_read p) = pkt_type p.
Proof. intros [h [| | | | | | |d]]; try (split; reflexivity). destruct d as [| |f n [t|t] d| | | | | | | ]; split; reflexivity. Qed.
Print Assumptions c61_type_kept.
(** an empty packet with a new header makes the rest unreadable, whatever follows *)
Theorem c61_empty_packet_refuted : forall fl rec, exists p enc, pkt_bytes fl rec p = Ok enc /\ p = Pkt NewH (BData (PUserId [])) /\
  parse_binary_packet_data pkt_dec enc = ([], Some IndexError).
Proof. intros. exists (Pkt NewH (BData (PUserId []))), [205]. repeat split. Qed.
Print Assumptions c61_empty_packet_refuted.
Definition ex_packets : list pkt :=
  [Pkt OldH (BPub false (PubKey 4 9 1 None (Some 259) (Some 3) None None None None));
   Pkt NewH (BData (PUserId [97; 233]));
   Pkt NewH (BSig (SigV4 4 19 1 8 [18; 52] [255; 3] [Sub 2 true (SbTime 1000000)] []));
   Pkt NewH (BData (PLiteral 98 [97] (TDate 1000) (LBytes [1; 2; 3])))].
Example c61_ex : Forall (pkt_ok Z.log2 (fun _ => Ok [])) ex_packets.
Proof.
  assert (V : forall i, 0 <= i -> bit_length i <= 65535 -> SpecSig.value_ok Z.log2 i) by (intros; repeat split; auto).
  unfold ex_packets. apply Forall_cons; [|apply Forall_cons; [|apply Forall_cons; [|apply Forall_cons; [|apply Forall_nil]]]]; (split; cbn [p_body p_fmt]; [|intros d H; vm_compute in H; apply ok_inj in H; subst d; vm_compute; repeat split; discriminate]).
  - exists 4, 9, 1, None, [259; 3]. split; [lia|]. split; [right; split; [lia|reflexivity]|]. split; [reflexivity|]. apply Forall_cons; [vm_compute; repeat split; congruence|apply Forall_cons; [vm_compute; repeat split; congruence|apply Forall_nil]].
  - split; [discriminate|]. repeat constructor; unfold scalar; lia.
  - apply si_v4; try (unfold byte; lia); try reflexivity; try apply Forall_nil.
    + repeat constructor; lia.
    + apply Forall_cons; [apply V; cbn; lia|apply Forall_cons; [apply V; cbn; lia|apply Forall_nil]].
    + apply Forall_cons; [|apply Forall_nil]. apply so_plain; [split; [cbn; auto|lia]|]. intros d H. vm_compute in H. apply ok_inj in H. subst d. reflexivity.
    + intros a H. vm_compute in H. apply ok_inj in H. subst a. reflexivity.
    + intros a H. vm_compute in H. apply ok_inj in H. subst a. reflexivity.
  - split; [eexists; reflexivity|]. split; [repeat constructor; unfold scalar; lia|]. split; [reflexivity|]. split; [cbn; lia|]. split; [lia|]. repeat constructor; lia.
Qed.

(** C62. The same through ASCII armor: any armor object holding the octets of such a sequence is written as text that
    parse_ascii_packet_data reads back to the sequence. *)
Theorem c62_armored_round_trip_partial : forall fl rec ps encs a, (forall i, 1024 <= i <= 65011712 -> fl i = Z.log2 i) -> Forall (pkt_ok fl rec) ps ->
  mapM (pkt_bytes fl rec) ps = Ok encs -> adata a = concat encs -> armor_ok a -> extra_headers a = None ->
  exists t, armor_str a = Ok t /\ parse_ascii_packet_data t = Ok (map as_read ps, None).
Proof.
  intros fl rec ps encs a Hfl H E Ea Ha Hx. destruct (pkts_round fl rec ps Hfl H) as (encs' & E1 & E2 & _). rewrite E in E1. apply ok_inj in E1 as <-.
  destruct (c18_round a Ha Hx) as (t & T1 & T2). exists t. split; [exact T1|]. unfold parse_ascii_packet_data. rewrite T2. cbn [bind]. rewrite Ea, E2. reflexivity.
Qed.
Print Assumptions c62_armored_round_trip_partial.
Example c62_ex : exists encs t, mapM (pkt_bytes Z.log2 (fun _ => Ok [])) ex_packets = Ok encs /\
  armor_str (Armor 2 (concat encs) None None None None None None None None) = Ok t /\ parse_ascii_packet_data t = Ok (map as_read ex_packets, None).
Proof. eexists. eexists. split; [vm_compute; reflexivity|]. split; [vm_compute; reflexivity|]. vm_compute. reflexivity. Qed.
