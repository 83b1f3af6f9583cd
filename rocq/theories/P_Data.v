(** C30: data packets. *)
From Verif Require Import Base BaseProofs Spec Utils Text Utf8 SpecUtf8 Utf8Proofs DataPackets SpecData DataProofs.
(** the bodies that parse are exactly the readable ones, for every packet type without a class of its own elsewhere *)
Theorem c30_readable_bodies : forall ty d, wf d -> (exists p, data_from ty d = Ok p) <-> readable_body ty d.
Proof. exact data_from_ok. Qed.
Print Assumptions c30_readable_bodies.
(** a parsed packet has the type it was read as, and is written back with its body unchanged exactly when the body is stable:
    never for literal data, for user ids exactly when they are UTF-8, for trust packets of one octet or 0 and one octet,
    always for compressed, encrypted, protected, detection code, comment, control and unknown packets *)
Theorem c30_stable_bodies_partial : forall ty d p, wf d -> data_from ty d = Ok p -> data_type p = ty /\ (data_content p = Ok d <-> stable_body ty d).
Proof. exact data_stable. Qed.
Print Assumptions c30_stable_bodies_partial.
(** refuted part: no parsed literal packet can be written at all *)
Theorem c30_literal_refuted : forall d p, data_from 11 d = Ok p -> exists e, data_content p = Err e /\ (e = AttributeError \/ e = ValueError).
Proof.
  intros d p H. change (data_from 11 d) with (literal_from d) in H. unfold literal_from in H. apply bind_ok in H as (f & Hf & H). apply bind_ok in H as (n & Hn & H). apply bind_ok in H as (t & Ht & H). apply bind_ok in H as (x & Hx & H). injection H as <-.
  cbn [data_content]. unfold literal_content. destruct (negb _); [eauto|]. unfold mk_bytes. destruct (wfb _); cbn [bind]; eauto.
Qed.
Print Assumptions c30_literal_refuted.
(** a literal packet built with a date and an ASCII name (as many octets as characters) is the RFC 4880 body, and parses
    back to the same format, name, contents and instant *)
Theorem c30_literal_written : forall f name t d c, literal_bytes f d = Some c -> (match d with LText s => Forall scalar s /\ (f = 116 -> wf s) | LBytes b => wf b end) ->
  Forall scalar name -> zlen (utf8 name) = zlen name -> zlen name <= 255 -> 0 <= t < 2 ^ 32 ->
  exists enc, data_content (PLiteral f name (TDate t) d) = Ok enc /\ rfc_literal f (utf8 name) t c enc /\ data_from 11 enc = Ok (PLiteral f name (TInt t) d).
Proof. exact literal_write. Qed.
Print Assumptions c30_literal_written.
(** refuted part: the name's length is counted in characters, so a name that is not ASCII is cut and shifts the rest *)
Theorem c30_literal_name_refuted : exists name d enc name' t' d', Forall scalar name /\ data_content (PLiteral 98 name (TDate 1) d) = Ok enc /\
  data_from 11 enc = Ok (PLiteral 98 name' (TInt t') d') /\ name' <> name /\ t' <> 1 /\ d' <> d.
Proof.
  exists [233], (LBytes [7]), [98; 1; 195; 169; 0; 0; 0; 1; 7], [65533], 2835349504, (LBytes [1; 7]). split; [repeat constructor; unfold scalar; lia|].
  split; [vm_compute; reflexivity|]. split; [vm_compute; reflexivity|]. repeat split; try discriminate; lia.
Qed.
Print Assumptions c30_literal_name_refuted.
(** refuted part: concrete bodies that change *)
Theorem c30_changed_refuted : exists ty d p d', wf d /\ data_from ty d = Ok p /\ data_content p = Ok d' /\ d' <> d.
Proof. exists 13, [65; 255], (PUserId [65; 65533]), [65; 239; 191; 189]. split; [repeat constructor; lia|]. split; [vm_compute; reflexivity|]. split; [vm_compute; reflexivity|discriminate]. Qed.
Print Assumptions c30_changed_refuted.
Example c30_ex : data_from 8 [1; 2; 3] = Ok (PCompressed 1 [2; 3]) /\ data_content (PCompressed 1 [2; 3]) = Ok [1; 2; 3] /\
  data_from 13 [240; 159; 152; 128] = Ok (PUserId [128512]) /\ data_content (PUserId [128512]) = Ok [240; 159; 152; 128] /\
  data_from 12 [5; 6] = Ok (PTrust 5 None) /\ data_from 10 [80; 71; 80] = Err AttributeError /\ data_from 19 [1] = Err AssertionError.
Proof. vm_compute. repeat split; reflexivity. Qed.
Example c30_ex_literal : exists enc, data_content (PLiteral 117 [97; 98] (TDate 1000) (LText [233])) = Ok enc /\ data_from 11 enc = Ok (PLiteral 117 [97; 98] (TInt 1000) (LText [233])).
Proof. eexists. split; vm_compute; reflexivity. Qed.
