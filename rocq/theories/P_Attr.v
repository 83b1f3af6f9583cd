(** C35: user attributes. *)
From Verif Require Import Base BaseProofs Spec SpecFraming UserAttr SpecAttr AttrProofs.
(** every RFC 4880 image content parses to its format and image, and is written back the same *)
Theorem c35_image : forall f image d, rfc_image f image d -> byte f -> attr_from_content 1 d = Ok (AImage 1 16 (Some f) image) /\ attr_content (AImage 1 16 (Some f) image) = Ok d.
Proof. intros f image d R B. split; [now apply image_parse|]. rewrite image_write by exact B. now rewrite R. Qed.
Print Assumptions c35_image.
(** exactly: whatever content of whatever type parses keeps its type, and its content is unchanged exactly when it is an RFC 4880
    image, or empty for a type that is not known *)
Theorem c35_stable_partial : forall ty d a, wf d -> attr_from_content ty d = Ok a ->
  attr_type a = ty /\ (attr_content a = Ok d <-> if ty =? 1 then exists f image, rfc_image f image d else d = []).
Proof. exact attr_stable. Qed.
Print Assumptions c35_stable_partial.
(** the packet: a list of attributes, built from a format and an image (or of unknown type), is an RFC 4880 body and is read back *)
Theorem c35_packet_round_trip : forall l, Forall attr_ok l -> exists d ts encs, attrs_content l = Ok d /\ rfc_attrs ts encs /\ d = concat encs /\ attrs_from_content d = Ok l.
Proof. exact attrs_round. Qed.
Print Assumptions c35_packet_round_trip.
(** every RFC 4880 body is read subpacket by subpacket, in order *)
Theorem c35_packet_read : forall ts encs, rfc_attrs ts encs -> attrs_from_content (concat encs) = mapM (fun t => attr_from_content (fst t) (snd t)) ts.
Proof. exact attrs_read. Qed.
Print Assumptions c35_packet_read.
(** refuted part: a truncated image header is accepted and padded; an unknown attribute loses its content *)
Theorem c35_altered_refuted : attr_from_content 1 [16; 0; 1; 1; 0] = Ok (AImage 1 16 (Some 1) []) /\ attr_content (AImage 1 16 (Some 1) []) = Ok ([16; 0; 1; 1] ++ repeat 0 12) /\
  attr_from_content 2 [1; 2; 3] = Ok (AUnknown 2) /\ attr_content (AUnknown 2) = Ok [].
Proof. repeat split. Qed.
Print Assumptions c35_altered_refuted.
Example c35_ex : Forall attr_ok [AImage 1 16 (Some 1) [255; 216; 255]; AUnknown 100] /\
  attrs_content [AImage 1 16 (Some 1) [255; 216; 255]; AUnknown 100] = Ok ([20; 1; 16; 0; 1; 1] ++ repeat 0 12 ++ [255; 216; 255; 1; 100]).
Proof.
  split; [|reflexivity]. apply Forall_cons; [|apply Forall_cons; [|apply Forall_nil]].
  - split; [reflexivity|]. split; [reflexivity|]. split; [exists 1; split; [reflexivity|unfold byte; lia]|cbn; lia].
  - split; [unfold byte; lia|discriminate].
Qed.
