(** C122: what it means that two signatures or notations are the same. *)
From Verif Require Import Base Spec Text SpecUtf8 SpecSig SpecPackets Framing SigPackets Packets SigLists TransKey.

(** a version 4 signature that can be written: its subpackets too, and the header holds its length (SpecPackets.v) *)
Definition can_write (fl : Z -> Z) (rec : KeyPackets.seckey -> res bytes) (s : TransKey.sobject) : Prop := pkt_ok fl rec (Pkt (TransKey.o_fmt s) (BSig (TransKey.o_sig s))).
(** a notation as get_notations gives it: text in UTF-8, the name up to the first @; the lengths fit in two octets *)
Definition note_name (n : notation) : text := n_name n ++ match n_space n with Some s => 64 :: s | None => [] end.
Definition readable_note (n : notation) : Prop := n_human n = true /\ Forall scalar (note_name n) /\ Forall scalar (n_value n) /\ ~ In 64 (n_name n) /\
  zlen (utf8 (note_name n)) < 65536 /\ zlen (utf8 (n_value n)) < 65536.
(** a name space that is empty is as good as none *)
Definition space_of (n : notation) : text := match n_space n with Some s => s | None => [] end.
