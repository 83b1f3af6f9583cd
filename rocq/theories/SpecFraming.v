(** RFC 4880 section 4.2 packet headers, as relations between packets and octet strings. *)
From Verif Require Import Base Spec Framing.

(** 4.2.2.1-3: definite new-format lengths. *)
Inductive rfc_new_length : Z -> bytes -> Prop :=
| nl_one n : 0 <= n <= 191 -> rfc_new_length n [n]
| nl_two b0 b1 : 192 <= b0 <= 223 -> byte b1 -> rfc_new_length ((b0 - 192) * 256 + b1 + 192) [b0; b1]
| nl_five q : zlen q = 4 -> wf q -> rfc_new_length (be_val q) (255 :: q).
(** 4.2.2.4: partial body lengths, 2^k octets with octet 224 + k. *)
Inductive rfc_new_body : bytes -> bytes -> Prop :=
| nb_last body l : rfc_new_length (zlen body) l -> rfc_new_body body (l ++ body)
| nb_part k chunk body enc :
    0 <= k <= 30 -> zlen chunk = 2 ^ k -> rfc_new_body body enc ->
    rfc_new_body (chunk ++ body) ((224 + k) :: chunk ++ enc).
(** 4.2.1: old-format lengths of one, two and four octets: length type and octets. *)
Inductive rfc_old_length : Z -> Z -> bytes -> Prop :=
| ol_one n : zlen n = 1 -> wf n -> rfc_old_length (be_val n) 0 n
| ol_two n : zlen n = 2 -> wf n -> rfc_old_length (be_val n) 1 n
| ol_four n : zlen n = 4 -> wf n -> rfc_old_length (be_val n) 2 n.

(** A packet of definite total extent: tag octet, length, body. New format: bits 7 and 6 set, tag in
    bits 5-0. Old format: bit 7 set, bit 6 clear, tag in bits 5-2, length type in bits 1-0.
    [partial] says whether partial lengths are used. *)
Inductive rfc_packet : bool -> raw_packet -> bytes -> Prop :=
| rp_new t body l : 0 <= t <= 63 -> rfc_new_length (zlen body) l ->
    rfc_packet false (Raw NewH t body) ((192 + t) :: l ++ body)
| rp_new_partial t body enc : 0 < t <= 63 -> rfc_new_body body enc ->
    rfc_packet true (Raw NewH t body) ((192 + t) :: enc)
| rp_old t body lt l : 0 <= t <= 15 -> rfc_old_length (zlen body) lt l ->
    rfc_packet false (Raw OldH t body) ((128 + 4 * t + lt) :: l ++ body).

(** A packet the format can represent with a definite length. *)
Definition representable (p : raw_packet) : Prop :=
  match hfmt p with
  | NewH => 0 <= ptype p <= 63 /\ zlen (pcontent p) <= 4294967295
  | OldH => 0 <= ptype p <= 15 /\ zlen (pcontent p) < 16777216
  end.
