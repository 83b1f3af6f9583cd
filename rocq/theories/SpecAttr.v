(** RFC 4880 5.12: user attribute subpackets. *)
From Verif Require Import Base SpecFraming UserAttr.
(** the length of type and content, the type, the content *)
Definition rfc_attr (ty : Z) (content enc : bytes) : Prop :=
  byte ty /\ exists l, rfc_new_length (zlen content + 1) l /\ enc = l ++ [ty] ++ content.
(** 5.12.1: image header, little-endian length 16, version 1, encoding, twelve reserved zeros, then the image *)
Definition rfc_image (format : Z) (image d : bytes) : Prop := d = [16; 0; 1; format] ++ repeat 0 12 ++ image.
(** a user attribute packet body *)
Definition rfc_attrs (l : list (Z * bytes)) (encs : list bytes) : Prop := Forall2 (fun t enc => rfc_attr (fst t) (snd t) enc) l encs.
(** objects the format can hold *)
Definition attr_ok (a : attr) : Prop :=
  match a with AUnknown ty => byte ty /\ ty <> 1 | AImage v hl fmt data => v = 1 /\ hl = 16 /\ (exists f, fmt = Some f /\ byte f) /\ zlen data < 4294967279 end.
