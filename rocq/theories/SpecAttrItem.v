(** Which user attributes are unchanged by being read into a key. *)
From Verif Require Import Base Text UserAttr SpecAttr.
(** a mime type: an image of whatever kind, a JPEG image *)
Definition mime_image (m : text) : Prop := m = str "image" \/ exists kind, m = str "image/" ++ kind.
Definition mime_jpeg (m : text) : Prop := exists kind, m = kind ++ str "/jpeg".
(** JPEG images (format 1); and of the other formats only 101, if the data is recognised as an image other than JPEG *)
Definition kept (magic : bytes -> text) (a : attr) : Prop :=
  match a with
  | AImage _ _ (Some f) data => f = 1 \/ (f = 101 /\ mime_image (magic (slice data 0 1024)) /\ ~ mime_jpeg (magic (slice data 0 1024)))
  | _ => False
  end.
Definition jpeg (a : attr) : Prop := exists image, a = AImage 1 16 (Some 1) image /\ zlen image < 4294967279.
