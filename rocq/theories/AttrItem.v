(** Model of UserAttributeContentItem and of UserAttribute.from_packet/to_packet (pgp/transferrable_keys.py:748-816). Definitions only. *)
From Verif Require Import Base Text UserAttr.

(** 767-769 __init__: mime_type and data *)
Record item := Item { mime_type : text; idata : bytes }.
Section M.
(** the magic module: the mime type of the first octets of a file *)
Variable magic : bytes -> text.
(** 754-761 from_subpacket; a UserAttributeSubpacket has no attribute image_format. C.JPEG_IMAGE_FORMAT is 1. *)
Definition item_from_subpacket (a : attr) : res item :=
  match a with
  | AUnknown _ => Err AttributeError
  | AImage _ _ fmt data =>
      Ok (Item (match fmt with Some f => if f =? 1 then str "image/jpeg" else magic (slice data 0 1024) | None => magic (slice data 0 1024) end) data)
  end.
(** 797-804 UserAttribute.from_packet, the content items *)
Definition items_from_packet (l : list attr) : res (list item) := mapM item_from_subpacket l.
End M.
(** mime_type.split('/', 1)[0] *)
Fixpoint before_slash (t : text) : text := match t with [] => [] | c :: r => if c =? 47 then [] else c :: before_slash r end.
(** mime_type.endswith('/jpeg') *)
Definition ends_jpeg (t : text) : bool := starts_with (rev (str "/jpeg")) (rev t).
(** 774-786 to_subpacket; None is returned for what is not an image *)
Definition item_to_subpacket (i : item) : option attr :=
  if negb (zlist_eqb (before_slash (mime_type i)) (str "image")) then None
  else Some (AImage 1 16 (Some (if ends_jpeg (mime_type i) then 1 else 101)) (idata i)).
(** 806-812 UserAttribute.to_packet, and the content of that packet (packets.py:1457-1462): bytes(None) is a TypeError *)
Fixpoint items_content (l : list item) : res bytes :=
  match l with
  | [] => Ok []
  | i :: t => do x <- (match item_to_subpacket i with Some a => attr_bytes a | None => Err TypeError end);; do y <- items_content t;; Ok (x ++ y)
  end.
(** from_packet, then to_packet().content, which is also what to_signable_data (814-822) hashes *)
Definition rewritten (magic : bytes -> text) (l : list attr) : res bytes := do items <- items_from_packet magic l;; items_content items.
