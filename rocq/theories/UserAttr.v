(** Model of pgp/packets/user_attribute_subpackets.py and UserAttributePacket (pgp/packets/packets.py:1429-1471). Definitions only. *)
From Verif Require Import Base Utils.

(** user_attribute_subpackets.py:21-101: UserAttributeSubpacket (no content) and ImageAttributeSubpacket *)
Inductive attr :=
| AUnknown (ty : Z)
| AImage (header_version header_length : Z) (image_format : option Z) (data : bytes).

(** 21-25 and 52-80 from_subpacket_content, parse_unknown = False *)
Definition attr_from_content (ty : Z) (d : bytes) : res attr :=
  if ty =? 1 then
    do a <- get d 0;;
    do b <- get d 1;;
    let header_length := a + Z.shiftl b 8 in
    do header_version <- get d 2;;
    if header_version =? 1 then
      if negb (header_length =? 16) then Err ValueError else
      do f <- get d 3;;
      if existsb (fun x => negb (x =? 0)) (slice d 4 16) then Err ValueError else
      Ok (AImage header_version header_length (Some f) (slice_from d header_length))
    else Err ValueError
  else Ok (AUnknown ty).

(** 36-38 and 100-113 content *)
Definition attr_content (a : attr) : res bytes :=
  match a with
  | AUnknown _ => Ok []
  | AImage v hl fmt data =>
      do h <- mk_bytes [Z.land hl 255; Z.land (Z.shiftr hl 8) 255; v];;
      do f <- (match fmt with
               | Some f => do x <- mk_bytes [f];; Ok (x ++ repeat 0 (Z.to_nat (hl - 4)))
               | None => Ok (repeat 0 (Z.to_nat (hl - 3)))
               end);;
      Ok (h ++ f ++ data)
  end.
Definition attr_type (a : attr) : Z := match a with AUnknown ty => ty | AImage _ _ _ _ => 1 end.
(** 40-48 __bytes__ *)
Definition attr_bytes (a : attr) : res bytes :=
  do d <- attr_content a;;
  do (l, _) <- new_packet_length_to_bytes (zlen d + 1) false;;
  do t <- mk_bytes [attr_type a];;
  Ok (l ++ t ++ d).
(** 121-136 user_attribute_subpacket_from_data *)
Definition attr_from_data (data : bytes) (offset : Z) : res (attr * Z) :=
  do (offset, sub_len, sub_partial) <- new_packet_length data offset;;
  if (sub_partial : bool) then Err ValueError else
  do ty <- get data offset;;
  let s := offset + 1 in
  let e := s + sub_len - 1 in
  do a <- attr_from_content ty (slice data s e);;
  Ok (a, e).
(** packets.py:1432-1445 UserAttributePacket.from_packet_content *)
Fixpoint attr_loop (fuel : nat) (data : bytes) (offset : Z) (acc : list attr) : res (list attr) :=
  match fuel with
  | O => Err OutOfFuel
  | S f => if offset <? zlen data then do (a, o) <- attr_from_data data offset;; attr_loop f data o (acc ++ [a]) else Ok acc
  end.
Definition attrs_from_content (data : bytes) : res (list attr) := attr_loop (S (length data)) data 0 [].
(** packets.py:1458-1462 content *)
Fixpoint attrs_content (l : list attr) : res bytes :=
  match l with [] => Ok [] | a :: t => do x <- attr_bytes a;; do y <- attrs_content t;; Ok (x ++ y) end.
