(** Model of packet framing: pgp/packets/packets.py Packet.__bytes__, packet_from_packet_data,
    packet_from_packet_stream and pgp/packets/parsers.py. Definitions only. *)
From Verif Require Import Base Utils.

(** pgp/packets/constants.py:37-38 NEW_PACKET_HEADER_TYPE = 1, OLD_PACKET_HEADER_TYPE = 2 *)
Inductive header_format := NewH | OldH.
(** The framing view of a packet object: header format, type and content octets. *)
Record raw_packet := Raw { hfmt : header_format; ptype : Z; pcontent : bytes }.

(** pgp/packets/constants.py:29-34 DATA_TYPES: compressed 8, encrypted 9, literal 11, protected 18 *)
Definition is_data_type (t : Z) : bool := (t =? 8) || (t =? 9) || (t =? 11) || (t =? 18).

(** pgp/packets/packets.py:130-141: the [while remaining] loop of Packet.__bytes__ (new format).
    Note that new_packet_length_to_bytes is called with data_length, not with remaining. *)
Fixpoint new_body_loop (fuel : nat) (data : bytes) (allow_partial : bool)
    (remaining offset : Z) (result : bytes) : res bytes :=
  match fuel with
  | O => Err OutOfFuel
  | S fuel' =>
      if remaining =? 0 then Ok result else
      let data_length := zlen data in
      do (lb, remaining') <- new_packet_length_to_bytes data_length allow_partial;;
      let result' := result ++ lb ++ slice data offset (data_length - remaining') in
      new_body_loop fuel' data allow_partial remaining' (data_length - remaining') result'
  end.

(** pgp/packets/packets.py:121-153 Packet.__bytes__; [fuel] bounds the iterations of its loop. *)
Definition packet_bytes_fuel (fuel : nat) (p : raw_packet) : res bytes :=
  let data := pcontent p in
  match hfmt p with
  | NewH =>
      do h <- mk_bytes [128 + (64 + ptype p)];;
      new_body_loop fuel data (is_data_type (ptype p)) (zlen data) 0 h
  | OldH =>
      let '(length_type, length_bytes) := old_packet_length_to_bytes (zlen data) in
      do h <- mk_bytes [128 + Z.shiftl (ptype p) 2 + length_type];;
      do l <- mk_bytes length_bytes;;
      Ok (h ++ l ++ data)
  end.
(** Two rounds suffice whenever the loop ends at all (proved). *)
Definition packet_bytes (p : raw_packet) : res bytes := packet_bytes_fuel 2 p.

(** pgp/packets/packets.py:1671-1689: loop of packet_from_packet_data. [tag] is None before the first
    iteration; [if not tag] is also true for tag 0. Returns (offset, header type, tag, packet_data). *)
Fixpoint pfd_loop (fuel : nat) (data : bytes) (offset : Z) (tag : option Z) (h : header_format)
    (packet_data : bytes) : res (Z * header_format * Z * bytes) :=
  match fuel with
  | O => Err OutOfFuel
  | S fuel' =>
      do (offset, tag, h) <-
        match tag with
        | Some t => if t =? 0 then
            (do b <- get data offset;;
             let tag := Z.land b 63 in
             if Z.land b 64 =? 0 then Ok (offset, Z.shiftr tag 2, OldH) else Ok (offset + 1, tag, NewH))
            else Ok (offset, t, h)
        | None =>
            do b <- get data offset;;
            let tag := Z.land b 63 in
            if Z.land b 64 =? 0 then Ok (offset, Z.shiftr tag 2, OldH) else Ok (offset + 1, tag, NewH)
        end;;
      match h with
      | NewH =>
          do (offset, data_length, incomplete) <- new_packet_length data offset;;
          let packet_data := packet_data ++ slice data offset (offset + data_length) in
          let offset := offset + data_length in
          if (incomplete : bool) then pfd_loop fuel' data offset (Some tag) h packet_data
          else Ok (offset, h, tag, packet_data)
      | OldH =>
          do (offset, data_length) <- old_packet_length data offset;;
          Ok (offset + data_length, h, tag, packet_data ++ slice data offset (offset + data_length))
      end
  end.
Definition raw_from_data (data : bytes) (offset : Z) : res (Z * raw_packet) :=
  do (offset, h, tag, body) <- pfd_loop (S (length data)) data offset None NewH [];;
  Ok (offset, Raw h tag body).

(** pgp/packets/packets.py:1661-1696 packet_from_packet_data; [dec] stands for
    PACKET_TYPES.get(tag, Packet).from_packet_content. *)
Definition packet_from_packet_data {A} (dec : raw_packet -> res A) (data : bytes) (offset : Z) : res (Z * A) :=
  do (offset, r) <- raw_from_data data offset;;
  do p <- dec r;;
  Ok (offset, p).

(** pgp/packets/parsers.py:35-40 parse_binary_packet_data: a generator, modelled by the packets it
    yields and the exception (if any) that ends it. *)
Fixpoint parse_loop {A} (fuel : nat) (dec : raw_packet -> res A) (data : bytes) (offset : Z) : list A * option exn :=
  match fuel with
  | O => ([], Some OutOfFuel)
  | S fuel' =>
      if offset <? zlen data then
        match packet_from_packet_data dec data offset with
        | Ok (offset', p) => let '(ps, e) := parse_loop fuel' dec data offset' in (p :: ps, e)
        | Err e => ([], Some e)
        end
      else ([], None)
  end.
Definition parse_binary_packet_data {A} (dec : raw_packet -> res A) (data : bytes) : list A * option exn :=
  parse_loop (S (length data)) dec data 0.

(** Streams: a file object is modelled by the octets that remain to be read. [fh.read(n)]: *)
Definition fread (n : Z) (s : bytes) : bytes * bytes := (firstn (Z.to_nat n) s, skipn (Z.to_nat n) s).
(** [ord(fh.read(1))]: TypeError at end of file. *)
Definition ord_read (s : bytes) : res (Z * bytes) :=
  match s with [] => Err TypeError | b :: t => Ok (b, t) end.

(** pgp/utils.py:658-669 old_packet_length_from_stream *)
Definition old_packet_length_from_stream (s : bytes) : res (Z * bytes) :=
  do (t, s) <- ord_read s;;
  let length_type := Z.land t 3 in
  if length_type =? 0 then ord_read s
  else if length_type =? 1 then
    let '(b, s') := fread 2 s in do l <- short_to_int b 0;; Ok (l, s')
  else if length_type =? 2 then
    let '(b, s') := fread 4 s in do l <- long_to_int b 0;; Ok (l, s')
  else Err ValueError.
(** pgp/utils.py:690-702 new_packet_length_from_stream *)
Definition new_packet_length_from_stream (s : bytes) : res (Z * bool * bytes) :=
  do (length, s) <- ord_read s;;
  if length <? 192 then Ok (length, false, s)
  else if length <? 224 then
    do (b, s) <- ord_read s;; Ok (Z.shiftl (length - 192) 8 + b + 192, false, s)
  else if length =? 255 then
    let '(b, s') := fread 4 s in do l <- long_to_int b 0;; Ok (l, false, s')
  else Ok (Z.shiftl 1 (Z.land length 31), true, s).

(** pgp/packets/packets.py:1627-1653: loop of packet_from_packet_stream. A tag octet is read in every
    iteration; previous_header_type is never assigned, so its check never fires. *)
Fixpoint pfs_loop (fuel : nat) (s : bytes) (previous_tag : option Z) (packet_data : bytes)
    : res (header_format * Z * bytes * bytes) :=
  match fuel with
  | O => Err OutOfFuel
  | S fuel' =>
      do (first, s1) <- ord_read s;;
      let tag := Z.land first 63 in
      do _ <- (match previous_tag with
               | Some t => if t =? tag then Ok tt else Err ValueError
               | None => Ok tt end);;
      if Z.land first 64 =? 0 then
        do (n, s2) <- old_packet_length_from_stream s;;   (* fh.seek(fh.tell() - 1) *)
        let '(b, s3) := fread n s2 in
        Ok (OldH, Z.shiftr tag 2, packet_data ++ b, s3)
      else
        do (n, incomplete, s2) <- new_packet_length_from_stream s1;;
        let '(b, s3) := fread n s2 in
        if (incomplete : bool) then pfs_loop fuel' s3 (Some tag) (packet_data ++ b)
        else Ok (NewH, tag, packet_data ++ b, s3)
  end.
(** pgp/packets/packets.py:1617-1658 packet_from_packet_stream: (packet, unread octets) *)
Definition packet_from_packet_stream {A} (dec : raw_packet -> res A) (s : bytes) : res (A * bytes) :=
  do (h, tag, body, rest) <- pfs_loop (S (length s)) s None [];;
  do p <- dec (Raw h tag body);;
  Ok (p, rest).
(** pgp/packets/parsers.py:24-32 parse_binary_packet_stream *)
Fixpoint parse_stream_loop {A} (fuel : nat) (dec : raw_packet -> res A) (s : bytes) : list A * option exn :=
  match fuel with
  | O => ([], Some OutOfFuel)
  | S fuel' =>
      match s with
      | [] => ([], None)
      | _ => match packet_from_packet_stream dec s with
             | Ok (p, s') => let '(ps, e) := parse_stream_loop fuel' dec s' in (p :: ps, e)
             | Err e => ([], Some e)
             end
      end
  end.
Definition parse_binary_packet_stream {A} (dec : raw_packet -> res A) (s : bytes) : list A * option exn :=
  parse_stream_loop (S (length s)) dec s.
