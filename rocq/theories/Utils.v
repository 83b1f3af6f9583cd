(** Model of the integer / length codecs of pgp/utils.py. Definitions only. *)
From Verif Require Import Base.

(** pgp/utils.py:529-534 bytes_to_int: result += bytes_[offset+i] << (8*(length-i-1)), i = 0..length-1 *)
Fixpoint bytes_to_int_loop (bs : bytes) (offset length i : Z) (n : nat) (result : Z) : res Z :=
  match n with
  | O => Ok result
  | S n' => do b <- get bs (offset + i);;
            bytes_to_int_loop bs offset length (i + 1) n'
              (result + Z.shiftl b (8 * (length - i - 1)))
  end.
Definition bytes_to_int (bs : bytes) (offset length : Z) : res Z :=
  bytes_to_int_loop bs offset length 0 (Z.to_nat length) 0.
(** pgp/utils.py:537-546 byte_to_int, short_to_int, long_to_int *)
Definition byte_to_int (bs : bytes) (offset : Z) : res Z := bytes_to_int bs offset 1.
Definition short_to_int (bs : bytes) (offset : Z) : res Z := bytes_to_int bs offset 2.
Definition long_to_int (bs : bytes) (offset : Z) : res Z := bytes_to_int bs offset 4.

(** int(math.ceil(n / 8.0)): exact for the bit counts that occur (n < 2^53). *)
Definition ceil8 (n : Z) : Z := (n + 7) / 8.

(** pgp/utils.py:549-551 mpi_length *)
Definition mpi_length (bs : bytes) (offset : Z) : res Z :=
  do n <- short_to_int bs offset;; Ok (ceil8 n).
(** pgp/utils.py:554-559 mpi_to_int *)
Definition mpi_to_int (bs : bytes) (offset : Z) : res (Z * Z) :=
  do n <- mpi_length bs offset;;
  let offset := offset + 2 in
  do result <- bytes_to_int bs offset n;;
  Ok (result, offset + n).

(** (i >> (j*8)) & 0xff for j = n-1 down to 0 (pgp/utils.py:565-568 and 650-651) *)
Fixpoint be_bytes (n : nat) (i : Z) : bytes :=
  match n with
  | O => []
  | S n' => Z.land (Z.shiftr i (8 * Z.of_nat n')) 255 :: be_bytes n' i
  end.

(** pgp/utils.py:562-569 int_to_bytes. [fl i] stands for int(math.floor(math.log(i, 2))), a floating-point
    computation that is not always the exact floor of log2; math.log raises ValueError for i <= 0. *)
Definition int_to_bytes (fl : Z -> Z) (i : Z) : res bytes :=
  if i <=? 0 then Err ValueError else
  let bits_required := fl i + 1 in
  Ok (be_bytes (Z.to_nat (ceil8 bits_required)) i).

(** pgp/utils.py:572-580 int_to_2byte, 583-593 int_to_4byte, 596-610 int_to_8byte *)
Definition int_to_2byte (i : Z) : bytes :=
  [Z.land (Z.shiftr i 8) 255; Z.land i 255].
Definition int_to_4byte (i : Z) : bytes :=
  [Z.land (Z.shiftr i 24) 255; Z.land (Z.shiftr i 16) 255; Z.land (Z.shiftr i 8) 255; Z.land i 255].
Definition int_to_8byte (i : Z) : bytes :=
  [Z.land (Z.shiftr i 56) 255; Z.land (Z.shiftr i 48) 255; Z.land (Z.shiftr i 40) 255;
   Z.land (Z.shiftr i 32) 255; Z.land (Z.shiftr i 24) 255; Z.land (Z.shiftr i 16) 255;
   Z.land (Z.shiftr i 8) 255; Z.land i 255].

(** pgp/utils.py:613 *)
Definition EXPBIAS := 6.
(** pgp/utils.py:616-617 s2k_count_to_int *)
Definition s2k_count_to_int (b : Z) : Z :=
  Z.shiftl (16 + Z.land b 15) (Z.shiftr b 4 + EXPBIAS).
(** pgp/utils.py:620-629 int_to_s2k_count; [fl] as in [int_to_bytes]. *)
Definition int_to_s2k_count (fl : Z -> Z) (i : Z) : res bytes :=
  if i <? 1024 then Err ValueError else
  if 65011712 <? i then Err ValueError else
  let shift := fl i - 4 in
  if negb (Z.land i (Z.shiftl 1 shift - 1) =? 0) then Err ValueError else
  let bits := Z.land (Z.shiftr i shift) 15 in
  mk_bytes [Z.shiftl (shift - EXPBIAS) 4 + bits].

(** pgp/utils.py:642-652 int_to_mpi. A bit count above 65535 is truncated by int_to_2byte. *)
Definition int_to_mpi (fl : Z -> Z) (i : Z) : res bytes :=
  if i <? 0 then Err ValueError else
  if i =? 0 then Ok [0; 0] else
  let bits_required := fl i + 1 in
  let bytes_required := ceil8 bits_required in
  Ok (int_to_2byte bits_required ++ be_bytes (Z.to_nat bytes_required) i).

(** pgp/utils.py:655 *)
Definition MAX_PACKET_LENGTH := 4294967295.

(** pgp/utils.py:672-687 old_packet_length: [offset] is the tag octet. Returns (offset, length). *)
Definition old_packet_length (data : bytes) (offset : Z) : res (Z * Z) :=
  do t <- get data offset;;
  let length_type := Z.land t 3 in
  let offset := offset + 1 in
  if length_type =? 0 then do l <- get data offset;; Ok (offset + 1, l)
  else if length_type =? 1 then do l <- short_to_int data offset;; Ok (offset + 2, l)
  else if length_type =? 2 then do l <- long_to_int data offset;; Ok (offset + 4, l)
  else Ok (offset, zlen data - offset).

(** pgp/utils.py:705-720 new_packet_length. Returns (offset, length, partial). *)
Definition new_packet_length (data : bytes) (offset : Z) : res (Z * Z * bool) :=
  do length <- get data offset;;
  let offset := offset + 1 in
  if length <? 192 then Ok (offset, length, false)
  else if length <? 224 then
    do b <- get data offset;;
    Ok (offset + 1, Z.shiftl (length - 192) 8 + b + 192, false)
  else if length =? 255 then
    do l <- long_to_int data offset;; Ok (offset + 4, l, false)
  else Ok (offset, Z.shiftl 1 (Z.land length 31), true).

(** pgp/utils.py:723-756 new_packet_length_to_bytes. Returns (length octets, remaining). *)
Definition new_packet_length_to_bytes (data_length : Z) (allow_partial : bool) : res (bytes * Z) :=
  if data_length <? 192 then
    do r <- mk_bytes [data_length];; Ok (r, 0)
  else if data_length <? 8384 then
    let stored_length := data_length - 192 in
    do r <- mk_bytes [Z.shiftr stored_length 8 + 192; Z.land stored_length 255];; Ok (r, 0)
  else if data_length <=? MAX_PACKET_LENGTH then
    Ok ([255; Z.land (Z.shiftr data_length 24) 255; Z.land (Z.shiftr data_length 16) 255;
         Z.land (Z.shiftr data_length 8) 255; Z.land data_length 255], 0)
  else if allow_partial then Ok ([224 + 30], data_length - 2 ^ 30)
  else Err ValueError.

(** pgp/utils.py:759-777 old_packet_length_to_bytes. Returns (length type, length octets). *)
Definition old_packet_length_to_bytes (data_length : Z) : Z * list Z :=
  if data_length <? 256 then (0, [data_length])
  else if data_length <? 65536 then (1, [Z.shiftr data_length 8; Z.land data_length 255])
  else if data_length <? 16777216 then
    (2, [Z.shiftr data_length 24; Z.land (Z.shiftr data_length 16) 255;
         Z.land (Z.shiftr data_length 8) 255; Z.land data_length 255])
  else (3, []).

(** Upper-case hexadecimal digit (code point), as produced by '{:X}'. *)
Definition hexdigit (d : Z) : Z := if d <? 10 then 48 + d else 55 + d.
(** Value of a hexadecimal digit as accepted by int(s, 16). *)
Definition hexval (c : Z) : option Z :=
  if (48 <=? c) && (c <=? 57) then Some (c - 48)
  else if (65 <=? c) && (c <=? 70) then Some (c - 55)
  else if (97 <=? c) && (c <=? 102) then Some (c - 87)
  else None.

(** '{:X}'.format(i) for i >= 0 (digits of i, at least one). *)
Fixpoint hex_digits (fuel : nat) (i : Z) : list Z :=
  match fuel with
  | O => []
  | S f => if i <? 16 then [hexdigit i] else hex_digits f (i / 16) ++ [hexdigit (i mod 16)]
  end.
Definition hex_of (i : Z) : list Z := hex_digits (S (Z.to_nat (Z.log2 i))) i.
(** '{:0nX}' pads on the left with zeros. *)
Definition zpad (n : Z) (s : list Z) : list Z := repeat 48 (Z.to_nat (n - zlen s)) ++ s.

(** pgp/utils.py:632-639 int_to_hex, for i >= 0 (Python would print a sign for i < 0, not modelled).
    [s[-n:]] with n = 0 is the whole string. *)
Definition int_to_hex (i : Z) (expected_size : option Z) : list Z :=
  match expected_size with
  | None => hex_of i
  | Some n => let r := zpad n (hex_of i) in slice_from r (- n)
  end.

(** int(s, 16) restricted to strings of hexadecimal digits; Python also accepts surrounding
    whitespace, a sign and underscores, which are modelled as ValueError here. *)
Definition int16_2 (s : list Z) : res Z :=
  match s with
  | [a; b] => match hexval a, hexval b with Some x, Some y => Ok (16 * x + y) | _, _ => Err ValueError end
  | _ => Err ValueError
  end.

(** pgp/utils.py:780-791 hex_to_bytes *)
Fixpoint hex_pairs (n : nat) (idx : Z) (s : list Z) : res bytes :=
  match n with
  | O => Ok []
  | S n' => do b <- int16_2 (slice s idx (idx + 2));;
            do r <- hex_pairs n' (idx + 2) s;; Ok (b :: r)
  end.
Definition hex_to_bytes (s : list Z) (expected_length : option Z) : res bytes :=
  do r <- hex_pairs (Z.to_nat (zlen s / 2)) 0 s;;
  match expected_length with
  | None => Ok r
  | Some n => Ok (slice_from (repeat 0 (Z.to_nat n) ++ r) (- n))
  end.

(** pgp/utils.py:794-810 bytearray_to_hex. [expected] counts hexadecimal digits; the loop condition
    i < offset + expected/2 is on a float that is integral because expected is even. *)
Fixpoint to_hex_loop (n : nat) (arr : bytes) (i : Z) : res (list Z) :=
  match n with
  | O => Ok []
  | S n' => do b <- get arr i;;
            do r <- to_hex_loop n' arr (i + 1);;
            Ok (hexdigit (b / 16) :: hexdigit (b mod 16) :: r)
  end.
Definition bytearray_to_hex (arr : bytes) (offset : Z) (expected : option Z) : res (list Z) :=
  match expected with
  | Some n =>
      if negb (n mod 2 =? 0) then Err AssertionError else
      do r <- to_hex_loop (Z.to_nat (n / 2)) arr offset;;
      if zlen r <? n then Err TypeError (* '0' * len(result) - expected *)
      else Ok (slice_from r (- n))
  | None => to_hex_loop (Z.to_nat (zlen arr - offset)) arr offset
  end.
