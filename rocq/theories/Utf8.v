(** Text codecs of CPython that the modelled code calls: bytes.decode('utf8'), with errors 'strict' or 'replace',
    str.encode('utf8', ...), and the ascii and latin-1 codecs. Definitions only. These are runtime functions, not /repo code;
    callers: pgp/packets/packets.py:1247,1360-1393,1397-1425, pgp/packets/signature_subpackets.py:128-144,294-345,388-403,478-515. *)
From Verif Require Import Base Text.

(** continuation octet *)
Definition cont (b : Z) : bool := (128 <=? b) && (b <? 192).
(** bounds of the second octet after a three or four octet lead (no overlong forms, no surrogates, at most U+10FFFF) *)
Definition second_ok (b c : Z) : bool :=
  ((if b =? 224 then 160 else if b =? 240 then 144 else 128) <=? c) &&
  (c <=? (if b =? 237 then 159 else if b =? 244 then 143 else 191)).
(** one step of the decoder at the head of a non-empty list: the code point, or an error, and the octets it covers
    (an error covers the longest valid beginning of a sequence, and at least one octet) *)
Definition utf8_next (l : bytes) : option Z * nat :=
  match l with
  | [] => (None, 1%nat)
  | b :: t =>
      if b <? 128 then (Some b, 1%nat)
      else if b <? 194 then (None, 1%nat)
      else if b <? 224 then
        match t with
        | c :: _ => if cont c then (Some ((b - 192) * 64 + (c - 128)), 2%nat) else (None, 1%nat)
        | [] => (None, 1%nat)
        end
      else if b <? 240 then
        match t with
        | c :: t' =>
            if second_ok b c then
              match t' with
              | d :: _ => if cont d then (Some ((b - 224) * 4096 + (c - 128) * 64 + (d - 128)), 3%nat) else (None, 2%nat)
              | [] => (None, 2%nat)
              end
            else (None, 1%nat)
        | [] => (None, 1%nat)
        end
      else if b <? 245 then
        match t with
        | c :: t' =>
            if second_ok b c then
              match t' with
              | d :: t'' =>
                  if cont d then
                    match t'' with
                    | e :: _ => if cont e then (Some ((b - 240) * 262144 + (c - 128) * 4096 + (d - 128) * 64 + (e - 128)), 4%nat) else (None, 3%nat)
                    | [] => (None, 3%nat)
                    end
                  else (None, 2%nat)
              | [] => (None, 2%nat)
              end
            else (None, 1%nat)
        | [] => (None, 1%nat)
        end
      else (None, 1%nat)
  end.
(** all the steps: a list of code points and errors *)
Fixpoint utf8_items (fuel : nat) (l : bytes) : list (option Z) :=
  match fuel, l with
  | O, _ => []
  | _, [] => []
  | S f, _ => let '(o, n) := utf8_next l in o :: utf8_items f (skipn n l)
  end.
Definition items (l : bytes) : list (option Z) := utf8_items (length l) l.
(** b.decode('utf8', 'replace'): U+FFFD for every error *)
Definition utf8_decode_replace (l : bytes) : text := map (fun o => match o with Some c => c | None => 65533 end) (items l).
(** b.decode('utf8'): UnicodeDecodeError at the first error *)
Definition utf8_decode (l : bytes) : res text :=
  mapM (fun o => match o with Some c => Ok c | None => Err UnicodeError end) (items l).

Definition is_surrogate (c : Z) : bool := (55296 <=? c) && (c <=? 57343).
(** octets of one code point *)
Definition utf8_enc1 (c : Z) : bytes :=
  if c <? 128 then [c]
  else if c <? 2048 then [192 + Z.shiftr c 6; 128 + Z.land c 63]
  else if c <? 65536 then [224 + Z.shiftr c 12; 128 + Z.land (Z.shiftr c 6) 63; 128 + Z.land c 63]
  else [240 + Z.shiftr c 18; 128 + Z.land (Z.shiftr c 12) 63; 128 + Z.land (Z.shiftr c 6) 63; 128 + Z.land c 63].
(** s.encode('utf8', 'replace'): '?' for a surrogate *)
Definition utf8_encode_replace (s : text) : bytes := flat_map (fun c => if is_surrogate c then [63] else utf8_enc1 c) s.
(** s.encode('utf8'): UnicodeEncodeError for a surrogate *)
Definition utf8_encode (s : text) : res bytes := if existsb is_surrogate s then Err UnicodeError else Ok (flat_map utf8_enc1 s).

(** b.decode('ascii', 'replace') and s.encode('ascii', 'replace') *)
Definition ascii_decode_replace (l : bytes) : text := map (fun b => if b <? 128 then b else 65533) l.
Definition ascii_encode_replace (s : text) : bytes := map (fun c => if c <? 128 then c else 63) s.
(** b.decode('latin-1') and s.encode('latin-1', 'replace') *)
Definition latin1_decode (l : bytes) : text := l.
Definition latin1_encode_replace (s : text) : bytes := map (fun c => if c <? 256 then c else 63) s.
