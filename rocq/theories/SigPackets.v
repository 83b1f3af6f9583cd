(** Model of pgp/packets/signature_subpackets.py and of SignaturePacket (pgp/packets/packets.py:299-510). Definitions only. *)
From Verif Require Import Base Utils Text Utf8 S2k.

(** The fields of a subpacket object, by class. *)
Inductive subbody :=
| SbUnknown                                   (* signature_subpackets.py:24-56 SignatureSubpacket: no content *)
| SbTime (t : Z)                              (* 59-74 creation, 77-82 expiration, 166-171 key expiration *)
| SbBool (b : bool)                           (* 85-101 exportable, 147-163 revocable, 406-422 primary user id *)
| SbTrust (depth amount : Z)                  (* 104-125 *)
| SbRegex (pattern : text)                    (* 128-144 *)
| SbAddRecip (strong : bool) (alg : Z) (fpr : text)  (* 174-210 *)
| SbAlgs (l : list Z)                         (* 213-233, 348-367 *)
| SbRevKey (fpr : text) (alg : Z) (sensitive : bool) (* 236-270 *)
| SbIssuer (key_id : text)                    (* 273-291 *)
| SbNotation (name : text) (ns : option text) (human : bool) (value : list Z)  (* 294-345; value is text if human, else octets *)
| SbNoModify (b : bool)                       (* 370-385 *)
| SbUri (uri : text)                          (* 388-403, 425-429 *)
| SbFlags (certify sign comms storage auth split multi : bool)  (* 432-475 *)
| SbUserId (uid : text)                       (* 478-492 *)
| SbReason (code : Z) (reason : text)         (* 495-516 *)
| SbFeatures (md : bool)                      (* 519-537; sub_data[0] & 1 and True/False only matter as truth values *)
| SbTarget (pk_alg hash_alg : Z) (h : text) (hlen : option Z)   (* 540-579 *)
| SbEmbedded (s : sigpkt)                     (* 582-602 *)
with subpkt := Sub (ty : Z) (critical : bool) (b : subbody)
(** SignaturePacket objects: versions 2 and 3 have a creation time and key id, later ones two subpacket lists.
    None entries of signature_values, which the serialiser skips, are not represented. *)
with sigpkt :=
| SigV3 (version sig_type pk_alg hash_alg : Z) (hash2 : bytes) (values : list Z) (ctime : Z) (key_id : text)
| SigV4 (version sig_type pk_alg hash_alg : Z) (hash2 : bytes) (values : list Z) (hashed unhashed : list subpkt).

Definition sub_type (s : subpkt) : Z := match s with Sub ty _ _ => ty end.
Definition sub_critical (s : subpkt) : bool := match s with Sub _ c _ => c end.
Definition sub_body (s : subpkt) : subbody := match s with Sub _ _ b => b end.

(** s.split('@', 1) padded with None *)
Fixpoint split_at_sign (s : text) : text * option text :=
  match s with
  | [] => ([], None)
  | c :: t => if c =? 64 then ([], Some t) else let '(a, b) := split_at_sign t in (c :: a, b)
  end.

(** assert len(sub_data) == 1; assert not sub_data[0] & 0xfe; bool(sub_data[0]) *)
Definition bool_from (d : bytes) : res bool :=
  if negb (zlen d =? 1) then Err AssertionError else
  do b <- get d 0;;
  if negb (Z.land b 254 =? 0) then Err AssertionError else Ok (negb (b =? 0)).
Definition bit (x m : Z) : bool := negb (Z.land x m =? 0).

(** The from_subpacket_content class methods, through SIGNATURE_SUBPACKET_TYPES (605-639). [emb] is
    SignaturePacket.from_packet_content. *)
Definition subbody_from (emb : bytes -> res sigpkt) (ty : Z) (d : bytes) : res subbody :=
  if (ty =? 2) || (ty =? 3) || (ty =? 9) then
    if negb (zlen d =? 4) then Err AssertionError else do t <- long_to_int d 0;; Ok (SbTime t)
  else if (ty =? 4) || (ty =? 7) || (ty =? 25) then do b <- bool_from d;; Ok (SbBool b)
  else if ty =? 5 then
    if negb (zlen d =? 2) then Err AssertionError else
    do a <- get d 0;; do b <- get d 1;; Ok (SbTrust a b)
  else if ty =? 6 then
    if negb (0 <? zlen d) then Err AssertionError else
    do z <- get d (-1);;
    if negb (z =? 0) then Err AssertionError else Ok (SbRegex (ascii_decode_replace (slice d 0 (-1))))
  else if ty =? 10 then
    do c <- get d 0;; do a <- get d 1;; do f <- bytearray_to_hex d 2 (Some 20);;
    Ok (SbAddRecip (bit c 128) a f)
  else if (ty =? 11) || (ty =? 21) || (ty =? 22) then Ok (SbAlgs d)
  else if ty =? 12 then
    (* tag = sub_data; tag & 0x80 on a bytearray *)
    if negb (zlen d =? 22) then Err AssertionError else Err TypeError
  else if ty =? 16 then
    if negb (zlen d =? 8) then Err AssertionError else do k <- bytearray_to_hex d 0 (Some 16);; Ok (SbIssuer k)
  else if ty =? 20 then
    if negb (8 <=? zlen d) then Err AssertionError else
    if existsb (fun x => negb (x =? 0)) (slice (slice d 0 4) 1 4) then Err AssertionError else
    do f <- get d 0;;
    if negb (Z.land f 127 =? 0) then Err AssertionError else
    do nl <- short_to_int d 4;;
    do vl <- short_to_int d 6;;
    let raw_name := slice d 8 (8 + nl) in
    let value := slice d (8 + nl) (8 + nl + vl) in
    if negb (8 + nl + vl =? zlen d) then Err AssertionError else
    let '(name, ns) := split_at_sign (utf8_decode_replace raw_name) in
    Ok (SbNotation name ns true (utf8_decode_replace value))
  else if ty =? 23 then
    if negb (0 <? zlen d) then Err AssertionError else do b <- get d 0;; Ok (SbNoModify (bit b 128))
  else if (ty =? 24) || (ty =? 26) then
    if negb (0 <? zlen d) then Err AssertionError else Ok (SbUri (utf8_decode_replace d))
  else if ty =? 27 then
    if negb (0 <? zlen d) then Err AssertionError else
    do k <- get d 0;; Ok (SbFlags (bit k 1) (bit k 2) (bit k 4) (bit k 8) (bit k 32) (bit k 16) (bit k 128))
  else if ty =? 28 then do s <- utf8_decode d;; Ok (SbUserId s)
  else if ty =? 29 then do c <- get d 0;; Ok (SbReason c (utf8_decode_replace (slice_from d 1)))
  else if ty =? 30 then
    if negb (0 <? zlen d) then Err AssertionError else do b <- get d 0;; Ok (SbFeatures (bit b 1))
  else if ty =? 31 then
    if negb (2 <? zlen d) then Err AssertionError else
    do a <- get d 0;; do h <- get d 1;;
    do l <- (match hash_lengths h with
             | None => Ok (zlen d - 2)
             | Some n => if n =? zlen d - 2 then Ok n else Err AssertionError
             end);;
    do x <- bytearray_to_hex d 2 (Some (zlen d - 2));;
    Ok (SbTarget a h x (Some l))
  else if ty =? 32 then do s <- emb d;; Ok (SbEmbedded s)
  else Ok SbUnknown.

(** 642-657 signature_subpacket_from_data: (subpacket, offset) *)
Definition sub_from_data (emb : bytes -> res sigpkt) (data : bytes) (offset : Z) : res (subpkt * Z) :=
  do (offset, length, partial) <- new_packet_length data offset;;
  if (partial : bool) then Err AssertionError else
  do tag <- get data offset;;
  let ty := Z.land tag 127 in
  let critical := bit tag 128 in
  let length := length - 1 in
  let offset := offset + 1 in
  do b <- subbody_from emb ty (slice data offset (offset + length));;
  Ok (Sub ty critical b, offset + length).
(** packets.py:363-366, 373-376: while offset < subpacket_end *)
Fixpoint sub_loop (fuel : nat) (emb : bytes -> res sigpkt) (data : bytes) (offset subpacket_end : Z) (acc : list subpkt) : res (list subpkt * Z) :=
  match fuel with
  | O => Err OutOfFuel
  | S f =>
      if offset <? subpacket_end then
        do (s, o) <- sub_from_data emb data offset;; sub_loop f emb data o subpacket_end (acc ++ [s])
      else Ok (acc, offset)
  end.
(** packets.py:384-388: while offset < data_len *)
Fixpoint sig_values (fuel : nat) (data : bytes) (offset : Z) (acc : list Z) : res (list Z) :=
  match fuel with
  | O => Err OutOfFuel
  | S f =>
      if offset <? zlen data then do (v, o) <- mpi_to_int data offset;; sig_values f data o (acc ++ [v]) else Ok acc
  end.
(** packets.py:304-396 SignaturePacket.from_packet_content *)
Definition sig_body (emb : bytes -> res sigpkt) (data : bytes) : res sigpkt :=
  do version <- get data 0;;
  if (version =? 2) || (version =? 3) then
    do five <- get data 1;;
    if negb (five =? 5) then Err ValueError else
    do st <- get data 2;;
    do ct <- long_to_int data 3;;
    do kid <- bytearray_to_hex data 7 (Some 8);;
    do pk <- get data 15;;
    do ha <- get data 16;;
    do vs <- sig_values (S (length data)) data 19 [];;
    Ok (SigV3 version st pk ha (slice data 17 19) vs ct kid)
  else if version =? 4 then
    do st <- get data 1;;
    do pk <- get data 2;;
    do ha <- get data 3;;
    do l1 <- short_to_int data 4;;
    do (hashed, o) <- sub_loop (S (length data)) emb data 6 (6 + l1) [];;
    do l2 <- short_to_int data o;;
    do (unhashed, o) <- sub_loop (S (length data)) emb data (o + 2) (o + 2 + l2) [];;
    do vs <- sig_values (S (length data)) data (o + 2) [];;
    Ok (SigV4 version st pk ha (slice data o (o + 2)) vs hashed unhashed)
  else Err ValueError.
(** embedded signatures recurse; CPython's recursion limit (about 1000 frames) is not modelled *)
Fixpoint sig_from (fuel : nat) (data : bytes) : res sigpkt :=
  match fuel with O => Err OutOfFuel | S f => sig_body (sig_from f) data end.
Definition sig_from_content (data : bytes) : res sigpkt := sig_from (S (length data)) data.

(** SignatureSubpacket.__bytes__ (46-56), given the content *)
Definition sub_frame (ty : Z) (critical : bool) (content : bytes) : res bytes :=
  do (l, _) <- new_packet_length_to_bytes (zlen content + 1) false;;
  do r <- mk_bytes [ty + (if critical then 128 else 0)];;
  Ok (l ++ r ++ content).
Definition bflag (b : bool) (m : Z) : Z := if b then m else 0.
(** The content properties. A list plus a bytearray is a TypeError (267-270, 575-579); bytearray_to_hex on text in 269
    fails earlier (bytes of text are not integers) with the same exception. *)
Definition plain_content (b : subbody) : res bytes :=
  match b with
  | SbUnknown => Ok []
  | SbTime t => Ok (int_to_4byte t)
  | SbBool b => Ok [if b then 1 else 0]
  | SbTrust d a => mk_bytes [d; a]
  | SbRegex p => Ok (ascii_encode_replace p)
  | SbAddRecip s a f => do h <- mk_bytes [bflag s 128; a];; do x <- hex_to_bytes f (Some 20);; Ok (h ++ x)
  | SbAlgs l => mk_bytes l
  | SbRevKey _ _ _ => Err TypeError
  | SbIssuer k => hex_to_bytes k (Some 8)
  | SbNotation n ns h v =>
      let raw_name := utf8_encode_replace n ++ match ns with Some (c :: s) => [64] ++ utf8_encode_replace (c :: s) | _ => [] end in
      let raw_value := if h then utf8_encode_replace v else v in
      Ok ([bflag h 128; 0; 0; 0] ++ int_to_2byte (zlen raw_name) ++ int_to_2byte (zlen raw_value) ++ raw_name ++ raw_value)
  | SbNoModify b => Ok [bflag b 128]
  | SbUri u => Ok (utf8_encode_replace u)
  | SbFlags c s e st au sp m => Ok [bflag c 1 + bflag s 2 + bflag e 4 + bflag st 8 + bflag sp 16 + bflag au 32 + bflag m 128]
  | SbUserId u => Ok (utf8_encode_replace u)
  | SbReason c r => do h <- mk_bytes [c];; Ok (h ++ utf8_encode_replace r)
  | SbFeatures b => Ok [bflag b 1]
  | SbTarget _ _ _ _ => Err TypeError
  | SbEmbedded _ => Err RuntimeError   (* handled below *)
  end.
(** packets.py:453-490 SignaturePacket.content, 600-602 EmbeddedSignatureSubpacket.content; [fl] as in int_to_mpi *)
Fixpoint mpis (fl : Z -> Z) (values : list Z) : res bytes :=
  match values with [] => Ok [] | v :: t => do a <- int_to_mpi fl v;; do b <- mpis fl t;; Ok (a ++ b) end.
Fixpoint sig_content (fl : Z -> Z) (s : sigpkt) {struct s} : res bytes :=
  match s with
  | SigV4 v st pk ha h2 vs hs us =>
      let area := fix area (l : list subpkt) : res bytes :=
        match l with
        | [] => Ok []
        | s :: t =>
            do b <- (match s with
                     | Sub ty c (SbEmbedded sg) => do d <- sig_content fl sg;; sub_frame ty c d
                     | Sub ty c b => do d <- plain_content b;; sub_frame ty c d
                     end);;
            do r <- area t;; Ok (b ++ r)
        end in
      do h <- mk_bytes [v; st; pk; ha];;
      do a <- area hs;;
      do b <- area us;;
      do m <- mpis fl vs;;
      Ok (h ++ int_to_2byte (zlen a) ++ a ++ int_to_2byte (zlen b) ++ b ++ h2 ++ m)
  | SigV3 v st pk ha h2 vs ct kid =>
      (* data.extend(self.key_id) with a text key id *)
      do _ <- mk_bytes [v; 5; st];; Err TypeError
  end.
Definition sub_content (fl : Z -> Z) (b : subbody) : res bytes :=
  match b with SbEmbedded sg => sig_content fl sg | _ => plain_content b end.
(** bytes(subpacket) *)
Definition sub_bytes (fl : Z -> Z) (s : subpkt) : res bytes :=
  match s with Sub ty c b => do d <- sub_content fl b;; sub_frame ty c d end.
Fixpoint subs_bytes (fl : Z -> Z) (l : list subpkt) : res bytes :=
  match l with [] => Ok [] | s :: t => do b <- sub_bytes fl s;; do r <- subs_bytes fl t;; Ok (b ++ r) end.
