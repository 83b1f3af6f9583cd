(** Model of the small packet classes of pgp/packets/packets.py. Definitions only.
    [from] is from_packet_content, [content] is the content property; __bytes__ (Framing.v) writes [content]. *)
From Verif Require Import Base Utils Text Utf8 Framing.

(** literal time: the parser stores the integer of the packet, other callers a datetime. [TDate t] is a datetime whose
    int(time.mktime(x.timetuple())) is t (the local time zone conversion is the C library's, not modelled) *)
Inductive ltime := TInt (t : Z) | TDate (t : Z).
(** literal data: octets, or text for the formats 't' and 'u' *)
Inductive ldata := LBytes (b : bytes) | LText (s : text).

Inductive dpacket :=
| PCompressed (alg : Z) (data : bytes)                         (* packets.py:1137-1185 CompressedDataPacket *)
| PSymEnc (data : bytes)                                       (* 1188-1209 SymmetricallyEncryptedDataPacket *)
| PLiteral (fmt : Z) (name : text) (time : ltime) (data : ldata)  (* 1235-1311 LiteralDataPacket *)
| PTrust (value : Z) (sig_cache : option Z)                    (* 1314-1357 TrustPacket *)
| PUserId (uid : text)                                         (* 1360-1394 UserIDPacket *)
| PComment (ty : Z) (comment : text)                           (* 1397-1426 OldCommentPacket, 1529-1538 GpgCommentPacket *)
| PSeipd (version : Z) (data : bytes)                          (* 1474-1501 SymmetricallyEncryptedAndIntegrityProtectedDataPacket *)
| PMdc (data : bytes)                                          (* 1504-1526 ModificationDetectionCodePacket *)
| PControl (marker : bytes) (control : Z) (data : bytes)       (* 1541-1581 GpgControlPacket *)
| POther (ty : Z) (data : bytes).                              (* 85-119 Packet: types without a class *)

(** pgp/packets/packets.py:1140-1145 *)
Definition compressed_from (data : bytes) : res dpacket := do a <- get data 0;; Ok (PCompressed a (slice_from data 1)).
(** 1191-1194 *)
Definition symenc_from (data : bytes) : res dpacket := Ok (PSymEnc data).
(** 1215-1226: Packet.__init__ works, then [self.content = content] assigns to a read-only property *)
Definition marker_from (data : bytes) : res dpacket := Err AttributeError.
(** 1238-1273. [content.replace] discards its result. 116 = 't', 117 = 'u' *)
Definition literal_from (data : bytes) : res dpacket :=
  do f <- get data 0;;
  do n <- get data 1;;
  let name := utf8_decode_replace (slice data 2 (2 + n)) in
  do t <- long_to_int data (2 + n);;
  let content := slice_from data (2 + n + 4) in
  do d <- (if f =? 116 then Ok (LText (latin1_decode content))
           else if f =? 117 then do s <- utf8_decode content;; Ok (LText s)
           else Ok (LBytes content));;
  Ok (PLiteral f name (TInt t) d).
(** 1317-1329 *)
Definition trust_from (data : bytes) : res dpacket :=
  do v <- get data 0;;
  if (v =? 0) && (zlen data =? 2) then
    do c <- get data 1;;
    if negb (Z.land c 128 =? 0) then Err ValueError else Ok (PTrust v (Some c))
  else Ok (PTrust v None).
(** 1363-1366 *)
Definition userid_from (data : bytes) : res dpacket := Ok (PUserId (utf8_decode_replace data)).
(** 1404-1409 *)
Definition comment_from (ty : Z) (data : bytes) : res dpacket := do s <- utf8_decode data;; Ok (PComment ty s).
(** 1477-1482 *)
Definition seipd_from (data : bytes) : res dpacket := do v <- get data 0;; Ok (PSeipd v (slice_from data 1)).
(** 1507-1511 *)
Definition mdc_from (data : bytes) : res dpacket := if zlen data =? 20 then Ok (PMdc data) else Err AssertionError.
(** 1548-1560 *)
Definition control_from (data : bytes) : res dpacket :=
  do c <- get data 8;; Ok (PControl (slice data 0 8) c (slice_from data 9)).

(** 1584-1614 PACKET_TYPES, for the classes of this file *)
Definition data_from (ty : Z) (data : bytes) : res dpacket :=
  if ty =? 8 then compressed_from data
  else if ty =? 9 then symenc_from data
  else if ty =? 10 then marker_from data
  else if ty =? 11 then literal_from data
  else if ty =? 12 then trust_from data
  else if ty =? 13 then userid_from data
  else if ty =? 16 then comment_from 16 data
  else if ty =? 18 then seipd_from data
  else if ty =? 19 then mdc_from data
  else if ty =? 61 then comment_from 61 data
  else if ty =? 63 then control_from data
  else Ok (POther ty data).

(** the type each constructor passes to Packet.__init__ *)
Definition data_type (p : dpacket) : Z :=
  match p with
  | PCompressed _ _ => 8 | PSymEnc _ => 9 | PLiteral _ _ _ _ => 11 | PTrust _ _ => 12 | PUserId _ => 13 | PComment ty _ => ty
  | PSeipd _ _ => 18 | PMdc _ => 19 | PControl _ _ _ => 63 | POther ty _ => ty
  end.

(** pgp/packets/packets.py:1294-1311 LiteralDataPacket.content: 108 = 'l', 49 = '1', 98 = 'b'. An int has no timetuple;
    octets have no encode, text cannot extend a bytearray. *)
Definition literal_content (fmt : Z) (name : text) (time : ltime) (data : ldata) : res bytes :=
  if negb ((fmt =? 108) || (fmt =? 49) || (fmt =? 98) || (fmt =? 116) || (fmt =? 117)) then Err ValueError else
  do h <- mk_bytes [zlen name];;
  match time with
  | TInt _ => Err AttributeError
  | TDate t =>
      do c <- (if fmt =? 116 then match data with LText s => Ok (latin1_encode_replace s) | LBytes _ => Err TypeError end
               else if fmt =? 117 then match data with LText s => Ok (utf8_encode_replace s) | LBytes _ => Err TypeError end
               else match data with LBytes b => Ok b | LText _ => Err TypeError end);;
      Ok ([fmt] ++ h ++ utf8_encode_replace name ++ int_to_4byte t ++ c)
  end.
Definition data_content (p : dpacket) : res bytes :=
  match p with
  | PCompressed a d => do h <- mk_bytes [a];; Ok (h ++ d)             (* 1181-1185 *)
  | PSymEnc d => Ok d                                                 (* 1207-1209 *)
  | PLiteral f n t d => literal_content f n t d
  | PTrust v c => match c with                                        (* 1352-1357 *)
                  | None => mk_bytes [v]
                  | Some c => mk_bytes [v; c]
                  end
  | PUserId u => Ok (utf8_encode_replace u)                           (* 1382-1384 *)
  | PComment _ s => utf8_encode s                                     (* 1422-1426, 1536-1538 *)
  | PSeipd v d => do h <- mk_bytes [v];; Ok (h ++ d)                  (* 1497-1501 *)
  | PMdc d => Ok d                                                    (* 1524-1526 *)
  | PControl m c d => do h <- mk_bytes [c];; Ok (m ++ h ++ d)         (* 1576-1581 *)
  | POther _ d => Ok d                                                (* 114-116 *)
  end.
(** 1386-1394 UserIDPacket.get_content_for_signature_hash *)
Definition userid_hash_content (uid : text) (signature_version : Z) : bytes :=
  let d := utf8_encode_replace uid in
  if 4 <=? signature_version then [180] ++ int_to_4byte (zlen d) ++ d else d.
