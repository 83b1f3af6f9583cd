(** Model of the compression wrappers of pgp/utils.py:300-419, of CompressedDataPacket.compress_packets and decompress_data
    (pgp/packets/packets.py:1154-1173) and of CompressedMessageWrapper (pgp/message.py:57-59, 693-728). Definitions only.
    The objects of Python's zlib and bz2 modules are parameters; only their documented behaviour is used (SpecCompression.v). *)
From Verif Require Import Base Utils Framing KeyPackets DataPackets Packets Message.

(** zlib.compressobj(level), its compress() and flush(); zlib.decompressobj(), its decompress() and flush().
    The state is what the next call depends on. decompress() can raise zlib.error. *)
Record zlib := Zlib {
  cstate : Type; cnew : option Z -> res cstate; cfeed : cstate -> bytes -> bytes * cstate; cflush : cstate -> bytes;
  dstate : Type; dnew : dstate; dfeed : dstate -> bytes -> res (bytes * dstate); dflush : dstate -> res bytes }.
Section Wrap.
Variable z : zlib.
(** utils.py:312-318, 358-364: self._obj together with self._compress (None, True, False); self._result is None after flush.
    [w_deflate] tells DeflateCompression from ZlibCompression. What an exception leaves behind is not modelled. *)
Inductive zobj := ZNone | ZC (c : cstate z) | ZD (d : dstate z).
Record wrapper := W { w_deflate : bool; w_level : option Z; w_obj : zobj; w_result : option bytes }.
Definition new_wrapper (deflate : bool) (level : option Z) : wrapper := W deflate level ZNone (Some []).
(** utils.py:320-330 and 366-376. In ZlibCompression the data is passed on only by the call that creates the object. *)
Definition w_compress (w : wrapper) (data : bytes) : res wrapper :=
  match w_result w, w_obj w with
  | None, _ => Err ValueError
  | _, ZD _ => Err ValueError
  | Some r, ZNone => do c <- cnew z (w_level w);; let '(out, c') := cfeed z c data in Ok (W (w_deflate w) (w_level w) (ZC c') (Some (r ++ out)))
  | Some r, ZC c =>
      if w_deflate w then let '(out, c') := cfeed z c data in Ok (W true (w_level w) (ZC c') (Some (r ++ out)))
      else Ok w
  end.
(** utils.py:332-342 and 378-390. DeflateCompression first feeds the header 0x78 0x9c and drops what that gives. *)
Definition w_decompress (w : wrapper) (data : bytes) : res wrapper :=
  match w_result w, w_obj w with
  | None, _ => Err ValueError
  | _, ZC _ => Err ValueError
  | Some r, o =>
      do d <- (match o with
               | ZD d => Ok d
               | _ => if w_deflate w then do (_, d) <- dfeed z (dnew z) [120; 156];; Ok d else Ok (dnew z)
               end);;
      do (out, d') <- dfeed z d data;;
      Ok (W (w_deflate w) (w_level w) (ZD d') (Some (r ++ out)))
  end.
(** utils.py:344-351 and 392-402: the last octets; [2:-4] of a compressed deflate stream *)
Definition w_flush (w : wrapper) : res bytes :=
  match w_result w with
  | None => Err ValueError
  | Some r =>
      match w_obj w with
      | ZNone => Err AttributeError
      | ZC c => let out := r ++ cflush z c in Ok (if w_deflate w then slice out 2 (-4) else out)
      | ZD d => do f <- dflush z d;; Ok (r ++ f)
      end
  end.
(** a sequence of calls on one wrapper *)
Fixpoint feed (f : wrapper -> bytes -> res wrapper) (w : wrapper) (pieces : list bytes) : res wrapper :=
  match pieces with
  | [] => Ok w
  | p :: t => do w' <- f w p;; feed f w' t
  end.

(** bz2.BZ2Compressor(level).compress(data) + flush(); the constructor refuses None *)
Variable bz2 : Z -> bytes -> res bytes.
(** utils.py:405-419 get_compression_instance and packets.py:1154-1160 compress_packets; None has no compress *)
Definition compress_octets (alg : Z) (level : option Z) (data : bytes) : res bytes :=
  if alg =? 0 then Ok data
  else if (alg =? 1) || (alg =? 2) then do w <- w_compress (new_wrapper (alg =? 1) level) data;; w_flush w
  else if alg =? 3 then match level with Some l => bz2 l data | None => Err TypeError end
  else Err AttributeError.
Definition compress_packets (fl : Z -> Z) (rec : seckey -> res bytes) (alg : Z) (level : option Z) (ps : list pkt) : res bytes :=
  do encs <- mapM (pkt_bytes fl rec) ps;; compress_octets alg level (concat encs).
(** packets.py:1162-1173 decompress_data: level is None, so BZ2Compressor(None) is a TypeError *)
Definition decompress_octets (alg : Z) (data : bytes) : res bytes :=
  if alg =? 0 then Ok data
  else if (alg =? 1) || (alg =? 2) then do w <- w_decompress (new_wrapper (alg =? 1) None) data;; w_flush w
  else if alg =? 3 then Err TypeError
  else Err AttributeError.
Definition decompress_data (alg : Z) (data : bytes) : res (list pkt) :=
  do d <- decompress_octets alg data;;
  match parse_binary_packet_data pkt_dec d with
  | (ps, None) => Ok ps
  | (_, Some e) => Err e
  end.
(** message.py:57-59, 716-719: message.compress(algorithm, level) *)
Definition message_compress (fl : Z -> Z) (rec : seckey -> res bytes) (alg : Z) (level : option Z) (m : message) : res message :=
  do ps <- to_packets None m;; do d <- compress_packets fl rec alg level ps;; Ok (MCompressed alg d).
(** message.py:711-714 CompressedMessageWrapper.get_message *)
Definition compressed_get_message (m : message) : res message :=
  match m with
  | MCompressed alg d => do ps <- decompress_data alg d;; open_message ps
  | _ => Err AttributeError
  end.
End Wrap.
