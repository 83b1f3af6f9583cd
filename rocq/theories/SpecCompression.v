(** RFC 1950 streams, and the documented behaviour of zlib's objects. *)
From Verif Require Import Base Spec Utils Compression.

(** RFC 1950 9: Adler-32 of the data, most significant octet first *)
Definition adler_step (st : Z * Z) (b : Z) : Z * Z := let s1 := (fst st + b) mod 65521 in (s1, (snd st + s1) mod 65521).
Definition adler32 (d : bytes) : Z := let '(s1, s2) := fold_left adler_step d (1, 0) in s2 * 65536 + s1.
(** RFC 1950 2.2: method 8 with a 32K window, no preset dictionary, check bits *)
Definition zlib_header (h : bytes) : Prop := exists flg, h = [120; flg] /\ (120 * 256 + flg) mod 31 = 0 /\ Z.testbit flg 5 = false.
(** [inflate raw]: the data that a complete stream of RFC 1951 stands for *)
Definition zlib_stream (inflate : bytes -> option bytes) (s data : bytes) : Prop :=
  exists h raw, zlib_header h /\ inflate raw = Some data /\ s = h ++ raw ++ be_bytes 4 (adler32 data).

(** everything an object puts out when given the pieces one after another *)
Fixpoint c_out (z : zlib) (c : cstate z) (pieces : list bytes) : bytes :=
  match pieces with
  | [] => cflush z c
  | p :: t => let '(out, c') := cfeed z c p in out ++ c_out z c' t
  end.
Fixpoint d_out (z : zlib) (d : dstate z) (pieces : list bytes) : res bytes :=
  match pieces with
  | [] => dflush z d
  | p :: t => do (out, d') <- dfeed z d p;; do r <- d_out z d' t;; Ok (out ++ r)
  end.
(** A compressobj turns the pieces into one RFC 1950 stream of all of them; a decompressobj given such a stream in any pieces
    gives the data, and so it does when the check value at the end is missing. After the two octets of the header it has put
    out nothing yet. *)
Record zlib_ok (inflate : bytes -> option bytes) (z : zlib) : Prop := {
  compressor_ok : forall level c pieces, cnew z level = Ok c -> zlib_stream inflate (c_out z c pieces) (concat pieces);
  decompressor_ok : forall h raw data check pieces, zlib_header h -> inflate raw = Some data -> (check = [] \/ check = be_bytes 4 (adler32 data)) ->
    concat pieces = h ++ raw ++ check -> d_out z (dnew z) pieces = Ok data;
  header_silent : forall h out d, zlib_header h -> dfeed z (dnew z) h = Ok (out, d) -> out = [] }.

(** A library of this kind for the demonstrations: stored blocks of one octet each (RFC 1951 3.2.4). *)
Definition stored (d : bytes) : bytes := flat_map (fun b => [0; 1; 0; 254; 255; b]) d ++ [1; 0; 0; 255; 255].
(** reader of stored blocks, which also returns what follows the last block *)
Fixpoint unstored (s : bytes) : option (bytes * bytes) :=
  match s with
  | 0 :: 1 :: 0 :: 254 :: 255 :: b :: t => match unstored t with Some (d, r) => Some (b :: d, r) | None => None end
  | 1 :: 0 :: 0 :: 255 :: 255 :: t => Some ([], t)
  | _ => None
  end.
Definition demo_inflate (s : bytes) : option bytes := match unstored s with Some (d, []) => Some d | _ => None end.
Definition demo_zlib : zlib := {|
  cstate := bytes; cnew := fun l => match l with Some v => if (-1 <=? v) && (v <=? 9) then Ok [] else Err ValueError | None => Err TypeError end;
  cfeed := fun c p => ([], c ++ p); cflush := fun c => [120; 1] ++ stored c ++ be_bytes 4 (adler32 c);
  dstate := bytes; dnew := []; dfeed := fun d p => Ok ([], d ++ p);
  dflush := fun d => match unstored (slice_from d 2) with Some (x, _) => Ok x | None => Err ValueError end |}.
