(** Model of pgp/parse.py:429-446 (skip_to_next_key), 621-694 (validate_transferrable_public_key), 697-740 (parse) and of
    pgp/utils.py:811-843 (compare_packets, sort_key, concat_key, hash_key_data). Definitions only. *)
From Verif Require Import Base Utils TransKey.

(** The attributes read of a pgpdump packet: raw (the type), sig_type (signatures), pubkey_version (public keys) and data. *)
Record dpkt := Dpkt { d_raw : Z; d_sig : Z; d_version : Z; d_data : bytes }.
(** parse.py: for t in type_order[:i]: if t not in (...) raise *)
Definition only_raw (l : list Z) (pre : list dpkt) : bool := forallb (fun p => is_one (d_raw p) l) pre.
(** parse.py:630-694 for packet i: [pre] are the packets before it (none only for the first), [next] the one after it. previous and
    packets[i - 1] are the last of [pre]; previous_non_sig the last that is no signature. *)
Definition dump_step (version : Z) (pre : list dpkt) (x : dpkt) (next : option dpkt) : res unit :=
  let this := d_raw x in
  if this =? 6 then check (zlen pre =? 0) InvalidKeyPacketOrder
  else if this =? 2 then
    match rev pre, filter (fun p => negb (d_raw p =? 2)) (rev pre) with
    | y :: _, q :: _ =>
        let t := d_sig x in
        if t =? 31 then check (only_raw [6; 2] pre) InvalidKeyPacketOrder
        else if t =? 24 then check (d_raw y =? 14) InvalidKeyPacketOrder
        else if t =? 32 then check (only_raw [6; 2] pre) InvalidKeyPacketOrder
        else if t =? 40 then check ((d_raw y =? 2) && (d_sig y =? 24)) InvalidKeyPacketOrder
        else if is_one t [16; 17; 18; 19] then check (is_one (d_raw q) [13; 17]) InvalidKeyPacketOrder
        else Err InvalidKeyPacketType
    | _, _ => Err IndexError
    end
  else if this =? 13 then check (only_raw [6; 2; 13] pre) InvalidKeyPacketOrder
  else if this =? 17 then check (only_raw [6; 2; 13; 17] pre) InvalidKeyPacketOrder
  else if this =? 14 then
    if version <? 4 then Err InvalidKeyPacketType
    else match next with
         | None => Err IndexError
         | Some n => check ((d_raw n =? 2) && (d_sig n =? 24)) InvalidKeyPacketOrder
         end
  else Err InvalidKeyPacketType.
Fixpoint dump_validate_from (version : Z) (pre rest : list dpkt) : res unit :=
  match rest with
  | [] => Ok tt
  | x :: t => do _ <- dump_step version pre x (hd_error t);; dump_validate_from version (pre ++ [x]) t
  end.
(** parse.py:621-694 validate_transferrable_public_key *)
Definition dump_validate (l : list dpkt) : res unit :=
  match l with
  | [] => Err IndexError
  | k :: _ => if negb (d_raw k =? 6) then Err InvalidKeyPacketOrder else dump_validate_from (d_version k) [] l
  end.

(** ** the stream. An iterator over packets: each next() gives a packet or raises an exception other than StopIteration; at the
    end of the list StopIteration. (A generator that has raised is at its end: nothing follows a [Bad].) *)
Inductive event := Pk (p : dpkt) | Bad (e : exn).
(** parse.py:429-446 skip_to_next_key: the packet, the number reported as skipped, and what is left of the stream. [cur] is the packet
    last read, [n] is skipped. *)
Fixpoint skip (cur : option dpkt) (n : Z) (evs : list event) : option dpkt * Z * list event :=
  match cur with
  | Some p => if d_raw p =? 6 then (Some p, n, evs) else
      match evs with
      | [] => (None, n, [])
      | Bad _ :: t => let '(q, m, r) := skip None 1 t in (q, n + m + 1, r)
      | Pk q :: t => skip (Some q) (n + 1) t
      end
  | None =>
      match evs with
      | [] => (None, n, [])
      | Bad _ :: t => let '(q, m, r) := skip None 1 t in (q, n + m + 1, r)
      | Pk q :: t => skip (Some q) n t
      end
  end.
Definition skip_to_next_key (evs : list event) : option dpkt * Z * list event := skip None 1 evs.

Section Stream.
Context {K : Type}.
(** the arguments parse_key_packets and validate_transferrable_public_key *)
Variables (parse_key : list dpkt -> res K) (validate : list dpkt -> res unit).
(** parse.py:732-733 and 739-740: the key that is yielded *)
Definition finish (l : list dpkt) : res K := do _ <- validate l;; parse_key l.
(** parse.py:710-740: the keys yielded, and the exception that ends the generator, if any. [kp] is key_packets, [packet] the variable of
    that name; the fuel bounds the number of events. When skip_to_next_key finds nothing, next(packets) raises StopIteration again
    and nothing more is yielded. *)
Fixpoint parse_stream (fuel : nat) (kp : list dpkt) (packet : dpkt) (evs : list event) : list K * option exn :=
  match fuel with
  | O => ([], Some OutOfFuel)
  | S f =>
      match evs with
      | [] => match finish (kp ++ [packet]) with Ok k => ([k], None) | Err e => ([], Some e) end
      | Bad _ :: t => match skip_to_next_key t with
                      | (None, _, _) => ([], None)
                      | (Some p, _, r) => parse_stream f [p] p r
                      end
      | Pk q :: t =>
          if d_raw q =? 6 then
            match finish (kp ++ [packet]) with
            | Ok k => let '(ks, e) := parse_stream f [] q t in (k :: ks, e)
            | Err e => ([], Some e)
            end
          else parse_stream f (kp ++ [packet]) q t
      end
  end.
(** parse.py:697-707. The first next() is outside the try; its StopIteration ends the generator (up to Python 3.6; RuntimeError later). *)
Definition parse (evs : list event) : list K * option exn :=
  match evs with
  | [] => ([], None)
  | Bad e :: _ => ([], Some e)
  | Pk p :: t => parse_stream (S (length t)) [] p t
  end.
End Stream.

(** ** utils.py:811-843 *)
(** utils.py:823-835 concat_key. bytearray.append of a type above 255 is a ValueError. *)
Fixpoint concat_key (l : list dpkt) : res bytes :=
  match l with
  | [] => Ok []
  | p :: t =>
      let n := zlen (d_data p) in
      do r <- mk_bytes [d_raw p];;
      do rest <- concat_key t;;
      Ok (r ++ [Z.land (Z.shiftr n 24) 255; Z.land (Z.shiftr n 16) 255; Z.land (Z.shiftr n 8) 255; Z.land n 255] ++ d_data p ++ rest)
  end.
(** utils.py:811-815 compare_packets: octet strings compare lexicographically *)
Fixpoint lex (a b : bytes) : Z :=
  match a, b with
  | [], [] => 0
  | [], _ => -1
  | _, [] => 1
  | x :: a, y :: b => if x <? y then -1 else if y <? x then 1 else lex a b
  end.
Definition compare_packets (p q : dpkt) : Z := if d_raw q <? d_raw p then 1 else if d_raw p <? d_raw q then -1 else lex (d_data p) (d_data q).
(** utils.py:818-820 sort_key: Python 3's sorted has no argument cmp; 839-843 hash_key_data *)
Definition sort_key (l : list dpkt) : res (list dpkt) := Err TypeError.
Definition hash_key_data (md5 : bytes -> bytes) (l : list dpkt) : res bytes :=
  do s <- sort_key l;;
  do d <- concat_key s;;
  match d with [] => Err TypeError | _ => Err TypeError end.
(** parse.py:516-618 parse_key with its default arguments begins with hash_key_data; the rest is not modelled *)
Definition parse_key_default {K : Type} (md5 : bytes -> bytes) (rest : bytes -> list dpkt -> res K) (l : list dpkt) : res K :=
  do h <- hash_key_data md5 l;; rest h l.
