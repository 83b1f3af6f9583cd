(** Model of pgp/s2k.py and of the algorithm tables of pgp/utils.py it uses. Definitions only.
    [H alg data] stands for the digest of [data] under hash algorithm [alg] (PyCrypto); successive
    [update] calls hash the concatenation. *)
From Verif Require Import Base Utils.

(** pgp/utils.py:52-60 hash_lengths.get *)
Definition hash_lengths (a : Z) : option Z :=
  if a =? 1 then Some 16 else if a =? 2 then Some 20 else if a =? 3 then Some 20 else
  if a =? 8 then Some 32 else if a =? 9 then Some 48 else if a =? 10 then Some 64 else
  if a =? 11 then Some 28 else None.
(** pgp/utils.py:63-76 symmetric_cipher_block_lengths.get *)
Definition symmetric_cipher_block_lengths (a : Z) : option Z :=
  if a =? 0 then Some 0 else
  if (1 <=? a) && (a <=? 4) then Some 8 else
  if (7 <=? a) && (a <=? 13) then Some 16 else None.
(** pgp/utils.py:79-92 symmetric_cipher_key_lengths.get *)
Definition symmetric_cipher_key_lengths (a : Z) : option Z :=
  if a =? 0 then Some 0 else if a =? 1 then Some 16 else if a =? 2 then Some 24 else
  if a =? 3 then Some 16 else if a =? 4 then Some 16 else if a =? 7 then Some 16 else
  if a =? 8 then Some 24 else if a =? 9 then Some 32 else if a =? 10 then Some 16 else
  if a =? 11 then Some 16 else if a =? 12 then Some 24 else if a =? 13 then Some 32 else None.

(** pgp/s2k.py:21-25, 95-98, 115-117, 174-179: the specifier objects. *)
Inductive s2k :=
| SimpleS2K (hash sym : Z)
| SaltedS2K (hash sym : Z) (salt : bytes)
| IteratedS2K (hash sym : Z) (salt : bytes) (count : Z)
| GnuPGS2K (hash mode sym : Z) (serial : option (list Z)) (serial_len : option Z).

(** attributes of the base class *)
Definition s2k_hash (s : s2k) : Z :=
  match s with SimpleS2K h _ => h | SaltedS2K h _ _ => h | IteratedS2K h _ _ _ => h | GnuPGS2K h _ _ _ _ => h end.
Definition s2k_sym (s : s2k) : Z :=
  match s with SimpleS2K _ a => a | SaltedS2K _ a _ => a | IteratedS2K _ a _ _ => a | GnuPGS2K _ _ a _ _ => a end.
Definition s2k_salt (s : s2k) : bytes :=
  match s with SimpleS2K _ _ => [] | SaltedS2K _ _ s => s | IteratedS2K _ _ s _ => s | GnuPGS2K _ _ _ _ _ => [] end.
Definition s2k_count (s : s2k) : option Z :=
  match s with IteratedS2K _ _ _ c => Some c | _ => None end.

(** pgp/s2k.py:36-40 SimpleS2K.__bytes__ (inherited by SaltedS2K), 119-122 IteratedAndSaltedS2K.__bytes__,
    193-203 GnuPGS2K.__bytes__: a list plus a bytes object raises TypeError before anything else. *)
Definition s2k_bytes (fl : Z -> Z) (s : s2k) : res bytes :=
  match s with
  | SimpleS2K h _ => do p <- mk_bytes [0; h];; Ok p
  | SaltedS2K h _ salt => do p <- mk_bytes [1; h];; Ok (p ++ salt)
  | IteratedS2K h _ salt c => do p <- mk_bytes [3; h];; do cb <- int_to_s2k_count fl c;; Ok ((p ++ salt) ++ cb)
  | GnuPGS2K _ _ _ _ _ => Err TypeError
  end.

(** pgp/s2k.py:69-71: the data hashed in one pass. range(ceil(count / float(len2))) is exact here. *)
Fixpoint s2k_writes (n : nat) (i : Z) (count len2 : Z) (sp : bytes) : bytes :=
  match n with
  | O => []
  | S n' => slice sp 0 (Z.min len2 (count - len2 * i)) ++ s2k_writes n' (i + 1) count len2 sp
  end.
Definition s2k_pass_data (salt passphrase : bytes) (count : option Z) (pass_ : Z) : bytes :=
  let len2 := zlen passphrase + 8 in
  let count := match count with Some c => c | None => len2 end in
  repeat 0 (Z.to_nat pass_) ++
  s2k_writes (Z.to_nat ((count + len2 - 1) / len2)) 0 count len2 (salt ++ passphrase).
(** pgp/s2k.py:55-77 *)
Fixpoint s2k_loop (fuel : nat) (H : bytes -> bytes) (data : Z -> bytes) (hash_length required pass_ : Z) (result : bytes) : res bytes :=
  match fuel with
  | O => Err OutOfFuel
  | S f => if pass_ * hash_length <? required
           then s2k_loop f H data hash_length required (pass_ + 1) (result ++ H (data pass_))
           else Ok result
  end.
(** pgp/s2k.py:42-80 to_key; 189-191 for GnuPGS2K returns None (modelled as [Ok None]).
    Comparing with or multiplying by None is a TypeError. *)
Definition to_key (H : Z -> bytes -> bytes) (s : s2k) (passphrase : bytes) : res (option bytes) :=
  match s with
  | GnuPGS2K _ _ _ _ _ => Ok None
  | _ =>
      match hash_lengths (s2k_hash s), symmetric_cipher_key_lengths (s2k_sym s) with
      | Some hash_length, Some required_length =>
          do result <- s2k_loop (S (Z.to_nat required_length)) (H (s2k_hash s))
                         (s2k_pass_data (s2k_salt s) passphrase (s2k_count s)) hash_length required_length 0 [];;
          Ok (Some (slice result 0 required_length))
      | _, _ => Err TypeError
      end
  end.

(** pgp/s2k.py:16-19, 87-93, 105-113, 127-172 from_bytes *)
Definition gnupg_from_bytes (sym : Z) (data : bytes) (offset : Z) : res (s2k * Z) :=
  do h <- get data offset;;
  let gnu := slice data (offset + 1) (offset + 4) in
  if negb (zlist_eqb gnu [71; 78; 85]) then Err ValueError else
  do m <- get data (offset + 4);;
  let mode := m + 1000 in
  let offset := offset + 5 in
  if mode =? 1001 then Ok (GnuPGS2K h mode sym None None, offset)
  else if mode =? 1002 then
    do serial_len <- get data offset;;
    do serial <- bytearray_to_hex data (offset + 1) (Some serial_len);;
    Ok (GnuPGS2K h mode sym (Some serial) (Some serial_len), offset + 1 + serial_len)
  else Err ValueError.
(** pgp/s2k.py:206-222 parse_s2k_bytes *)
Definition parse_s2k_bytes (sym : Z) (data : bytes) (offset : Z) : res (s2k * Z) :=
  do t <- get data offset;;
  let offset := offset + 1 in
  if t =? 0 then do h <- get data offset;; Ok (SimpleS2K h sym, offset + 1)
  else if t =? 1 then
    do h <- get data offset;; Ok (SaltedS2K h sym (slice data (offset + 1) (offset + 9)), offset + 9)
  else if t =? 3 then
    do h <- get data offset;;
    do c <- get data (offset + 9);;
    Ok (IteratedS2K h sym (slice data (offset + 1) (offset + 9)) (s2k_count_to_int c), offset + 10)
  else if t =? 101 then gnupg_from_bytes sym data offset
  else Err ValueError.
