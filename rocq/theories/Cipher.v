(** Model of pgp/cipher/base.py (_InternalObj: the chaining modes around a block cipher).
    The block cipher itself is a pair of functions [E], [D] on octet strings (self._encrypt / self._decrypt);
    the counter callable of CTR mode is the sequence [ctr k] of what its k-th call returns. Definitions only.
    Simplification: the per-octet index loops that fill [result] in order are written as slices and xor of
    octet lists, and [result] is accumulated from the left. *)
From Verif Require Import Base.

(** pgp/cipher/base.py:339-354 *)
Definition MODE_ECB := 1.
Definition MODE_CBC := 2.
Definition MODE_CFB := 3.
Definition MODE_PGP := 4.
Definition MODE_OFB := 5.
Definition MODE_CTR := 6.
Definition MODE_OPENPGP := 7.

(** a[j] ^ b[j] for j below both lengths *)
Fixpoint xor_bytes (a b : bytes) : bytes :=
  match a, b with
  | x :: a', y :: b' => Z.lxor x y :: xor_bytes a' b'
  | _, _ => []
  end.

(** the instance attributes that matter (pgp/cipher/base.py:35-43); IV None is the empty list *)
Record cobj := CObj { c_bs : Z; c_mode : Z; c_seg : Z; c_IV : bytes; c_count : Z; c_old : bytes; c_calls : nat }.
Definition set_IV (o : cobj) (iv : bytes) := CObj (c_bs o) (c_mode o) (c_seg o) iv (c_count o) (c_old o) (c_calls o).
Definition set_old (o : cobj) (old : bytes) := CObj (c_bs o) (c_mode o) (c_seg o) (c_IV o) (c_count o) old (c_calls o).
Definition set_count (o : cobj) (n : Z) := CObj (c_bs o) (c_mode o) (c_seg o) (c_IV o) n (c_old o) (c_calls o).
Definition set_calls (o : cobj) (n : nat) := CObj (c_bs o) (c_mode o) (c_seg o) (c_IV o) (c_count o) (c_old o) n.

(** pgp/cipher/base.py:54-113 new. [key_sizes] and [bs] are class attributes; [IV = None] is None;
    [has_counter] tells whether a (callable) counter was given. A key-size error is a ValueError like the others. *)
Definition cipher_new (bs : Z) (key_sizes : list Z) (key : bytes) (mode : Z) (IV : option bytes)
    (has_counter : bool) (segment_size : Z) : res cobj :=
  let iv_truthy := match IV with Some (_ :: _) => true | _ => false end in
  let iv_bad := match IV with None => true | Some v => negb (zlen v =? bs) end in
  if (mode <? MODE_ECB) || (MODE_CTR <? mode) then Err ValueError else
  if mode =? MODE_PGP then Err ValueError else
  if negb (existsb (Z.eqb (zlen key)) key_sizes) then Err ValueError else
  if (mode =? MODE_CTR) && iv_truthy then Err ValueError else
  if iv_bad && negb ((mode =? MODE_ECB) || (mode =? MODE_CTR)) then Err ValueError else
  let segment_size := if (mode =? MODE_CFB) && (segment_size =? 0) then 8 else segment_size in
  if (mode =? MODE_CFB) && ((segment_size <? 1) || (bs * 8 <? segment_size) || negb (Z.land segment_size 7 =? 0))
  then Err ValueError else
  if (mode =? MODE_CTR) && negb has_counter then Err TypeError else
  if negb (mode =? MODE_CTR) && has_counter then Err ValueError else
  Ok (CObj bs mode segment_size (match IV with Some v => v | None => [] end) bs (repeat 0 (Z.to_nat bs)) 0).

Section Modes.
Variables (E D : bytes -> bytes) (ctr : nat -> bytes).

(** pgp/cipher/base.py:132-137, 273-279: ECB with the block function [f] *)
Fixpoint ecb_loop (fuel : nat) (f : bytes -> bytes) (bs : Z) (src : bytes) (i : Z) (acc : bytes) : res bytes :=
  if i <? zlen src then
    match fuel with
    | O => Err OutOfFuel
    | S n => ecb_loop n f bs src (i + bs) (acc ++ f (slice src i (i + bs)))
    end
  else Ok acc.

(** pgp/cipher/base.py:138-146 *)
Fixpoint cbc_enc_loop (fuel : nat) (bs : Z) (src : bytes) (i : Z) (IV acc : bytes) : res (bytes * bytes) :=
  if i <? zlen src then
    match fuel with
    | O => Err OutOfFuel
    | S n => let block := E (xor_bytes (slice src i (i + bs)) IV) in
             cbc_enc_loop n bs src (i + bs) block (acc ++ block)
    end
  else Ok (acc, IV).
(** pgp/cipher/base.py:280-289 *)
Fixpoint cbc_dec_loop (fuel : nat) (bs : Z) (src : bytes) (i : Z) (IV old acc : bytes) : res (bytes * bytes * bytes) :=
  if i <? zlen src then
    match fuel with
    | O => Err OutOfFuel
    | S n => let c := slice src i (i + bs) in
             cbc_dec_loop n bs src (i + bs) c IV (acc ++ xor_bytes (D c) IV)
    end
  else Ok (acc, IV, old).

(** pgp/cipher/base.py:147-168 (encrypt) and 290-314 (decrypt): [enc] selects which side feeds the register *)
Fixpoint cfb_loop (fuel : nat) (enc : bool) (bs seg : Z) (src : bytes) (i : Z) (IV acc : bytes) : res (bytes * bytes) :=
  if i <? zlen src then
    match fuel with
    | O => Err OutOfFuel
    | S n =>
        let size := seg / 8 in
        let temp := E IV in
        let inp := slice src i (i + size) in
        let out := xor_bytes (slice temp 0 size) inp in
        let c := if enc then out else inp in
        if seg =? bs * 8 then cfb_loop n enc bs seg src (i + size) c (acc ++ out)
        else if seg mod 8 =? 0 then
          let IV := slice_from IV size ++ c in
          if zlen IV =? bs then cfb_loop n enc bs seg src (i + size) IV (acc ++ out) else Err AssertionError
        else Err ValueError
    end
  else Ok (acc, IV).

(** pgp/cipher/base.py:169-201 *)
Fixpoint ofb_loop (fuel : nat) (bs : Z) (src : bytes) (i : Z) (IV : bytes) (count : Z) (acc : bytes) : res (bytes * bytes * Z) :=
  if i <? zlen src then
    match fuel with
    | O => Err OutOfFuel
    | S n =>
        let rest := zlen src - i in
        if rest <=? bs - count then
          ofb_loop n bs src (zlen src) IV (count + rest)
            (acc ++ xor_bytes (slice IV count (count + rest)) (slice src i (i + rest)))
        else
          let out := xor_bytes (slice IV count bs) (slice src i (i + (bs - count))) in
          ofb_loop n bs src (i + (bs - count)) (E IV) 0 (acc ++ out)
    end
  else Ok (acc, IV, count).

(** pgp/cipher/base.py:202-246: the keystream block is overwritten in place by the output. A counter value of
    the wrong length is a TypeError (a counter value that is not a byte string is not modelled). *)
Definition overwrite (IV : bytes) (at_ : Z) (out : bytes) : bytes :=
  slice IV 0 at_ ++ out ++ slice_from IV (at_ + zlen out).
Fixpoint ctr_loop (fuel : nat) (bs : Z) (src : bytes) (i : Z) (IV : bytes) (count : Z) (calls : nat) (acc : bytes)
  : res (bytes * bytes * Z * nat) :=
  if i <? zlen src then
    match fuel with
    | O => Err OutOfFuel
    | S n =>
        let rest := zlen src - i in
        if rest <=? bs - count then
          let out := xor_bytes (slice IV count (count + rest)) (slice src i (i + rest)) in
          ctr_loop n bs src (zlen src) (overwrite IV count out) (count + rest) calls (acc ++ out)
        else
          let out := xor_bytes (slice IV count bs) (slice src i (i + (bs - count))) in
          if negb (zlen (ctr calls) =? bs) then Err TypeError
          else ctr_loop n bs src (i + (bs - count)) (E (ctr calls)) 0 (S calls) (acc ++ out)
    end
  else Ok (acc, IV, count, calls).

Definition loop_fuel (src : bytes) : nat := (2 * length src + 2)%nat.

(** pgp/cipher/base.py:115-251 encrypt. Returns the output and the updated object. *)
Definition cipher_encrypt (o : cobj) (plaintext : bytes) : res (bytes * cobj) :=
  let bs := c_bs o in
  let length := zlen plaintext in
  let fuel := loop_fuel plaintext in
  if negb (length mod bs =? 0) && negb ((c_mode o =? MODE_CFB) || (c_mode o =? MODE_OFB) || (c_mode o =? MODE_CTR))
  then Err ValueError else
  if (c_mode o =? MODE_CFB) && negb (length mod (c_seg o / 8) =? 0) then Err ValueError else
  if c_mode o =? MODE_ECB then
    do r <- ecb_loop fuel E bs plaintext 0 [];; Ok (r, o)
  else if c_mode o =? MODE_CBC then
    do (r, iv) <- cbc_enc_loop fuel bs plaintext 0 (c_IV o) [];; Ok (r, set_IV o iv)
  else if c_mode o =? MODE_CFB then
    do (r, iv) <- cfb_loop fuel true bs (c_seg o) plaintext 0 (c_IV o) [];;
    Ok (r, set_count (set_IV o iv) (Z.abs (c_count o - length mod bs)))
  else if c_mode o =? MODE_OFB then
    do (r, iv, count) <- ofb_loop fuel bs plaintext 0 (c_IV o) (c_count o) [];;
    Ok (r, set_count (set_IV o iv) count)
  else if c_mode o =? MODE_CTR then
    do (r, iv, count, calls) <- ctr_loop fuel bs plaintext 0 (c_IV o) (c_count o) (c_calls o) [];;
    Ok (r, set_calls (set_count (set_IV o iv) count) calls)
  else Err RuntimeError.

(** pgp/cipher/base.py:253-323 decrypt *)
Definition cipher_decrypt (o : cobj) (ciphertext : bytes) : res (bytes * cobj) :=
  let bs := c_bs o in
  let length := zlen ciphertext in
  let fuel := loop_fuel ciphertext in
  if (c_mode o =? MODE_CTR) || (c_mode o =? MODE_OFB) then cipher_encrypt o ciphertext else
  if negb (length mod bs =? 0) && negb (c_mode o =? MODE_CFB) then Err ValueError else
  if (c_mode o =? MODE_CFB) && negb (length mod (c_seg o / 8) =? 0) then Err ValueError else
  if c_mode o =? MODE_ECB then
    do r <- ecb_loop fuel D bs ciphertext 0 [];; Ok (r, o)
  else if c_mode o =? MODE_CBC then
    do (r, iv, old) <- cbc_dec_loop fuel bs ciphertext 0 (c_IV o) (c_old o) [];; Ok (r, set_old (set_IV o iv) old)
  else if c_mode o =? MODE_CFB then
    do (r, iv) <- cfb_loop fuel false bs (c_seg o) ciphertext 0 (c_IV o) [];;
    Ok (r, set_count (set_IV o iv) (Z.abs (c_count o - length mod bs)))
  else Err RuntimeError.

(** pgp/cipher/base.py:325-336 sync *)
Definition cipher_sync (o : cobj) : res cobj :=
  if c_mode o =? MODE_CFB then
    let unused := c_bs o - c_count o in
    if unused =? 0 then Ok o else
    let IV := slice (c_IV o) 0 unused ++ slice (c_IV o) 0 (c_bs o - unused) in       (* IV[unused:] = IV[:bs-unused] *)
    let IV := slice_from (c_old o) (c_bs o - unused) ++ slice_from IV unused in      (* IV[:unused] = old[bs-unused:] *)
    if zlen IV =? c_bs o then Ok (set_IV o IV) else Err AssertionError
  else Ok o.

(** a sequence of calls on one object *)
Fixpoint encrypt_calls (o : cobj) (chunks : list bytes) : res (list bytes * cobj) :=
  match chunks with
  | [] => Ok ([], o)
  | c :: t => do (r, o) <- cipher_encrypt o c;; do (rs, o) <- encrypt_calls o t;; Ok (r :: rs, o)
  end.
Fixpoint decrypt_calls (o : cobj) (chunks : list bytes) : res (list bytes * cobj) :=
  match chunks with
  | [] => Ok ([], o)
  | c :: t => do (r, o) <- cipher_decrypt o c;; do (rs, o) <- decrypt_calls o t;; Ok (r :: rs, o)
  end.
End Modes.
