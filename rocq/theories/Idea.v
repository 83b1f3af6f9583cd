(** Model of pgp/cipher/aidea.py (the "Alleged IDEA" block cipher). Definitions only. *)
From Verif Require Import Base.

(** pgp/cipher/aidea.py:28-36 mul. The result may be negative; callers mask it. *)
Definition mul (x y : Z) : Z :=
  let x := Z.land (x - 1) 65535 in
  let t16 := Z.land (y - 1) 65535 in
  let t32 := x * t16 + x + t16 in
  let x := Z.land t32 65535 in
  let t16 := Z.shiftr t32 16 in
  x - t16 + (if x <? t16 then 1 else 0) + 1.

(** pgp/cipher/aidea.py:48-56: the loop of mul_inv; division by zero is ZeroDivisionError *)
Fixpoint mul_inv_loop (fuel : nat) (x y t0 t1 : Z) : res Z :=
  match fuel with
  | O => Err OutOfFuel
  | S n =>
      if y =? 1 then Ok (Z.land (1 - t1) 65535) else
      if y =? 0 then Err ZeroDivisionError else
      let q := x / y in
      let x := x mod y in
      let t0 := Z.land (t0 + q * t1) 65535 in
      if x =? 1 then Ok t0 else
      if x =? 0 then Err ZeroDivisionError else
      let q := y / x in
      let y := y mod x in
      let t1 := Z.land (t1 + q * t0) 65535 in
      mul_inv_loop n x y t0 t1
  end.
(** pgp/cipher/aidea.py:39-58 mul_inv *)
Definition mul_inv (x : Z) : res Z :=
  let x := Z.land x 65535 in
  if x <=? 1 then Ok x else
  mul_inv_loop 17 x (Z.land (65537 mod x) 65535) 1 (65537 / x).

(** pgp/cipher/aidea.py:100-107 _bytes_to_shorts: an odd length is an IndexError *)
Fixpoint bytes_to_shorts (l : bytes) : res (list Z) :=
  match l with
  | [] => Ok []
  | [_] => Err IndexError
  | a :: b :: t => do r <- bytes_to_shorts t;; Ok (Z.shiftl a 8 + b :: r)
  end.
(** pgp/cipher/aidea.py:109-114 _shorts_to_bytes *)
Fixpoint shorts_to_bytes (l : list Z) : res bytes :=
  match l with
  | [] => Ok []
  | s :: t => do p <- mk_bytes [Z.shiftr s 8; Z.land s 255];; do r <- shorts_to_bytes t;; Ok (p ++ r)
  end.

(** pgp/cipher/aidea.py:63-71 _generate_enc_keys: entries below 8 come from the key, entry i from two earlier ones.
    The table is built by appending (entries not yet computed are zero in Python and never read). *)
Definition enc_key_step (table : list Z) (i : Z) : res (list Z) :=
  let x := if 0 <? (i + 1) mod 8 then i - 7 else i - 15 in
  let y := if (i + 2) mod 8 <? 2 then i - 14 else i - 6 in
  do a <- get table x;; do b <- get table y;;
  Ok (table ++ [Z.land (Z.lor (Z.shiftl a 9) (Z.shiftr b 7)) 65535]).
Fixpoint foldM {A B} (f : A -> B -> res A) (a : A) (l : list B) : res A :=
  match l with [] => Ok a | b :: t => do a <- f a b;; foldM f a t end.
Definition generate_enc_keys (key : bytes) : res (list Z) :=
  do shorts <- bytes_to_shorts key;;
  foldM enc_key_step shorts (map (fun k => k + 8) (zrange 44)).

Definition neg16 (x : Z) : Z := Z.land (- x) 65535.
(** pgp/cipher/aidea.py:81-92: one pass of the loop; [table] grows at the front *)
Definition dec_key_step (ekt : list Z) (st : list Z * Z) (i : Z) : res (list Z * Z) :=
  let '(table, offset) := st in
  do e1 <- get ekt (offset + 1);; do e0 <- get ekt offset;;
  do e5 <- get ekt (offset + 5);; do m5 <- mul_inv e5;;
  do e4 <- get ekt (offset + 4);; do e3 <- get ekt (offset + 3);;
  do e2 <- get ekt (offset + 2);; do m2 <- mul_inv e2;;
  let adds := if i =? 0 then [neg16 e3; neg16 e4] else [neg16 e4; neg16 e3] in
  Ok (m2 :: adds ++ [m5; Z.land e0 65535; Z.land e1 65535] ++ table, offset + 6).
(** pgp/cipher/aidea.py:73-94 _generate_dec_keys *)
Definition generate_dec_keys (ekt : list Z) : res (list Z) :=
  do e3 <- get ekt 3;; do m3 <- mul_inv e3;; do e2 <- get ekt 2;; do e1 <- get ekt 1;;
  do e0 <- get ekt 0;; do m0 <- mul_inv e0;;
  do (table, _) <- foldM (dec_key_step ekt) ([m0; neg16 e1; neg16 e2; m3], 4) [42; 36; 30; 24; 18; 12; 6; 0];;
  Ok table.

(** pgp/cipher/aidea.py:119-136: one of the eight rounds; the halves are not reduced between rounds *)
Definition round (k : list Z) (st : (Z * Z * Z * Z) * Z) : res ((Z * Z * Z * Z) * Z) :=
  let '((x1, x2, x3, x4), offset) := st in
  do k0 <- get k offset;; do k1 <- get k (offset + 1);; do k2 <- get k (offset + 2);;
  do k3 <- get k (offset + 3);; do k4 <- get k (offset + 4);; do k5 <- get k (offset + 5);;
  let x1 := mul (Z.land x1 65535) k0 in
  let x2 := x2 + k1 in
  let x3 := x3 + k2 in
  let x4 := mul (Z.land x4 65535) k3 in
  let t2 := Z.lxor x1 x3 in
  let t2 := mul (Z.land t2 65535) k4 in
  let t1 := t2 + Z.lxor x2 x4 in
  let t1 := mul (Z.land t1 65535) k5 in
  let t2 := t2 + t1 in
  let x1 := Z.lxor x1 t1 in
  let x4 := Z.lxor x4 t2 in
  let t2 := Z.lxor t2 x2 in
  let x2 := Z.lxor x3 t1 in
  let x3 := t2 in
  Ok ((x1, x2, x3, x4), offset + 6).
(** pgp/cipher/aidea.py:116-144 _cipher: a block that is not four shorts fails to unpack (ValueError) *)
Definition idea_cipher (k : list Z) (block_in : bytes) : res bytes :=
  do shorts <- bytes_to_shorts block_in;;
  match shorts with
  | [x1; x2; x3; x4] =>
      do ((x1, x2, x3, x4), offset) <- foldM (fun st (_ : Z) => round k st) ((x1, x2, x3, x4), 0) (zrange 8);;
      do k0 <- get k offset;; do k1 <- get k (offset + 1);; do k2 <- get k (offset + 2);; do k3 <- get k (offset + 3);;
      shorts_to_bytes [Z.land (mul (Z.land x1 65535) k0) 65535; Z.land (x3 + k1) 65535;
                       Z.land (x2 + k2) 65535; Z.land (mul (Z.land x4 65535) k3) 65535]
  | _ => Err ValueError
  end.
(** pgp/cipher/aidea.py:96-98 __init__, 146-150 encrypt and decrypt *)
Definition idea_encrypt (key block : bytes) : res bytes :=
  do ekt <- generate_enc_keys key;; do dkt <- generate_dec_keys ekt;; idea_cipher ekt block.
Definition idea_decrypt (key block : bytes) : res bytes :=
  do ekt <- generate_enc_keys key;; do dkt <- generate_dec_keys ekt;; idea_cipher dkt block.
