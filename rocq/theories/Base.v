(** Python values used by the model: exceptions as values, checked indexing, clipped slicing. *)
From Coq Require Export ZArith List Bool Lia.
From Coq Require Export ZifyBool ZifyNat ZifyN.
Export ListNotations.
Global Open Scope Z_scope.
Ltac Zify.zify_post_hook ::= Z.div_mod_to_equations.

(** Exception classes the modelled code can raise (built-in ones and those of pgp/exceptions.py). *)
Inductive exn :=
| IndexError | ValueError | TypeError | AssertionError | AttributeError | KeyError
| UnboundLocalError | NotImplementedError | OverflowError | RuntimeError | ZeroDivisionError
| StopIteration | UnicodeError
| PgpError (code : Z)      (* a named exception class of pgp/exceptions.py, numbered where used *)
| OutOfFuel.               (* not a Python exception: the model's loop bound was exhausted *)

Inductive res (A : Type) := Ok (a : A) | Err (e : exn).
Arguments Ok {A} a.
Arguments Err {A} e.

Definition bind {A B} (m : res A) (k : A -> res B) : res B :=
  match m with Ok a => k a | Err e => Err e end.
Notation "'do' p <- e ;; k" := (bind e (fun p => k))
  (at level 200, p pattern, e at level 100, k at level 200).

(** Octets, octet strings and text (a text is a list of code points). *)
Definition byte (b : Z) : Prop := 0 <= b < 256.
Notation bytes := (list Z).
Definition wf (bs : bytes) : Prop := Forall byte bs.
Definition byteb (b : Z) : bool := (0 <=? b) && (b <? 256).
Definition wfb (bs : bytes) : bool := forallb byteb bs.

(** Python [len]. *)
Definition zlen {A} (l : list A) : Z := Z.of_nat (length l).

(** Python [l[i]], with negative indices counting from the end; IndexError outside. *)
Definition get {A} (l : list A) (i : Z) : res A :=
  let j := if i <? 0 then i + zlen l else i in
  if (j <? 0) || (zlen l <=? j) then Err IndexError else
  match nth_error l (Z.to_nat j) with Some a => Ok a | None => Err IndexError end.

(** Python slice bound clipping, and [l[i:j]]. *)
Definition clip (n i : Z) : Z := if i <? 0 then Z.max 0 (i + n) else Z.min i n.
Definition slice {A} (l : list A) (i j : Z) : list A :=
  let a := clip (zlen l) i in
  let b := clip (zlen l) j in
  firstn (Z.to_nat (b - a)) (skipn (Z.to_nat a) l).
(** [l[i:]] *)
Definition slice_from {A} (l : list A) (i : Z) : list A :=
  skipn (Z.to_nat (clip (zlen l) i)) l.

(** [bytearray(l)] or [bytearray.append]/[extend] of integers: ValueError outside 0..255. *)
Definition mk_bytes (l : list Z) : res bytes := if wfb l then Ok l else Err ValueError.

(** [range(n)] as a list. *)
Definition zrange (n : Z) : list Z := map Z.of_nat (seq 0 (Z.to_nat n)).

(** Map with exceptions, left to right. *)
Fixpoint mapM {A B} (f : A -> res B) (l : list A) : res (list B) :=
  match l with
  | [] => Ok []
  | a :: t => do b <- f a;; do bs <- mapM f t;; Ok (b :: bs)
  end.

(** List equality on integers ([==] of bytes or str). *)
Fixpoint zlist_eqb (a b : list Z) : bool :=
  match a, b with
  | [], [] => true
  | x :: a', y :: b' => (x =? y) && zlist_eqb a' b'
  | _, _ => false
  end.

Definition is_ok {A} (r : res A) : bool := match r with Ok _ => true | Err _ => false end.
