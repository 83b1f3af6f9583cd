(** C116: a cipher object used in calls with resynchronisations between them. *)
From Verif Require Import Base Cipher SpecCipher.
Inductive event := Call (data : bytes) | Sync.
Definition calls (l : list event) : list bytes := flat_map (fun e => match e with Call b => [b] | Sync => [] end) l.
(** the same history, each call showing what it returned *)
Fixpoint history (f : cobj -> bytes -> res (bytes * cobj)) (o : cobj) (l : list event) : res (list event * cobj) :=
  match l with
  | [] => Ok ([], o)
  | Call b :: t => do (r, o) <- f o b;; do (rs, o) <- history f o t;; Ok (Call r :: rs, o)
  | Sync :: t => do o <- cipher_sync o;; do (rs, o) <- history f o t;; Ok (Sync :: rs, o)
  end.
(** the last n octets *)
Definition last_of (n : Z) (b : bytes) : bytes := skipn (Z.to_nat (zlen b - n)) b.
(** what the object counts: a block at first, then the difference to the odd octets of each call *)
Definition counted (bs : Z) (lens : list Z) : Z := fold_left (fun c n => Z.abs (c - n mod bs)) lens bs.
