(** Model of pgp/merge.py:27-149. Definitions only. Signatures are abstract: [skey] is signature_key (87-95, None where the list has None),
    which compares equal to itself, and [isself], [later] are is_self_signature and the comparison of creation times. User ids, attributes and
    subkeys are objects with identity (they define no __eq__), so a part is a number and the heap gives its list of signatures; a list may
    contain None, as merge_sigpairs puts it there. *)
From Verif Require Import Base Utils.

(** the fields that keys_equivalent reads; the creation time is a datetime *)
Record knums := KNums { n_version : Z; n_alg : Z; n_n : option Z; n_e : option Z; n_p : option Z; n_g : option Z; n_q : option Z; n_y : option Z; n_created : Z }.
Definition optz_eqb (a b : option Z) : bool := match a, b with Some x, Some y => x =? y | None, None => true | _, _ => false end.
(** 27-38 *)
Definition keys_equivalent (a b : knums) : bool :=
  (n_version a =? n_version b) && (n_alg a =? n_alg b) && optz_eqb (n_n a) (n_n b) && optz_eqb (n_e a) (n_e b) && optz_eqb (n_p a) (n_p b)
  && optz_eqb (n_g a) (n_g b) && optz_eqb (n_q a) (n_q b) && optz_eqb (n_y a) (n_y b) && (n_created a =? n_created b).

Section Merge.
Context {sig skeyt : Type}.
Variables (skey : option sig -> res skeyt) (keq : skeyt -> skeyt -> bool) (isself : option sig -> res bool) (later : option sig -> option sig -> res bool).
Definition sigs := list (option sig).
Definition heap := Z -> sigs.
Definition set_sigs (h : heap) (i : Z) (l : sigs) : heap := fun j => if j =? i then l else h j.
(** the ordered dictionary m: keys in the order of insertion *)
Definition dict := list (Z * sigs).
Fixpoint lookup (d : dict) (i : Z) : option sigs := match d with (j, l) :: t => if j =? i then Some l else lookup t i | [] => None end.
Fixpoint store (d : dict) (i : Z) (l : sigs) : dict := match d with (j, m) :: t => if j =? i then (j, l) :: t else (j, m) :: store t i l | [] => [(i, l)] end.
(** 59-62: the loop runs over the list it appends to; the signatures that it appends have the key of [s] and add nothing more *)
Fixpoint appended (k : skeyt) (s : option sig) (old : sigs) : res sigs :=
  match old with [] => Ok [] | s2 :: t => do k2 <- skey s2;; do r <- appended k s t;; Ok (if negb (keq k k2) then s :: r else r) end.
(** 57-62 *)
Fixpoint collect (ss : sigs) (old : sigs) : res sigs :=
  match ss with [] => Ok old | s :: t => do k <- skey s;; do a <- appended k s old;; collect t (old ++ a) end.
(** 54-62 *)
Fixpoint gather (h : heap) (parts : list Z) (d : dict) : res dict :=
  match parts with
  | [] => Ok d
  | p :: t => let old := match lookup d p with Some l => l | None => [] end in do l <- collect (h p) old;; gather h t (store d p l)
  end.
(** 70-77: [self] is selfsig and [acc] part.signatures *)
Fixpoint choose (ss : sigs) (self : option sig) (acc : sigs) : res sigs :=
  match ss with
  | [] => Ok (self :: acc)
  | s :: t =>
      do b <- isself s;;
      match self with
      | Some x => if b then do g <- later s self;; choose t (if g then s else self) acc else choose t self (acc ++ [s])
      | None => choose t self (acc ++ [s])
      end
  end.
(** 64-77, with the heap at the time of an exception *)
Fixpoint rewrite_parts (h : heap) (d : dict) : heap * res unit :=
  match d with
  | [] => (h, Ok tt)
  | (p, ss) :: t => match choose ss None [] with Ok l => rewrite_parts (set_sigs h p l) t | Err e => (set_sigs h p [], Err e) end
  end.
(** 41-77: the function has no return statement, so its result is None *)
Definition merge_sigpairs (h : heap) (parts : list Z) : heap * res unit :=
  match gather h parts [] with Ok d => rewrite_parts h d | Err e => (h, Err e) end.

(** a key object: its numbers, its own signatures and the three lists of parts, each a list or None *)
Record mkey := MKey { mk_nums : knums; mk_sigs : sigs; mk_uids : option (list Z); mk_attrs : option (list Z); mk_subs : option (list Z) }.
(** 80-81 and the assignment of its result, which is None: merge_sigpairs(part1 + part2) *)
Definition merge_lists (h : heap) (a b : option (list Z)) : heap * res (option (list Z)) :=
  match a, b with
  | Some x, Some y => let '(h, r) := merge_sigpairs h (x ++ y) in (h, do _ <- r;; Ok None)
  | _, _ => (h, Err TypeError)
  end.
(** 98-136: key and candidate_key are different objects. In 104-112 the first signature is stored under a tuple that contains a set, which cannot
    be hashed, so the loop never reaches a second signature and old_sigs is empty when it ends normally. *)
Definition merge (h : heap) (key cand : mkey) : heap * mkey * res unit :=
  if negb (keys_equivalent (mk_nums key) (mk_nums cand)) then (h, key, Ok tt)
  else match mk_sigs cand with
       | s :: _ => (h, key, do _ <- skey s;; Err TypeError)
       | [] =>
           match merge_lists h (mk_uids key) (mk_uids cand) with
           | (h, Err e) => (h, key, Err e)
           | (h, Ok u) =>
               let key := MKey (mk_nums key) (mk_sigs key) u (mk_attrs key) (mk_subs key) in
               match merge_lists h (mk_attrs key) (mk_attrs cand) with
               | (h, Err e) => (h, key, Err e)
               | (h, Ok a) =>
                   let key := MKey (mk_nums key) (mk_sigs key) (mk_uids key) a (mk_subs key) in
                   match merge_lists h (mk_subs key) (mk_subs cand) with
                   | (h, Err e) => (h, key, Err e)
                   | (h, Ok s) => (h, MKey (mk_nums key) (mk_sigs key) (mk_uids key) (mk_attrs key) s, Ok tt)
                   end
               end
           end
       end.
(** 139-149: [by_hash] says whether the database has get_key_by_hash; utils has no hash_entire_key. [found] is what db.search gives for the key
    id. *)
Definition merge_key (by_hash : bool) (found : res (list mkey)) (h : heap) (key : mkey) : heap * mkey * res unit :=
  if by_hash then (h, key, Err AttributeError)
  else match found with Err e => (h, key, Err e) | Ok [] => (h, key, Ok tt) | Ok (c :: _) => merge h key c end.
End Merge.
