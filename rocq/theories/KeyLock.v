(** Model of locking: pgp/transferrable_keys.py:414-613 (BaseSecretKey), 1094-1105 (TransferableSecretKey) and
    pgp/context_managers.py:17-34. Definitions only. Objects are mutable, so operations return the new state even when they raise. *)
From Verif Require Import Base KeyPackets.

(** The attributes that unlock and lock touch (420-433). prime_p is one attribute: a secret factor for RSA, the public prime
    for DSA and ElGamal. *)
Record lkey := LKey { lk_alg : Z; lk_d : option Z; lk_p : option Z; lk_q : option Z; lk_u : option Z; lk_x : option Z; lk_locked : bool }.
(** the fresh object made from a packet: locked, RSA without prime_p, others with the public prime *)
Definition fresh (alg : Z) (prime : option Z) : lkey := LKey alg None (if is_rsa_alg alg then None else prime) None None None true.

(** 570-595 unlock. [values] is what decrypt_encrypted_key_portion returns or raises for the passphrase. The attributes
    are assigned one after another; a missing value is an IndexError that leaves the earlier ones assigned. *)
Definition unlock1 (values : res (list Z)) (k : lkey) : lkey * option exn :=
  match values with
  | Err e => (k, Some e)
  | Ok vs =>
      if is_rsa_alg (lk_alg k) then
        match vs with
        | [] => (k, Some IndexError)
        | [a] => (LKey (lk_alg k) (Some a) (lk_p k) (lk_q k) (lk_u k) (lk_x k) (lk_locked k), Some IndexError)
        | [a; b] => (LKey (lk_alg k) (Some a) (Some b) (lk_q k) (lk_u k) (lk_x k) (lk_locked k), Some IndexError)
        | [a; b; c] => (LKey (lk_alg k) (Some a) (Some b) (Some c) (lk_u k) (lk_x k) (lk_locked k), Some IndexError)
        | a :: b :: c :: d :: _ => (LKey (lk_alg k) (Some a) (Some b) (Some c) (Some d) (lk_x k) false, None)
        end
      else if is_elg_alg (lk_alg k) || (lk_alg k =? 17) then
        match vs with
        | [] => (k, Some IndexError)
        | a :: _ => (LKey (lk_alg k) (lk_d k) (lk_p k) (lk_q k) (lk_u k) (Some a) false, None)
        end
      else (k, Some ValueError)
  end.
(** 597-610 lock *)
Definition lock1 (k : lkey) : lkey * option exn :=
  if is_rsa_alg (lk_alg k) then (LKey (lk_alg k) None None None None (lk_x k) true, None)
  else if is_elg_alg (lk_alg k) || (lk_alg k =? 17) then (LKey (lk_alg k) (lk_d k) (lk_p k) (lk_q k) (lk_u k) None true, None)
  else (k, Some ValueError).

(** 1094-1105: the primary key, then the subkeys in order, until one raises. The state is the list of keys, primary first. *)
Fixpoint each (f : nat -> lkey -> lkey * option exn) (i : nat) (ks : list lkey) : list lkey * option exn :=
  match ks with
  | [] => ([], None)
  | k :: t =>
      match f i k with
      | (k', Some e) => (k' :: t, Some e)
      | (k', None) => let '(t', e) := each f (S i) t in (k' :: t', e)
      end
  end.
Definition lock_all (ks : list lkey) : list lkey * option exn := each (fun _ => lock1) 0 ks.
(** [dec i pass]: what decrypting the secret material of key number i with the passphrase gives *)
Definition unlock_all (dec : nat -> bytes -> res (list Z)) (pass : bytes) (ks : list lkey) : list lkey * option exn :=
  each (fun i => unlock1 (dec i pass)) 0 ks.

(** What a program can do with the key. [Sign i] and [Decrypt i] use key number i (511-522: both refuse when locked);
    [With] is the context manager, whose __exit__ calls lock() and returns False so that an exception goes on;
    [Try] catches the exception of its body. *)
Inductive op := Lock | Unlock (pass : bytes) | Sign (i : nat) | Decrypt (i : nat) | Raise | With (pass : bytes) (body : list op) | Try (body : list op).
Inductive event := Used (i : nat) | Refused (i : nat).
Record out := Out { o_keys : list lkey; o_exn : option exn; o_log : list event }.
Definition use (i : nat) (ks : list lkey) : out :=
  match nth_error ks i with
  | Some k => if lk_locked k then Out ks (Some RuntimeError) [Refused i] else Out ks None [Used i]
  | None => Out ks (Some IndexError) []
  end.
(** operations run in order until one raises *)
Definition seq_ops (ex : op -> list lkey -> out) : list op -> list lkey -> out :=
  fix run (l : list op) (ks : list lkey) : out :=
  match l with
  | [] => Out ks None []
  | o :: t =>
      let r := ex o ks in
      match o_exn r with
      | Some _ => r
      | None => let r' := run t (o_keys r) in Out (o_keys r') (o_exn r') (o_log r ++ o_log r')
      end
  end.
Fixpoint exec (dec : nat -> bytes -> res (list Z)) (o : op) (ks : list lkey) {struct o} : out :=
  match o with
  | Lock => let '(ks', e) := lock_all ks in Out ks' e []
  | Unlock pass => let '(ks', e) := unlock_all dec pass ks in Out ks' e []
  | Sign i | Decrypt i => use i ks
  | Raise => Out ks (Some RuntimeError) []
  | With pass body =>
      let '(ks1, e1) := unlock_all dec pass ks in
      match e1 with
      | Some e => Out ks1 (Some e) []
      | None =>
          let r := seq_ops (exec dec) body ks1 in
          let '(ks2, e2) := lock_all (o_keys r) in
          Out ks2 (match e2 with Some e => Some e | None => o_exn r end) (o_log r)
      end
  | Try body =>
      let r := seq_ops (exec dec) body ks in
      Out (o_keys r) None (o_log r)
  end.
Definition run (dec : nat -> bytes -> res (list Z)) (l : list op) (ks : list lkey) : out := seq_ops (exec dec) l ks.
(** 463-471 to_public_key passes self.prime_p on to the public object *)
Definition public_prime (k : lkey) : option Z := lk_p k.
