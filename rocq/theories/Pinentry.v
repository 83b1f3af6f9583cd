(** Model of pgp/pinentry/getpass.py:23-70 (GetPassPinentry). Definitions only. *)
From Coq Require Import String.
From Verif Require Import Base Text.
Open Scope Z_scope.

(** getpass at the end of the input *)
Definition EOFError := PgpError 80.
(** the arguments of get_passphrase (qualitybar is ignored by the code) *)
Record request := Request { q_prompt : option text; q_error : option text; q_description : option text; q_cache_id : option text; q_use_cache : bool; q_no_ask : bool; q_repeat : Z }.
(** 35-41: None and 'X' stand for the default *)
Definition or_default (t : option text) (d : text) : text := match t with None => d | Some x => if zlist_eqb x (str "X") then d else x end.
(** 42-43, and the test for truth in 45 and 66: an empty id counts as none *)
Definition cache_id (t : option text) : option text := match t with None => None | Some x => if zlist_eqb x (str "X") then None else if zlen x =? 0 then None else Some x end.
(** the dictionary _cache *)
Definition cache := list (text * text).
Fixpoint recall (c : cache) (k : text) : option text := match c with [] => None | (j, v) :: t => if zlist_eqb j k then Some v else recall t k end.
Fixpoint store (c : cache) (k v : text) : cache := match c with [] => [(k, v)] | (j, w) :: t => if zlist_eqb j k then (j, v) :: t else (j, w) :: store t k v end.
Fixpoint forget (c : cache) (k : text) : cache := match c with [] => [] | (j, w) :: t => if zlist_eqb j k then t else (j, w) :: forget t k end.

(** 60-63: the confirmations; all of them are asked for. None: the input ends *)
Fixpoint confirm (n : nat) (p : text) (inp : list text) : option (bool * list text) :=
  match n with
  | O => Some (true, inp)
  | S n => match inp with [] => None | x :: inp => match confirm n p inp with None => None | Some (m, r) => Some (m && zlist_eqb x p, r) end end
  end.
Definition show (t : text) : list text := if zlen t =? 0 then [] else [t].
(** 55-64: the loop. Each round takes input, so that the length of the input bounds their number. Result, input left, lines printed *)
Fixpoint ask (fuel : nat) (repeat : Z) (error : text) (inp : list text) : res text * list text * list text :=
  match fuel with
  | O => (Err OutOfFuel, inp, [])
  | S f =>
      match inp with
      | [] => (Err EOFError, [], show error)
      | p :: inp =>
          match confirm (Z.to_nat repeat) p inp with
          | None => (Err EOFError, [], show error)
          | Some (true, r) => (Ok p, r, show error)
          | Some (false, r) => let '(o, r, l) := ask f repeat (str "Passwords do not match.") r in (o, r, show error ++ l)
          end
      end
  end.
(** 29-68 get_passphrase: result, the cache afterwards, input left, lines printed *)
Definition get_passphrase (c : cache) (q : request) (inp : list text) : res text * cache * list text * list text :=
  let prompt := or_default (q_prompt q) (str "PIN?") in
  let error := or_default (q_error q) (str "Error.") in
  let description := or_default (q_description q) [] in
  let id := if q_use_cache q then cache_id (q_cache_id q) else None in
  match match id with None => None | Some k => recall c k end with
  | Some p => (Ok p, c, inp, [])
  | None =>
      if q_no_ask q then (Err KeyError, c, inp, []) else
      let '(o, r, l) := ask (S (List.length inp)) (q_repeat q) error inp in
      let c := match o, id with Ok p, Some k => store c k p | _, _ => c end in
      (o, c, r, show prompt ++ show description ++ l)
  end.
(** 70-72 clear_passphrase: a dictionary has the key once at most *)
Definition clear_passphrase (c : cache) (k : text) : cache := forget c k.

(** a history of calls on one object, with the input that is typed *)
Inductive call := Get (q : request) | Clear (k : text).
Fixpoint calls (c : cache) (inp : list text) (h : list call) : cache * list text * list (call * res text) :=
  match h with
  | [] => (c, inp, [])
  | Get q :: h => let '(o, c, inp, _) := get_passphrase c q inp in let '(c, inp, l) := calls c inp h in (c, inp, (Get q, o) :: l)
  | Clear k :: h => let '(c, inp, l) := calls (clear_passphrase c k) inp h in (c, inp, (Clear k, Ok []) :: l)
  end.
