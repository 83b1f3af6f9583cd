(** Model of pgp/regex.py:30 (the tokenizer), 98-246 (validate_partial_subpacket_regex), 249-256 (validate_subpacket_regex) and of
    RegexValueError (pgp/exceptions.py:95-104). Texts are lists of code points. Definitions only. *)
From Verif Require Import Base Text.

(** 30: findall of the alternatives backslash and any character but a newline; any character but a backslash. A backslash at the end or
    before a newline matches neither and is skipped. *)
Fixpoint tokens (s : text) : list text :=
  match s with
  | [] => []
  | c :: t =>
      if c =? 92 then match t with d :: t' => if d =? 10 then tokens t else [92; d] :: tokens t' | [] => [] end
      else [c] :: tokens t
  end.
(** The object that current refers to. Only a Group or a Range under construction is incomplete; a finished one is left at once for its Piece.
    For a Range and for a Piece: whether the variable piece is None (107 sets it also inside a range; 141 reads it). The tree is kept as its
    string: every token is added at its right end, and __str__ (41-94) writes the parts in order. *)
Inductive cur := CBranch | CPiece (none : bool) | CAtom | CGroup | CRange (content : text) (none : bool).
Inductive verdict := Accept | RegexError (position : Z) | Crash.
(** 98-246. The result: unterminated, valid, the string of the tree, the tokens left; None is an AttributeError. The fuel is a bound on the
    number of tokens. *)
Fixpoint loop (fuel : nat) (toks : list text) (c : cur) (unterminated : bool) (out : text) : option (bool * bool * text * list text) :=
  match fuel with
  | O => None
  | S f =>
      match toks with
      | [] => Some (match c with CGroup | CRange _ _ => true | _ => unterminated end, true, out, [])
      | tok :: ts =>
          let go c' := loop f ts c' unterminated (out ++ tok) in
          let invalid := Some (unterminated, false, out, toks) in
          if zlist_eqb tok [124] then           (* | 106-130 *)
            match c with
            | CRange x _ => go (CRange (x ++ tok) true)
            | CGroup => invalid
            | _ => go CBranch
            end
          else if existsb (zlist_eqb tok) [[42]; [43]; [63]] then   (* * + ? 131-153 *)
            match c with
            | CRange x n => go (CRange (x ++ tok) n)
            | CGroup => invalid
            | CAtom => go CBranch
            | CPiece true => None
            | CPiece false => go CBranch
            | CBranch => invalid
            end
          else if zlist_eqb tok [40] then       (* ( 154-177 *)
            match c with
            | CRange x n => go (CRange (x ++ tok) n)
            | CGroup => invalid
            | _ => match loop f ts CBranch false [] with
                   | None => None
                   | Some (u, _, sub, ts') => loop f ts' CGroup u (out ++ tok ++ sub)
                   end
            end
          else if zlist_eqb tok [41] then       (* ) 178-186 *)
            match c with
            | CRange x n => go (CRange (x ++ tok) n)
            | CGroup => go (CPiece false)
            | _ => invalid
            end
          else if zlist_eqb tok [91] then       (* [ 187-202 *)
            match c with
            | CRange x n => go (CRange (x ++ tok) n)
            | CGroup => invalid
            | _ => go (CRange [] false)
            end
          else if zlist_eqb tok [93] then       (* ] 203-216 *)
            match c with
            | CRange x n => if zlist_eqb x [] || zlist_eqb x [94] then go (CRange (x ++ tok) n) else go (CPiece n)
            | _ => invalid
            end
          else                                  (* 217-245 *)
            match c with
            | CRange x n => go (CRange (x ++ tok) n)
            | CGroup => go CGroup
            | _ => go CAtom
            end
      end
  end.
(** 249-256; RegexValueError subtracts 1 from the position of an unterminated expression *)
Definition validate_subpacket_regex (s : text) : verdict :=
  let toks := tokens s in
  match loop (S (length toks)) toks CBranch false [] with
  | None => Crash
  | Some (u, v, p, _) => if u : bool then RegexError (zlen p - 1) else if v : bool then Accept else RegexError (zlen p)
  end.
