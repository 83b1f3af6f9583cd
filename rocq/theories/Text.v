(** Text: a Python str as a list of code points. Definitions only.
    These model CPython's str methods (runtime, not /repo code) as they are used by the modelled files. *)
From Verif Require Import Base.
From Coq Require String Ascii.
Export String.StringSyntax.

Notation text := (list Z).
(** a string literal as code points *)
Fixpoint str (s : String.string) : text :=
  match s with
  | String.EmptyString => []
  | String.String c s' => Z.of_N (Ascii.N_of_ascii c) :: str s'
  end.
Arguments str s%string_scope.
Definition NL : text := [10].

(** characters at which str.splitlines breaks *)
Definition is_linebreak (c : Z) : bool :=
  existsb (Z.eqb c) [10; 13; 11; 12; 28; 29; 30; 133; 8232; 8233].
(** str.splitlines() *)
Fixpoint splitlines_acc (acc : text) (l : text) : list text :=
  match l with
  | [] => match acc with [] => [] | _ => [rev acc] end
  | c :: t =>
      if is_linebreak c then
        match t with
        | d :: t' => if (c =? 13) && (d =? 10) then rev acc :: splitlines_acc [] t'
                     else rev acc :: splitlines_acc [] t
        | [] => rev acc :: splitlines_acc [] t
        end
      else splitlines_acc (c :: acc) t
  end.
Definition splitlines (l : text) : list text := splitlines_acc [] l.

(** str.isspace of one character (Unicode White_Space plus 28..31) *)
Definition is_space (c : Z) : bool :=
  ((9 <=? c) && (c <=? 13)) || ((28 <=? c) && (c <=? 32)) || (c =? 133) || (c =? 160) || (c =? 5760)
  || ((8192 <=? c) && (c <=? 8202)) || (c =? 8232) || (c =? 8233) || (c =? 8239) || (c =? 8287) || (c =? 12288).
(** not len(s.strip()) *)
Definition is_blank (l : text) : bool := forallb is_space l.
(** s.strip() *)
Fixpoint lstrip (l : text) : text :=
  match l with [] => [] | c :: t => if is_space c then lstrip t else l end.
Definition strip (l : text) : text := rev (lstrip (rev (lstrip l))).

(** l.startswith(p), and what follows *)
Fixpoint strip_prefix (p l : text) : option text :=
  match p, l with
  | [], _ => Some l
  | x :: p', y :: l' => if x =? y then strip_prefix p' l' else None
  | _ :: _, [] => None
  end.
Definition starts_with (p l : text) : bool :=
  match strip_prefix p l with Some _ => true | None => false end.

(** s.replace(old, new) for a non-empty [old]: [skip] characters belong to the last match *)
Fixpoint replace_acc (old new : text) (skip : nat) (l : text) : text :=
  match l with
  | [] => []
  | c :: t =>
      match skip with
      | S k => replace_acc old new k t
      | O => if starts_with old l then new ++ replace_acc old new (length old - 1) t
             else c :: replace_acc old new 0 t
      end
  end.
Definition replace (old new l : text) : text := replace_acc old new 0 l.

(** s.split(sep, 1) when the separator occurs *)
Fixpoint split_once (sep l : text) : option (text * text) :=
  match strip_prefix sep l with
  | Some r => Some ([], r)
  | None => match l with
            | [] => None
            | c :: t => match split_once sep t with Some (k, v) => Some (c :: k, v) | None => None end
            end
  end.

(** sep.join(parts) *)
Fixpoint join (sep : text) (parts : list text) : text :=
  match parts with
  | [] => []
  | [p] => p
  | p :: ps => p ++ sep ++ join sep ps
  end.

(** '{}'.format(i) for i >= 0 *)
Fixpoint dec_digits (fuel : nat) (i : Z) : text :=
  match fuel with
  | O => []
  | S f => if i <? 10 then [48 + i] else dec_digits f (i / 10) ++ [48 + i mod 10]
  end.
Definition dec_of (i : Z) : text :=
  if i <? 0 then 45 :: dec_digits (S (Z.to_nat (Z.log2 (- i)))) (- i) else dec_digits (S (Z.to_nat (Z.log2 i))) i.
(** int(s) for a non-empty string of ASCII digits *)
Definition dec_val (l : text) : Z := fold_left (fun acc c => acc * 10 + (c - 48)) l 0.
Definition is_digit (c : Z) : bool := (48 <=? c) && (c <=? 57).
(** the longest prefix of digits, and what follows *)
Fixpoint span_digits (l : text) : text * text :=
  match l with
  | [] => ([], [])
  | c :: t => if is_digit c then let (a, b) := span_digits t in (c :: a, b) else ([], l)
  end.
