(** Specification for C99-C101: percent escapes, and lines escaped as in mail. Definitions only. *)
From Coq Require Import String.
From Verif Require Import Base Text.
Open Scope Z_scope.

(** A template with escapes: % and a letter stands for the letter's value, %% for one %, everything else for itself. *)
Fixpoint expand (val : Z -> option text) (t : text) : text :=
  match t with
  | c :: ((d :: r) as t') =>
      if c =? 37 then
        if d =? 37 then 37 :: expand val r
        else match val d with Some v => v ++ expand val r | None => 37 :: d :: expand val r end
      else c :: expand val t'
  | _ => t
  end.
(** nothing that could be read as an escape, or as part of one, follows a %% *)
Fixpoint plain_percents (letters : list Z) (t : text) : Prop :=
  match t with
  | c :: ((d :: r) as t') =>
      if c =? 37 then
        if d =? 37 then (match r with x :: _ => ~ In x (37 :: letters) | [] => True end) /\ plain_percents letters r
        else plain_percents letters r
      else plain_percents letters t'
  | _ => True
  end.

(** the lines of a text, and the text with every line that starts with From escaped *)
Fixpoint lines_of (t : text) : list text :=
  match t with
  | [] => [[]]
  | c :: r => if c =? 10 then [] :: lines_of r else match lines_of r with l :: ls => (c :: l) :: ls | [] => [[c]] end
  end.
Definition escaped_line (l : text) : text := if starts_with (str "From ") l then str "- " ++ l else l.
Definition from_escaped (t : text) : text := join [10] (map escaped_line (lines_of t)).
