(** The parts a user id can be made of (see also SpecUserId.v). *)
From Verif Require Import Base Text SpecUserId.

Definition ascii (t : text) : Prop := Forall (fun c => c < 128) t.
(** the characters for which a name has to be quoted in an address: brackets of all kinds, backslash, @ , : ; . and the double quote *)
Definition marks : text := [40; 41; 60; 62; 91; 93; 92; 64; 44; 58; 59; 34; 46].
(** names that can be written: none; words separated by single spaces; or any ASCII text with a mark in it, without
    carriage return and without white space at the ends *)
Inductive writable_name : text -> Prop :=
| no_name : writable_name []
| word_name words : words <> [] -> Forall plain words -> Forall ascii words -> Forall (Forall (fun c => ~ In c marks)) words ->
    writable_name (join [32] words)
| marked_name name : ascii name -> Exists (fun c => In c marks) name -> ~ In 13 name -> strip name = name -> writable_name name.
Definition writable_address (a : text) : Prop :=
  exists local domain, a = local ++ [64] ++ domain /\ plain local /\ plain domain /\ ascii a.
Definition occurs (part whole : text) : Prop := exists before after, whole = before ++ part ++ after.
(** parts that fit together: a comment is removed from the name wherever it occurs there, so it must not *)
Definition fit (name comment : text) : Prop := comment = [] \/ ~ occurs comment name.

(** Editing. Every edit replaces one part and leaves the other two. *)
Inductive edit := Rename (name : text) | Readdress (address : text) | Recomment (comment : text).
Definition parts := (text * text * text)%type.
Definition edited (p : parts) (e : edit) : parts :=
  let '(name, address, comment) := p in
  match e with Rename n => (n, address, comment) | Readdress a => (name, a, comment) | Recomment c => (name, address, c) end.
Definition writable_parts (p : parts) : Prop :=
  let '(name, address, comment) := p in writable_name name /\ writable_address address /\ comment_text comment /\ fit name comment.
(** the parts after each edit of a history are writable *)
Fixpoint all_writable (p : parts) (history : list edit) : Prop :=
  match history with [] => True | e :: r => writable_parts (edited p e) /\ all_writable (edited p e) r end.
