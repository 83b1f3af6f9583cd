(** The agent's protocol (Assuan): lines of words separated by blanks, percent escapes. *)
From Coq Require Import String.
From Verif Require Import Base Text SpecUtf8 Agent.
Open Scope Z_scope.

Definition hex_digit (c x : Z) : Prop := (48 <= c <= 57 /\ x = c - 48) \/ (65 <= c <= 70 /\ x = c - 55) \/ (97 <= c <= 102 /\ x = c - 87).
(** [percent plain e b]: e stands for the octets b; an octet is written as itself (if [plain]) or as a percent sign and two hexadecimal digits *)
Inductive percent (plain : Z -> Prop) : bytes -> bytes -> Prop :=
| pc_nil : percent plain [] []
| pc_plain c e b : plain c -> c <> 37 -> percent plain e b -> percent plain (c :: e) (c :: b)
| pc_hex h l x y e b : hex_digit h x -> hex_digit l y -> percent plain e b -> percent plain (37 :: h :: l :: e) (16 * x + y :: b).
(** characters of a word: visible ASCII *)
Definition visible (c : Z) : Prop := 33 <= c <= 126.
(** what may be written as itself on a line of data, if it is ASCII *)
Definition data_char (c : Z) : Prop := 0 <= c < 128 /\ c <> 10 /\ c <> 13.
(** a word for an optional text: X if there is none (or it is empty), else its UTF-8 octets *)
Definition word_for (w : bytes) (t : option text) : Prop := match t with None | Some [] => w = str "X" | Some x => percent visible w (utf8 x) end.
Definition options (q : agent_request) : list text :=
  (if a_no_ask q then [str "--no-ask"] else []) ++ (if a_qualitybar q then [str "--qualitybar"] else []) ++
  (if a_repeat q =? 1 then [str "--repeat"] else if 1 <? a_repeat q then [str "--repeat=" ++ dec_of (a_repeat q)] else []).
Definition texts_ok (q : agent_request) : Prop := Forall (fun o => match o with Some t => Forall scalar t | None => True end) [a_cache_id q; a_error q; a_prompt q; a_description q].
(** two optional texts the agent cannot tell apart: none, empty and X are the same *)
Definition norm (t : option text) : option text := match t with Some [] => None | Some x => if zlist_eqb x (str "X") then None else Some x | None => None end.
(** a line that is neither the end of an answer nor an error *)
Definition plain_line (l : bytes) : Prop := ~ In 10 l /\ firstn 2 l <> str "OK" /\ firstn 3 l <> str "ERR".
Definition ok_line (l : bytes) : Prop := ~ In 10 l /\ firstn 2 l = str "OK".
Definition send (ls : list bytes) : bytes := concat (map (fun l => l ++ [10]) ls).
