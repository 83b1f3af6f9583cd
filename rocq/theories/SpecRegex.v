(** The grammar of regular expressions of RFC 4880 section 8, on texts. *)
From Verif Require Import Base Text.

(** characters that are not atoms by themselves: | * + ? ( ) [ ] and the backslash *)
Definition special : list Z := [124; 42; 43; 63; 40; 41; 91; 93; 92].
(** what is between the brackets of a range: an optional ^, then at least one character; only the first may be a closing bracket *)
Definition range_body (x : text) : Prop := exists c t, (x = c :: t /\ c <> 94 \/ x = 94 :: c :: t) /\ ~ In 93 t.
(** the grammar; bars says whether a range with a | in it may be repeated (the RFC has no such exception) *)
Inductive regex (bars : bool) : text -> Prop :=
| re_branch b : branch bars b -> regex bars b
| re_or b r : branch bars b -> regex bars r -> regex bars (b ++ [124] ++ r)
with branch (bars : bool) : text -> Prop :=
| br_nil : branch bars []
| br_piece p b : piece bars p -> branch bars b -> branch bars (p ++ b)
with piece (bars : bool) : text -> Prop :=
| pc_atom a : atom bars a -> piece bars a
| pc_repeat a c : atom bars a -> In c [42; 43; 63] -> (bars = false -> forall x, a = [91] ++ x ++ [93] -> range_body x -> ~ In 124 x) -> piece bars (a ++ [c])
with atom (bars : bool) : text -> Prop :=
| at_group r : regex bars r -> atom bars ([40] ++ r ++ [41])
| at_range x : range_body x -> atom bars ([91] ++ x ++ [93])
| at_char c : ~ In c special -> atom bars [c]
| at_escape c : atom bars [92; c].
Definition rfc_regex : text -> Prop := regex true.
(** read from the left, every backslash is followed by a character, which is not a newline *)
Inductive escaped : text -> Prop :=
| es_nil : escaped []
| es_char c s : c <> 92 -> escaped s -> escaped (c :: s)
| es_pair c s : c <> 10 -> escaped s -> escaped (92 :: c :: s).
(** a backslash never precedes a closing bracket *)
Definition no_escaped_bracket (s : text) : Prop := ~ exists a b, s = a ++ [92; 93] ++ b.
