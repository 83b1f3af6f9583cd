(** User ids as people write them (RFC 4880 5.11: by convention an RFC 2822 mail name-addr). *)
From Verif Require Import Base Text.

(** a character with no meaning of its own in an address: no space and none of ( ) < > @ , : ; [ ] and the double quote *)
Definition plain_char (c : Z) : Prop := is_space c = false /\ ~ In c [40; 41; 60; 62; 64; 44; 58; 59; 34; 91; 93].
Definition plain (w : text) : Prop := w <> [] /\ Forall plain_char w.
(** what may stand in a comment without escapes: anything but parentheses, backslash and carriage return *)
Definition comment_text (c : text) : Prop := Forall (fun x => ~ In x [40; 41; 92; 13]) c.
(** name words separated by single spaces, then the address in angle brackets *)
Definition name_addr (words : list text) (local domain : text) : text :=
  join [32] words ++ [32; 60] ++ local ++ [64] ++ domain ++ [62].
Definition name_comment_addr (words : list text) (comment local domain : text) : text :=
  join [32] words ++ [32; 40] ++ comment ++ [41; 32; 60] ++ local ++ [64] ++ domain ++ [62].
