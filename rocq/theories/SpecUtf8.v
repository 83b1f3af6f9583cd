(** RFC 3629 UTF-8: scalar values and their octets. *)
From Verif Require Import Base.
Definition scalar (c : Z) : Prop := 0 <= c <= 1114111 /\ ~ (55296 <= c <= 57343).
(** section 3: the table of ranges *)
Definition rfc3629 (c : Z) : bytes :=
  if c <=? 127 then [c]
  else if c <=? 2047 then [192 + c / 64; 128 + c mod 64]
  else if c <=? 65535 then [224 + c / 4096; 128 + (c / 64) mod 64; 128 + c mod 64]
  else [240 + c / 262144; 128 + (c / 4096) mod 64; 128 + (c / 64) mod 64; 128 + c mod 64].
Definition utf8 (s : list Z) : bytes := concat (map rfc3629 s).
(** well-formed UTF-8 *)
Definition valid_utf8 (b : bytes) : Prop := exists s, Forall scalar s /\ b = utf8 s.
