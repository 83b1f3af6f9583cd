(** Which bodies of the small packet types (RFC 4880 5.6-5.10, 5.13, 5.14, GnuPG's 61 and 63, the draft's 16) the parser
    takes, and which of those it can write back. *)
From Verif Require Import Base Spec SpecUtf8 DataPackets.
(** bodies that parse *)
Definition readable_body (ty : Z) (d : bytes) : Prop :=
  (ty = 8 -> d <> []) /\ ty <> 10 /\
  (ty = 11 -> exists f n rest, d = f :: n :: rest /\ n + 4 <= zlen rest /\ (f = 117 -> exists name tm t, rest = name ++ tm ++ t /\ zlen name = n /\ zlen tm = 4 /\ valid_utf8 t)) /\
  (ty = 12 -> exists v rest, d = v :: rest /\ (v = 0 -> forall c, rest = [c] -> c < 128)) /\
  (ty = 16 \/ ty = 61 -> valid_utf8 d) /\
  (ty = 18 -> d <> []) /\ (ty = 19 -> zlen d = 20) /\ (ty = 63 -> 9 <= zlen d).
(** bodies that survive parsing and writing *)
Definition stable_body (ty : Z) (d : bytes) : Prop :=
  ty <> 11 /\ (ty = 12 -> (exists v, d = [v]) \/ (exists c, d = [0; c])) /\ (ty = 13 -> valid_utf8 d).
(** RFC 4880 5.9: format, length of the name in octets, name, date, contents *)
Definition rfc_literal (fmt : Z) (name : bytes) (date : Z) (contents : bytes) (enc : bytes) : Prop :=
  exists tm, enc = [fmt; zlen name] ++ name ++ tm ++ contents /\ zlen tm = 4 /\ be_val tm = date /\ wf tm.
(** the octets of the contents by format: binary and local data as they are, 't' as latin-1, 'u' as UTF-8 *)
Definition literal_bytes (fmt : Z) (d : ldata) : option bytes :=
  match d with
  | LBytes b => if (fmt =? 108) || (fmt =? 49) || (fmt =? 98) then Some b else None
  | LText s => if fmt =? 116 then Some s else if fmt =? 117 then Some (utf8 s) else None
  end.
