(** Specification for C110: the exceptions that reading malformed input can end in. *)
From Verif Require Import Base.

(** by the number of the packet type (RFC 4880, 4.3; 16 and 61: comments, 63: GnuPG control packet) *)
Definition content_errors (ty : Z) : list exn :=
  match ty with
  | 1 | 4 | 8 | 18 | 63 => [IndexError]
  | 2 => [IndexError; ValueError; AssertionError; TypeError; UnicodeError]
  | 3 => [IndexError; ValueError; AssertionError; TypeError]
  | 5 | 7 => [IndexError; ValueError; AssertionError; NotImplementedError; UnboundLocalError]
  | 6 | 14 => [IndexError; ValueError; NotImplementedError]
  | 10 => [AttributeError]
  | 11 => [IndexError; UnicodeError]
  | 12 | 17 => [IndexError; ValueError]
  | 16 | 61 => [UnicodeError]
  | 19 => [AssertionError]
  | _ => []
  end.
(** a sequence of packets *)
Definition reader_errors : list exn :=
  [IndexError; ValueError; AssertionError; TypeError; UnicodeError; NotImplementedError; UnboundLocalError; AttributeError].
Definition armor_errors : list exn := [IndexError; ValueError].
(** a key: InvalidKeyPacketOrder and InvalidKeyPacketType too *)
Definition key_errors : list exn := reader_errors ++ [PgpError 50; PgpError 51].
(** a result is a value or one of these exceptions *)
Definition fails_only {A} (l : list exn) (r : res A) : Prop := match r with Ok _ => True | Err e => In e l end.
(** a generator ends normally or with one of these exceptions *)
Definition ends_only {A} (l : list exn) (r : list A * option exn) : Prop := match snd r with None => True | Some e => In e l end.
