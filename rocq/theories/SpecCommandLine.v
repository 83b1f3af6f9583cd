(** Specification for C102-C104: which commands may be given together, and what the commands are called. Definitions only. *)
From Coq Require Import String.
From Verif Require Import Base Text CommandLine.
Open Scope Z_scope.

(** The documented combinations: the commands that are given together. *)
Definition together (c : combination) : list text := map str
  match c with
  | EncryptSymmetricAndSign => ["sign"; "encrypt"; "symmetric"]
  | EncryptAndSign => ["sign"; "encrypt"]
  | SymmetricAndSign => ["sign"; "symmetric"]
  | FingerprintCheckSigs => ["fingerprint"; "check_sigs"]
  | FingerprintListSigs => ["fingerprint"; "list_sigs"]
  end%string.
(** the same commands, in any order and with any repetition *)
Definition same_commands (a b : list cmd) : Prop := forall c, In c a <-> In c b.
(** the combinations whose classes do nothing at all (combinations.py:5-33) *)
Definition does_nothing (c : class) : Prop := c = Combined EncryptSymmetricAndSign \/ c = Combined EncryptAndSign \/ c = Combined SymmetricAndSign.
