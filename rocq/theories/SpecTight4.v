(** What P_Tight4 says of user ids with white space, of string-to-key specifiers and of the values of signature attributes. *)
From Verif Require Import Base Text S2k SigPackets SigAttrs SpecUserId.

(** white space of RFC 2822: space, tab, carriage return, line feed *)
Definition white (t : text) : Prop := Forall (fun c => In c [32; 9; 13; 10]) t.
(** name words, each followed by some white space *)
Definition laid_out (l : list (text * text)) : text := concat (map (fun p => fst p ++ snd p) l).
Definition layout (l : list (text * text)) : Prop := Forall (fun p => plain (fst p) /\ white (snd p) /\ snd p <> []) l.
(** RFC 4880 3.7.1: the specifier with this type, hash, cipher, salt and count *)
Definition specifier (ty hash sym : Z) (salt : bytes) (count : Z) (s : s2k) : Prop :=
  (ty = 0 /\ s = SimpleS2K hash sym) \/ (ty = 1 /\ s = SaltedS2K hash sym salt) \/ (ty = 3 /\ s = IteratedS2K hash sym salt count).
(** the content of a subpacket after an attribute was assigned a value, or the exception when it is written *)
Definition py_true (v : value) : bool := match v with VNone | VInt 0 | VBool false | VText [] | VList [] => false | _ => true end.
Definition number (v : value) : res Z := match v with VInt z => Ok z | VBool true => Ok 1 | VBool false => Ok 0 | _ => Err TypeError end.
Definition plain_text (v : value) : res text := match v with VText t => Ok t | _ => Err AttributeError end.
Definition assigned (p : prop) (v : value) (old : subbody) : option (res subbody) :=
  match p, old with
  | P_exportable, SbBool _ | P_revocable, SbBool _ | P_primary_user_id, SbBool _ => Some (Ok (SbBool (py_true v)))
  | P_no_modify, SbNoModify _ => Some (Ok (SbNoModify (py_true v)))
  | P_supports_md, SbFeatures _ => Some (Ok (SbFeatures (py_true v)))
  | P_issuer_user_id, SbUserId _ => Some (do t <- plain_text v;; Ok (SbUserId t))
  | P_preferred_key_server, SbUri _ | P_policy_uri, SbUri _ => Some (do t <- plain_text v;; Ok (SbUri t))
  | P_revocation_code, SbReason _ r => Some (do z <- number v;; Ok (SbReason z r))
  | P_preferred_compression, SbAlgs _ | P_preferred_hash, SbAlgs _ | P_preferred_symmetric, SbAlgs _ =>
      match v with VList l => Some (Ok (SbAlgs l)) | VText _ => None | _ => Some (Err TypeError) end
  | P_certify, SbFlags a1 a2 a3 a4 a5 a6 a7 => Some (Ok (SbFlags (py_true v) a2 a3 a4 a5 a6 a7))
  | P_sign, SbFlags a1 a2 a3 a4 a5 a6 a7 => Some (Ok (SbFlags a1 (py_true v) a3 a4 a5 a6 a7))
  | P_comms, SbFlags a1 a2 a3 a4 a5 a6 a7 => Some (Ok (SbFlags a1 a2 (py_true v) a4 a5 a6 a7))
  | P_storage, SbFlags a1 a2 a3 a4 a5 a6 a7 => Some (Ok (SbFlags a1 a2 a3 (py_true v) a5 a6 a7))
  | P_auth, SbFlags a1 a2 a3 a4 a5 a6 a7 => Some (Ok (SbFlags a1 a2 a3 a4 (py_true v) a6 a7))
  | P_split, SbFlags a1 a2 a3 a4 a5 a6 a7 => Some (Ok (SbFlags a1 a2 a3 a4 a5 (py_true v) a7))
  | P_owners, SbFlags a1 a2 a3 a4 a5 a6 a7 => Some (Ok (SbFlags a1 a2 a3 a4 a5 a6 (py_true v)))
  | _, _ => None
  end.
(** the subpacket type each attribute lives in (RFC 4880 5.2.3.1; revocable is wired to exportable, see C50) *)
Definition home (p : prop) : Z :=
  match p with
  | P_exportable | P_revocable => 4 | P_primary_user_id => 25 | P_no_modify => 23 | P_supports_md => 30 | P_issuer_user_id => 28 | P_preferred_key_server => 24
  | P_policy_uri => 26 | P_revocation_code => 29 | P_preferred_compression => 22 | P_preferred_hash => 21 | P_preferred_symmetric => 11
  | P_certify | P_sign | P_comms | P_storage | P_auth | P_split | P_owners => 27 | P_trust_amount | P_trust_depth | P_revocation_reason => 5
  end.
