(** C113: what RFC 4880 5.2.3.4 to 5.2.3.26 say the octets of a subpacket mean, and which contents are taken at all. *)
From Verif Require Import Base Spec SpecUtf8 SpecKey Text SigPackets SigAttrs SigLists SpecSig.

(** 9.4: the lengths of the digests *)
Definition rfc_digest_length (h : Z) : option Z :=
  match h with 1 => Some 16 | 2 => Some 20 | 3 => Some 20 | 8 => Some 32 | 9 => Some 48 | 10 => Some 64 | 11 => Some 28 | _ => None end.
(** The contents that are taken, by type. *)
Definition accepted (emb : bytes -> Prop) (ty : Z) (d : bytes) : Prop :=
  if (ty =? 2) || (ty =? 3) || (ty =? 9) then zlen d = 4
  else if (ty =? 4) || (ty =? 7) || (ty =? 25) then d = [0] \/ d = [1]
  else if ty =? 5 then zlen d = 2
  else if ty =? 6 then exists p, d = p ++ [0]
  else if ty =? 10 then 12 <= zlen d
  else if ty =? 12 then False
  else if ty =? 16 then zlen d = 8
  else if ty =? 20 then exists flag nl vl name value, d = [flag; 0; 0; 0] ++ nl ++ vl ++ name ++ value /\ (flag = 0 \/ flag = 128) /\
      zlen nl = 2 /\ be_val nl = zlen name /\ zlen vl = 2 /\ be_val vl = zlen value
  else if ty =? 28 then valid_utf8 d
  else if (ty =? 23) || (ty =? 24) || (ty =? 26) || (ty =? 27) || (ty =? 29) || (ty =? 30) then d <> []
  else if ty =? 31 then 2 < zlen d /\ Z.even (zlen d) = true /\ exists a h r, d = a :: h :: r /\ (rfc_digest_length h = None \/ rfc_digest_length h = Some (zlen r))
  else if ty =? 32 then emb d
  else True.

(** bit number n of an octet *)
Definition flag (o n : Z) : bool := (o / 2 ^ n) mod 2 =? 1.
(** the subpacket type that holds an attribute *)
Definition rfc_place (p : prop) : Z :=
  match p with
  | P_exportable => 4 | P_trust_depth | P_trust_amount => 5 | P_revocable => 7 | P_preferred_symmetric => 11 | P_preferred_hash => 21 | P_preferred_compression => 22
  | P_no_modify => 23 | P_preferred_key_server => 24 | P_primary_user_id => 25 | P_policy_uri => 26
  | P_certify | P_sign | P_comms | P_storage | P_split | P_auth | P_owners => 27
  | P_issuer_user_id => 28 | P_revocation_code | P_revocation_reason => 29 | P_supports_md => 30
  end.
(** its value, from the content *)
Definition rfc_says (p : prop) (d : bytes) (v : value) : Prop :=
  match p with
  | P_exportable | P_revocable | P_primary_user_id => (d = [0] /\ v = VBool false) \/ (d = [1] /\ v = VBool true)
  | P_trust_depth => exists a b, d = [a; b] /\ v = VInt a
  | P_trust_amount => exists a b, d = [a; b] /\ v = VInt b
  | P_preferred_symmetric | P_preferred_hash | P_preferred_compression => v = VList d
  | P_no_modify => exists o r, d = o :: r /\ v = VBool (flag o 7)
  | P_preferred_key_server | P_policy_uri => exists t, t <> [] /\ Forall scalar t /\ d = utf8 t /\ v = VText t
  | P_certify => exists o r, d = o :: r /\ v = VBool (flag o 0)
  | P_sign => exists o r, d = o :: r /\ v = VBool (flag o 1)
  | P_comms => exists o r, d = o :: r /\ v = VBool (flag o 2)
  | P_storage => exists o r, d = o :: r /\ v = VBool (flag o 3)
  | P_split => exists o r, d = o :: r /\ v = VBool (flag o 4)
  | P_auth => exists o r, d = o :: r /\ v = VBool (flag o 5)
  | P_owners => exists o r, d = o :: r /\ v = VBool (flag o 7)
  | P_issuer_user_id => exists t, Forall scalar t /\ d = utf8 t /\ v = VText t
  | P_revocation_code => exists o r, d = o :: r /\ v = VInt o
  | P_revocation_reason => exists o t, Forall scalar t /\ d = o :: utf8 t /\ v = VText t
  | P_supports_md => exists o r, d = o :: r /\ v = VBool (flag o 0)
  end.
(** the attributes that look at the right place *)
Definition reported : list prop :=
  [P_exportable; P_preferred_symmetric; P_preferred_hash; P_preferred_compression; P_no_modify; P_preferred_key_server; P_primary_user_id; P_policy_uri;
   P_certify; P_sign; P_comms; P_storage; P_split; P_auth; P_owners; P_issuer_user_id; P_revocation_code; P_supports_md].

(** A version 4 signature body whose areas hold these subpackets; and the signature it is read as. *)
Definition holds_subpackets (data : bytes) (hashed unhashed : list triple) : Prop :=
  exists st pk ha es1 es2 h2 ms encs, rfc_area hashed es1 /\ rfc_area unhashed es2 /\ Forall2 readable_mpi ms encs /\ rfc_sig4 st pk ha (concat es1) (concat es2) h2 encs data.
Definition read_as (data : bytes) (s : sigobj) : Prop := exists v st pk ha h2 ms hs us, sig_from_content data = Ok (SigV4 v st pk ha h2 ms hs us) /\ s = sig_obj_of hs us.
(** the content of the first subpacket of a type; the contents of all of them *)
Definition first_of (ty : Z) (ts : list triple) (d : bytes) : Prop := exists a c b, ts = a ++ (ty, c, d) :: b /\ Forall (fun t : triple => fst (fst t) <> ty) a.
Definition none_of (ty : Z) (ts : list triple) : Prop := Forall (fun t : triple => fst (fst t) <> ty) ts.
Definition all_of (ty : Z) (ts : list triple) : list bytes := map snd (filter (fun t : triple => fst (fst t) =? ty) ts).
(** 5.2.3.16: a notation that is not critical, its name and value being UTF-8; the name goes up to the first @, what follows is the name space *)
Definition rfc_note (t : triple) (n : notation) : Prop :=
  exists f nl vl name value nm, t = (20, false, [f; 0; 0; 0] ++ nl ++ vl ++ utf8 name ++ utf8 value) /\ zlen nl = 2 /\ be_val nl = zlen (utf8 name) /\ zlen vl = 2 /\ be_val vl = zlen (utf8 value) /\
    Forall scalar name /\ Forall scalar value /\ (f = 0 \/ f = 128) /\ n_human n = (f =? 128) /\ ~ In 64 nm /\
    n_name n = nm /\ n_value n = value /\ (name = nm /\ n_space n = None \/ exists sp, name = nm ++ 64 :: sp /\ n_space n = Some sp).
(** 5.2.3.14: a regular expression and its final zero; what is not ASCII is shown as U+FFFD, and written as a question mark *)
Definition shown_octet (o : Z) : Z := if o <? 128 then o else 65533.
Definition written_char (c : Z) : Z := if c <? 128 then c else 63.
