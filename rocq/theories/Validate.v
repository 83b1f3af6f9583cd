(** Model of pgp/signature_verification.py:54-66 and 175-359 (validate_signature, validate_signatures and what they call). Definitions only. *)
From Verif Require Import Base Text.

Definition InvalidSubkeyBindingSignature := PgpError 70.
Definition SignatureVerificationFailed := PgpError 1.
Definition SignatureCreatedBeforeContent := PgpError 40.
Definition SignatureDigestMismatch := PgpError 75.
Definition UnexpectedSignatureType := PgpError 73.
Definition UnsupportedDigestAlgorithm := PgpError 3.
(** pgp/exceptions.py:142-196, 112-139: the subclasses of InvalidSignature (verification failed, created before content, key or signature from the future,
    invalid binding, digest mismatch, missing back signature) and of CannotValidateSignature *)
Definition is_invalid (e : exn) : bool := match e with PgpError n => existsb (Z.eqb n) [1; 40; 41; 42; 70; 75; 76] | _ => false end.
Definition is_cannot (e : exn) : bool := match e with PgpError n => existsb (Z.eqb n) [2; 3; 73] | _ => false end.

(** what is read of the signature that another one revokes *)
Record tinfo := TInfo { t_issuers : list text; t_revocable : option bool; t_created : Z }.
(** a signature object: what is read of it, and the three attributes that are set. [v_hash] is what computing the digest ends with for a version 4
    signature (get_hashed_subpacket_data and hash_packet_for_signature, 246-257), [v_revkeys] the ids read from signature.parent.revocation_keys,
    [v_target] the property target, [v_prefix] whether hash2 fits. Creation times are taken to be present. *)
Record vsig := VSig { v_version : Z; v_type : Z; v_issuers : list text; v_created : Z; v_hash : res unit; v_revkeys : res (list text); v_target : res (option tinfo); v_prefix : bool;
                      v_validated : option bool; v_expired : option bool; v_revoked : option bool }.
Definition mark (s : vsig) (m : option bool) : vsig :=
  VSig (v_version s) (v_type s) (v_issuers s) (v_created s) (v_hash s) (v_revkeys s) (v_target s) (v_prefix s) m (v_expired s) (v_revoked s).
Definition set_issuer (s : vsig) (k : bool * bool) : vsig :=
  VSig (v_version s) (v_type s) (v_issuers s) (v_created s) (v_hash s) (v_revkeys s) (v_target s) (v_prefix s) (v_validated s) (Some (fst k)) (Some (snd k)).
Definition has (t : text) (l : list text) : bool := existsb (zlist_eqb t) l.

Section V.
(** key.verify: the public key operation of the key with this id *)
Variable verify : text -> vsig -> res unit.
(** signature_verification.py:190-192: check_signature_values(key, signature, strict, current_time=current_time), where the third parameter is
    current_time: got multiple values for argument *)
Definition call_check_signature_values : res (bool * bool) := Err TypeError.
(** 184-203 check_signature. (It would pass its arguments to key_verify, 175-180, in the wrong order; it does not get that far.) *)
Definition check_signature (key : text) (s : vsig) : res (bool * bool) :=
  do r <- call_check_signature_values;;
  if negb (v_prefix s) then Err SignatureDigestMismatch else
  do _ <- verify key s;; Ok r.
(** 206-217 validate_key_signature; key.public_key_parent does not exist *)
Definition validate_key_signature (s : vsig) (key : text) : res (bool * bool) := do _ <- check_signature key s;; Err AttributeError.
(** 220-230 check_revocation_keys: None if no key fits; get_revocation_keys (54-65) is given as the ids it yields *)
Fixpoint check_revocation_keys (rks : list text) (pk : text) (s : vsig) (signing : text) : res (option (bool * bool)) :=
  match rks with
  | [] => Ok None
  | rk :: t => if zlist_eqb (slice_from rk (- zlen pk)) pk then do r <- validate_key_signature s signing;; Ok (Some r) else check_revocation_keys t pk s signing
  end.
(** 233-313 validate_signature. [pk], [signing]: key ids. [rks]: get_revocation_keys(public_key). Hashing a signature before version 4 ends in
    int_to_4byte of a datetime, at the latest. *)
Definition validate_signature (pk : text) (rks : list text) (s : vsig) (signing : text) : res (option (bool * bool)) :=
  do _ <- v_hash s;;
  if v_version s <? 4 then Err TypeError else
  let some r := do x <- r;; Ok (Some x) in
  match v_type s with
  | 32 (* 0x20 *) => if negb (has pk (v_issuers s)) then check_revocation_keys rks pk s signing else some (check_signature pk s)
  | 40 (* 0x28 *) => some (check_signature pk s)
  | 24 (* 0x18 *) => if negb (has pk (v_issuers s)) then Err InvalidSubkeyBindingSignature else some (check_signature pk s)
  | 31 (* 0x1f *) => some (check_signature pk s)
  | 16 | 17 | 18 | 19 => some (check_signature signing s)
  | 25 (* 0x19 *) => Err UnexpectedSignatureType
  | 48 (* 0x30 *) =>
      do revocation_keys <- v_revkeys s;;
      do target <- v_target s;;
      match target with
      | None => Ok (Some (false, false))
      | Some t =>
          if negb (has signing (t_issuers t)) && negb (has signing revocation_keys) then Err SignatureVerificationFailed
          else if match t_revocable t with Some false => true | _ => false end then Err SignatureVerificationFailed
          else if v_created s <? t_created t then Err SignatureCreatedBeforeContent
          else Ok (Some (false, false))
      end
  | _ => Err UnexpectedSignatureType
  end.

(** db.search(key_id=...): the ids of the keys found *)
Variable search : text -> res (list text).
(** 329-349, the loop over the issuers of one signature. [vars]: the local variables key_expired and key_revoked, which outlive the loop. Unpacking
    None is a TypeError, reading the variables before they are set an UnboundLocalError. *)
Fixpoint issuers_loop (pk : text) (rks : list text) (ids : list text) (s : vsig) (vars : option (bool * bool)) : vsig * option (bool * bool) * option exn :=
  match ids with
  | [] => (s, vars, None)
  | id :: t =>
      match (if zlist_eqb pk id then Ok [pk] else search id) with
      | Err e => (s, vars, Some e)
      | Ok [] => issuers_loop pk rks t s vars
      | Ok (signing :: _) =>
          match validate_signature pk rks s signing with
          | Ok (Some k) => (mark s (Some true), Some k, None)
          | Ok None => (s, vars, Some TypeError)
          | Err e =>
              if is_invalid e then (mark s (Some false), vars, None)
              else if is_cannot e then
                match vars with
                | None => (mark s None, vars, Some UnboundLocalError)
                | Some k => issuers_loop pk rks t (set_issuer (mark s None) k) vars
                end
              else (s, vars, Some e)
          end
      end
  end.
(** 326-349, the loop over the signatures of one target: what they are afterwards, also if there is an exception *)
Fixpoint signatures_loop (pk : text) (rks : list text) (l : list vsig) (vars : option (bool * bool)) : list vsig * option exn :=
  match l with
  | [] => ([], None)
  | s :: t =>
      match v_validated s with
      | Some _ => let '(r, e) := signatures_loop pk rks t vars in (s :: r, e)
      | None =>
          let '(s', vars, e) := issuers_loop pk rks (v_issuers s) s vars in
          match e with
          | Some e => (s' :: t, Some e)
          | None => let '(r, e) := signatures_loop pk rks t vars in (s' :: r, e)
          end
      end
  end.
(** 320-359 validate_signatures of a transferable key: [targets] are the signatures of the key itself, of each user id, user attribute and subkey, in order *)
Fixpoint validate_signatures (pk : text) (rks : list text) (targets : list (list vsig)) : list (list vsig) * option exn :=
  match targets with
  | [] => ([], None)
  | l :: t =>
      let '(l', e) := signatures_loop pk rks l None in
      match e with
      | Some e => (l' :: t, Some e)
      | None => let '(r, e) := validate_signatures pk rks t in (l' :: r, e)
      end
  end.
End V.
