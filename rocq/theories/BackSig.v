(** Model of pgp/signature_verification.py:68-100 check_back_signatures and 165-172 get_hashed_subpacket_data. Definitions only. *)
From Verif Require Import Base Text SigPackets SigAttrs SigLists SelfSig.

(** pgp/exceptions.py:163-167 *)
Definition MissingBackSignature := PgpError 76.
(** 165-172, for a signature of version 4: the octets of the hashed subpackets *)
Definition hashed_octets (fl : Z -> Z) (s : sigobj) : res (list bytes) := mapM (fun o => do x <- sub_of o;; sub_bytes fl x) (so_hashed s).
Definition emb_type (e : embedded) : Z :=
  match b_sig e with SigV3 _ st _ _ _ _ _ _ => st | SigV4 _ st _ _ _ _ _ _ => st end.
(** 74-92: the loop over the embedded signatures. [target] is the outcome of reading the property target (signature.py:806-834, SelfSig.v target_of);
    line 79 calls it - None or a signature object - and neither can be called: TypeError. What follows is never reached. *)
Fixpoint back_loop (hashed : res (list bytes)) (target : res (option nat)) (l : list embedded) : res unit :=
  match l with
  | [] => Ok tt
  | e :: t =>
      if emb_type e =? 25 (* 0x19 *) then
        do _ <- hashed;; do _ <- target;; Err TypeError
      else back_loop hashed target t
  end.
(** 68-100. [sigs], [i]: the signatures of the object the binding signature is on, and its place among them. *)
Definition check_back_signatures (fl : Z -> Z) (sigs : list ksig) (i : nat) (s : sigobj) : res unit :=
  do embs <- get_embedded s;;
  do _ <- back_loop (hashed_octets fl s) (target_of sigs i s) embs;;
  do v <- get_prop s P_sign;;
  if truthy v then Err MissingBackSignature else Ok tt.
