(** What is expected of self-signatures: which signatures count, which of them governs, and which flag belongs to which attribute. *)
From Verif Require Import Base Text SigPackets SigAttrs SpecAttrs SelfSig.

(** a self-signature of one of these types, made at this instant: one of its issuers is one of the key's own key ids *)
Definition candidate (local : Z -> res Z) (own : list text) (types : list Z) (k : ksig) (created : Z) : Prop :=
  (exists ids x, sig_issuers k = Ok ids /\ In x ids /\ In x own) /\ In (k_type k) types /\ sig_created local k = Ok created.
(** the i-th signature is one, and none is later *)
Definition latest (local : Z -> res Z) (own : list text) (types : list Z) (sigs : list ksig) (i : nat) : Prop :=
  exists k c, nth_error sigs i = Some k /\ candidate local own types k c /\
  forall j k' c', nth_error sigs j = Some k' -> candidate local own types k' c' -> c' <= c.
(** instants are after 1900, as every time of an OpenPGP packet is *)
Definition modern (local : Z -> res Z) : Prop := forall t c, local t = Ok c -> -2208988800000000 < c.
(** the seven key flags of a signature made from packets: the first flags subpacket *)
Definition has_flags (k : ksig) (f : list bool) : Prop :=
  exists h u c a1 a2 a3 a4 a5 a6 a7, k_body k = V4 (sig_obj_of h u) /\
  find (fun x => sub_type x =? 27) (h ++ u) = Some (Sub 27 c (SbFlags a1 a2 a3 a4 a5 a6 a7)) /\ f = [a1; a2; a3; a4; a5; a6; a7].
(** the flag an attribute is named after (RFC 4880 5.2.3.21, in order) *)
Definition flag_index (n : kname) : option nat :=
  match n with
  | K_certify => Some 0 | K_sign => Some 1 | K_comms => Some 2 | K_storage => Some 3 | K_auth => Some 4 | K_split => Some 5 | K_owners => Some 6 | _ => None
  end%nat.
(** the names whose value is one subpacket value of the self-signature of the same meaning *)
Definition same_named (n : kname) : option prop :=
  match n with
  | K_compression => Some P_preferred_compression | K_hash => Some P_preferred_hash | K_symmetric => Some P_preferred_symmetric
  | K_no_modify => Some P_no_modify | K_key_server => Some P_preferred_key_server | K_primary_user_id => Some P_primary_user_id | K_policy_uri => Some P_policy_uri
  | K_certify => Some P_certify | K_sign => Some P_sign | K_comms => Some P_comms | K_split => Some P_split | K_owners => Some P_owners
  | _ => None
  end.
(** the same signatures up to the signature values and what was recorded about them *)
Definition same_claims (a b : ksig) : Prop := k_type a = k_type b /\ k_body a = k_body b.
