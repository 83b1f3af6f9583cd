(** What is expected of attribute assignment on signatures: which attributes there are, which values they take, and which objects can occur. *)
From Verif Require Import Base Spec Text SigPackets SigAttrs.

(** a subpacket whose content belongs to its type (RFC 4880 5.2.3.1), as parsing and the constructors produce them *)
Definition well_classed (s : subpkt) : Prop :=
  match sub_body s with
  | SbUnknown => ~ In (sub_type s) [2; 3; 4; 5; 6; 7; 9; 10; 11; 12; 16; 20; 21; 22; 23; 24; 25; 26; 27; 28; 29; 30; 31; 32]
  | SbTime _ => In (sub_type s) [2; 3; 9]
  | SbBool _ => In (sub_type s) [4; 7; 25]
  | SbTrust _ _ => sub_type s = 5
  | SbRegex _ => sub_type s = 6
  | SbAddRecip _ _ _ => sub_type s = 10
  | SbAlgs _ => In (sub_type s) [11; 21; 22]
  | SbRevKey _ _ _ => sub_type s = 12
  | SbIssuer _ => sub_type s = 16
  | SbNotation _ _ _ _ => sub_type s = 20
  | SbNoModify _ => sub_type s = 23
  | SbUri _ => In (sub_type s) [24; 26]
  | SbFlags _ _ _ _ _ _ _ => sub_type s = 27
  | SbUserId _ => sub_type s = 28
  | SbReason _ _ => sub_type s = 29
  | SbFeatures _ => sub_type s = 30
  | SbTarget _ _ _ _ => sub_type s = 31
  | SbEmbedded _ => sub_type s = 32
  end.
(** a signature object that came from a packet with well-classed subpackets *)
Definition from_packet (s : sigobj) (hashed unhashed : list subpkt) : Prop :=
  Forall well_classed hashed /\ Forall well_classed unhashed /\ s = sig_obj_of hashed unhashed.

(** the attributes with a subpacket of their own *)
Definition own_flags : list prop := [P_certify; P_sign; P_comms; P_storage; P_auth; P_split; P_owners].
Definition single : list prop :=
  [P_exportable; P_issuer_user_id; P_preferred_compression; P_preferred_hash; P_preferred_symmetric; P_no_modify; P_preferred_key_server;
   P_primary_user_id; P_policy_uri; P_supports_md].
(** the values such an attribute may have *)
Definition proper (p : prop) (v : value) : Prop :=
  match p with
  | P_issuer_user_id | P_preferred_key_server | P_policy_uri => exists t, v = VText t
  | P_preferred_compression | P_preferred_hash | P_preferred_symmetric => exists l, v = VList l /\ Forall (fun x => x < 256) l
  | P_exportable | P_no_modify | P_primary_user_id | P_supports_md | P_certify | P_sign | P_comms | P_storage | P_auth | P_split | P_owners => exists b, v = VBool b
  | _ => False
  end.
(** the signature has a subpacket of this type *)
Definition has_sub (hashed unhashed : list subpkt) (ty : Z) : Prop := exists s, In s (hashed ++ unhashed) /\ sub_type s = ty.
(** an enumeration of the union of two lists, as a set *)
Definition union_of (a b order : list text) : Prop := NoDup order /\ forall k, In k order <-> In k a \/ In k b.
(** a key id as it is read from packets: 16 hexadecimal digits *)
Definition key_id_text (k : text) : Prop := exists b, wf b /\ zlen b = 8 /\ k = hex_text b.
(** every issuer subpacket holds such a key id *)
Definition issuers_ok (s : subpkt) : Prop := match sub_body s with SbIssuer k => key_id_text k | _ => True end.
