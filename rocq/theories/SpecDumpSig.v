(** RFC 4880, 5.2.3.4 onwards: what a signature subpacket of a type says. *)
From Verif Require Import Base Utils Text Spec DumpSig.

(** [tells utf8 self sigtype owner type hashed octets key value]: what a subpacket tells depends on whether the signature is a self signature, on its type, on what it is on (the packet type), and on whether the subpacket is hashed.
    Octets after the ones that are defined are not looked at. *)
Inductive tells (utf8 : bytes -> text) (self : bool) (sigtype owner : Z) : Z -> bool -> bytes -> field -> fval -> Prop :=
| t_created d r : zlen d = 4 -> tells utf8 self sigtype owner 2 true (d ++ r) creation_time (FI (be_val d))
| t_lifetime h d r : zlen d = 4 -> be_val d <> 0 -> tells utf8 self sigtype owner 3 h (d ++ r) expiration_seconds (FI (be_val d))
| t_exportable h a r : a <> 0 -> tells utf8 self sigtype owner 4 h (a :: r) exportable (FB true)
| t_trust_level h a b r : tells utf8 self sigtype owner 5 h (a :: b :: r) trust_level (FI a)
| t_trust_amount h a b r : tells utf8 self sigtype owner 5 h (a :: b :: r) trust_amount (FI b)
| t_revocable h a r : tells utf8 self sigtype owner 7 h (a :: r) revocable (FB (negb (a =? 0)))
| t_key_lifetime h d r : self = true -> zlen d = 4 -> be_val d <> 0 -> tells utf8 self sigtype owner 9 h (d ++ r) key_expiration_seconds (FI (be_val d))
| t_symmetric h d : self = true -> tells utf8 self sigtype owner 11 h d preferred_sym_algorithms (FL d)
| t_sensitive h a b r : Z.testbit a 7 = true -> tells utf8 self sigtype owner 12 h (a :: b :: r) revocation_key_sensitive (FB (Z.testbit a 6))
| t_revoker_algorithm h a b r : Z.testbit a 7 = true -> tells utf8 self sigtype owner 12 h (a :: b :: r) revocation_key_pub_algorithm_type (FI b)
| t_revoker h a b r : Z.testbit a 7 = true -> tells utf8 self sigtype owner 12 h (a :: b :: r) revocation_key (FT (hex_text r))
| t_hash h d : self = true -> tells utf8 self sigtype owner 21 h d preferred_hash_algorithms (FL d)
| t_compression h d : self = true -> tells utf8 self sigtype owner 22 h d preferred_compression_algorithms (FL d)
| t_no_modify h a r : self = true -> (a = 0 \/ a = 128) -> (forall x, In x r -> x = 0) -> tells utf8 self sigtype owner 23 h (a :: r) key_server_no_modify (FB (a =? 128))
| t_key_server h d : tells utf8 self sigtype owner 24 h d preferred_key_server (FT (utf8 d))
| t_primary h a r : self = true -> (owner = 13 \/ owner = 17) -> tells utf8 self sigtype owner 25 h (a :: r) primary (FI a)
| t_policy h d : tells utf8 self sigtype owner 26 h d policy_uri (FT (utf8 d))
| t_certify h a r : tells utf8 self sigtype owner 27 h (a :: r) may_certify_others (FB (Z.testbit a 0))
| t_sign h a r : tells utf8 self sigtype owner 27 h (a :: r) may_sign_data (FB (Z.testbit a 1))
| t_encrypt_comms h a r : tells utf8 self sigtype owner 27 h (a :: r) may_encrypt_comms (FB (Z.testbit a 2))
| t_encrypt_storage h a r : tells utf8 self sigtype owner 27 h (a :: r) may_encrypt_storage (FB (Z.testbit a 3))
| t_split h a r : self = true -> (sigtype = 0x1f \/ sigtype = 0x18) -> tells utf8 self sigtype owner 27 h (a :: r) may_have_been_split (FB (Z.testbit a 4))
| t_authenticate h a r : tells utf8 self sigtype owner 27 h (a :: r) may_be_used_for_auth (FB (Z.testbit a 5))
| t_group h a r : self = true -> (sigtype = 0x1f \/ sigtype = 0x18) -> tells utf8 self sigtype owner 27 h (a :: r) may_have_multiple_owners (FB (Z.testbit a 7))
| t_signer h d : tells utf8 self sigtype owner 28 h d user_id (FT (utf8 d))
| t_reason_code h a r : (sigtype = 0x20 \/ sigtype = 0x28) -> (0 <= a <= 3 \/ a = 32 \/ 100 <= a <= 110) -> tells utf8 self sigtype owner 29 h (a :: r) revocation_code (FI a)
| t_reason h a r : (sigtype = 0x20 \/ sigtype = 0x28) -> (0 <= a <= 3 \/ a = 32 \/ 100 <= a <= 110) -> tells utf8 self sigtype owner 29 h (a :: r) revocation_reason (FT (utf8 r))
| t_features h a r : self = true -> (a = 0 \/ a = 1) -> (forall x, In x r -> x = 0) -> tells utf8 self sigtype owner 30 h (a :: r) supports_modification_detection (FI a)
| t_target_pub h a b r : tells utf8 self sigtype owner 31 h (a :: b :: r) target_pub_key_algorithm (FI a)
| t_target_hash_alg h a b r : tells utf8 self sigtype owner 31 h (a :: b :: r) target_hash_algorithm (FI b)
| t_target_hash h a b r : tells utf8 self sigtype owner 31 h (a :: b :: r) target_hash (FT (hex_text r)).

(** RFC 4880, 5.2.3.16: flags (only the first octet is defined), lengths of name and value, name, value. What stands before and after the first @ of the name. *)
Definition at_sign (t : text) (name : text) (space : option text) : Prop :=
  ~ In 64 name /\ match space with None => t = name | Some s => t = name ++ [64] ++ s end.
Inductive noted (utf8 b64 : bytes -> text) : dsub -> list notation -> Prop :=
| noted_text b n v rest name space : b_data b = [128; 0; 0; 0] ++ be_bytes 2 (zlen n) ++ be_bytes 2 (zlen v) ++ n ++ v ++ rest -> zlen n < 2 ^ 16 -> zlen v < 2 ^ 16 -> at_sign (utf8 n) name space ->
    noted utf8 b64 b [Notation_ name space true (utf8 v) (b_hashed b)]
| noted_binary b f n v rest name space : b_data b = [f; 0; 0; 0] ++ be_bytes 2 (zlen n) ++ be_bytes 2 (zlen v) ++ n ++ v ++ rest -> 0 <= f < 256 -> f <> 128 -> zlen n < 2 ^ 16 -> zlen v < 2 ^ 16 -> at_sign (utf8 n) name space ->
    noted utf8 b64 b [Notation_ name space false (b64 v) (b_hashed b)]
| noted_undefined b f f1 f2 f3 nl vl rest : b_data b = [f; f1; f2; f3] ++ nl ++ vl ++ rest -> wf [f; f1; f2; f3] -> zlen nl = 2 -> zlen vl = 2 -> ~ (f1 = 0 /\ f2 = 0 /\ f3 = 0) -> noted utf8 b64 b [].
