(** Model of the octets that are hashed for a signature: pgp/utils.py:422-526 and the to_signable_data methods of
    pgp/transferrable_keys.py and pgp/signature.py. Definitions only. *)
From Verif Require Import Base Utils KeyPackets SigPackets.

(** pgp/utils.py:437-454 hash_user_data *)
Definition hash_user_data (target_type : Z) (d : bytes) (signature_version : Z) : bytes :=
  if target_type =? 13 then (if 4 <=? signature_version then [180] ++ int_to_4byte (zlen d) else []) ++ d
  else if target_type =? 17 then (if 4 <=? signature_version then [209] ++ int_to_4byte (zlen d) else []) ++ d
  else [].

(** pgp/utils.py:457-509, the part that depends on what is signed. [ptype] and [d] are packet_for_hash.type and .content,
    [pk] is public_key_packet.content. The assertions fire when no public key packet was given. Appending a length
    above 255 is a ValueError. *)
Definition hash_target (st version ptype : Z) (d : bytes) (pk : option bytes) : res bytes :=
  let with_key k := match pk with Some p => k p | None => Err AssertionError end in
  if (st =? 31) || (st =? 32) then with_key (fun p => Ok (hash_key p))
  else if (st =? 24) || (st =? 25) || (st =? 40) then with_key (fun p => Ok (hash_key p ++ hash_key d))
  else if (st =? 80) then do l <- mk_bytes [zlen d];; Ok ([136] ++ l ++ d)
  else if (st =? 0) || (st =? 1) then Ok d
  else if st =? 2 then Ok []
  else if (st =? 16) || (st =? 17) || (st =? 18) || (st =? 19) || (st =? 48) then
    with_key (fun p => Ok (hash_key p ++ hash_user_data ptype d version))
  else if st =? 64 then do l <- mk_bytes [zlen d];; Ok ([136] ++ l ++ d)
  else Ok [].

(** pgp/utils.py:511-524, the part that depends on the signature; also pgp/signature.py:182-202 to_signable_data for
    versions above 3. [hashed] is the concatenation of the hashed subpackets. *)
Definition hash_trailer (st version pk_alg hash_alg ctime : Z) (hashed : bytes) : res bytes :=
  if version <? 4 then do t <- mk_bytes [st];; Ok (t ++ int_to_4byte ctime)
  else
    do h <- mk_bytes [version; st; pk_alg; hash_alg];;
    Ok (h ++ int_to_2byte (zlen hashed) ++ hashed ++ [version; 255] ++ int_to_4byte (zlen hashed + 6)).

(** pgp/utils.py:457-526 hash_packet_for_signature: everything given to the hash. [fake] is fake_hash_algorithm_type
    (0 for None; `fake or hash`). *)
Definition hashed_octets (st version ptype : Z) (d : bytes) (pk : option bytes) (pk_alg hash_alg fake ctime : Z) (hashed : bytes) : res bytes :=
  do t <- hash_target st version ptype d pk;;
  do u <- hash_trailer st version pk_alg (if fake =? 0 then hash_alg else fake) ctime hashed;;
  Ok (t ++ u).

(** The objects that can be signed, with the packet contents their to_packet() gives. *)
Inductive item :=
| IBytes (d : bytes)            (* octets; text is first encoded; LiteralMessage.to_signable_data gives its data *)
| IPublic (k : pubkey)
| IPublicSub (primary k : pubkey)
| ISecret (k : pubkey)          (* the public values of a secret key *)
| ISecretSub (primary k : pubkey)
| IUserId (primary : pubkey) (d : bytes)
| IUserAttr (primary : pubkey) (d : bytes).
(** transferrable_keys.py:244-250 BasePublicKey.to_signable_data *)
Definition key_signable (fl : Z -> Z) (k : pubkey) : res bytes := do c <- pub_content fl k;; Ok (hash_key c).
(** transferrable_keys.py:634-640 PublicSubkey, 459-461 BaseSecretKey, 686-695 UserID, 828-837 UserAttribute. A
    SecretSubkey inherits PublicSubkey's method, whose super() call reaches BaseSecretKey's, which converts to a
    PublicSubkey and calls PublicSubkey's method again. *)
Definition public_sub_signable (fl : Z -> Z) (primary k : pubkey) : res bytes :=
  do a <- key_signable fl primary;; do b <- key_signable fl k;; Ok (a ++ b).
Definition item_signable (fl : Z -> Z) (i : item) (version : Z) : res bytes :=
  match i with
  | IBytes d => Ok d
  | IPublic k => key_signable fl k
  | IPublicSub p k => public_sub_signable fl p k
  | ISecret k => key_signable fl k
  | ISecretSub p k => do a <- key_signable fl p;; do b <- public_sub_signable fl p k;; Ok (a ++ b)
  | IUserId p d => do a <- key_signable fl p;; Ok (a ++ (if 4 <=? version then [180] ++ int_to_4byte (zlen d) else []) ++ d)
  | IUserAttr p d => do a <- key_signable fl p;; Ok (a ++ (if 4 <=? version then [209] ++ int_to_4byte (zlen d) else []) ++ d)
  end.
(** pgp/signature.py:182-202 to_signable_data. Below version 4 int_to_4byte is applied to the float of time.mktime
    (or fails before that): TypeError. *)
Definition sig_signable (fl : Z -> Z) (version st pk_alg hash_alg : Z) (hashed : list subpkt) : res bytes :=
  if version <? 4 then do _ <- mk_bytes [st];; Err TypeError else
  do _ <- mk_bytes [version; st; pk_alg; hash_alg];;
  do h <- subs_bytes fl hashed;;
  hash_trailer st version pk_alg hash_alg 0 h.
