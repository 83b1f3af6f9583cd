(** Model of pgp/parse.py:39-426 (signature packets of the packet-stream parser) and 449-513 (its user attribute subpackets). Definitions only.
    pgpdump's packet and subpacket objects are represented by the attributes that are read. *)
From Verif Require Import Base Utils Text Regex.

Definition CannotParseCritical := PgpError 60.
Definition CannotParseCriticalNotation := PgpError 61.
Definition LocalCertificationSignature := PgpError 62.
Definition UnsupportedSignatureVersion := PgpError 63.

(** the keys of the dictionary that hold one value; regex and target occur in the table only *)
Inductive field :=
| hash_algorithm_type | pub_algorithm_type | sig_type | sig_version
| creation_time | expiration_seconds | exportable | trust_level | trust_amount | regex | revocable | key_expiration_seconds | preferred_sym_algorithms
| revocation_key_sensitive | revocation_key_pub_algorithm_type | revocation_key | preferred_hash_algorithms | preferred_compression_algorithms
| key_server_no_modify | preferred_key_server | primary | policy_uri | may_certify_others | may_sign_data | may_encrypt_comms | may_encrypt_storage
| may_have_been_split | may_be_used_for_auth | may_have_multiple_owners | user_id | revocation_code | revocation_reason
| supports_modification_detection | target_pub_key_algorithm | target_hash_algorithm | target_hash | target.
Scheme Equality for field.
Inductive fval := FI (z : Z) | FB (b : bool) | FL (l : list Z) | FT (t : text).
(** parse.py:39-63 subpacket_type_to_keys *)
Definition keys_of_type (t : Z) : option (list field) :=
  match t with
  | 2 => Some [creation_time] | 3 => Some [expiration_seconds] | 4 => Some [exportable] | 5 => Some [trust_level; trust_amount] | 6 => Some [regex]
  | 7 => Some [revocable] | 9 => Some [key_expiration_seconds] | 11 => Some [preferred_sym_algorithms] | 12 => Some [revocation_key]
  | 21 => Some [preferred_hash_algorithms] | 22 => Some [preferred_compression_algorithms] | 23 => Some [key_server_no_modify]
  | 24 => Some [preferred_key_server] | 25 => Some [primary] | 26 => Some [policy_uri]
  | 27 => Some [may_certify_others; may_sign_data; may_encrypt_comms; may_encrypt_storage; may_have_been_split; may_be_used_for_auth; may_have_multiple_owners]
  | 28 => Some [user_id] | 29 => Some [revocation_code; revocation_reason] | 30 => Some [supports_modification_detection]
  | 31 => Some [target_pub_key_algorithm; target_hash_algorithm; target]
  | _ => None
  end.

Record dsub := DSub { b_type : Z; b_hashed : bool; b_critical : bool; b_data : bytes }.
Record dsig := DSig { g_version : Z; g_type : Z; g_hash : Z; g_pub : Z; g_hash2 : bytes; g_key_id : text; g_created : Z; g_subs : list dsub }.
Record notation := Notation_ { nt_name : text; nt_space : option text; nt_readable : bool; nt_value : text; nt_hashed : bool }.
(** the dictionary: single values in the order of insertion, the four lists, selfsig, and the list hashed. What an embedded signature would be
    is not needed: there never is one. *)
Record sdict := SDict { e_fields : list (field * fval); e_regexes : list (text * bool); e_ids : list (text * bool); e_notations : list notation;
                        e_self : bool; e_hashed : list field }.
Fixpoint assign1 (l : list (field * fval)) (f : field) (v : fval) : list (field * fval) :=
  match l with [] => [(f, v)] | (g, w) :: t => if field_beq g f then (g, v) :: t else (g, w) :: assign1 t f v end.
Definition assign (l : list (field * fval)) (u : list (field * fval)) : list (field * fval) := fold_left (fun l x => assign1 l (fst x) (snd x)) u l.
Fixpoint lookup (l : list (field * fval)) (f : field) : option fval := match l with [] => None | (g, v) :: t => if field_beq g f then Some v else lookup t f end.
Definition is_one (t : Z) (l : list Z) : bool := existsb (Z.eqb t) l.
Definition any (l : bytes) : bool := existsb (fun b => negb (b =? 0)) l.
Definition truth (z : Z) : bool := negb (z =? 0).

Section Sig.
(** bytes.decode('utf8', 'replace'); base64.b64encode; what pgpdump makes of an embedded signature *)
Variables (utf8r : bytes -> text) (b64 : bytes -> text) (embedded : bytes -> res dsig).
(** decode('ascii', 'replace') *)
Definition ascii_r (d : bytes) : text := map (fun c => if c <? 128 then c else 65533) d.
(** str.split('@', 1) *)
Fixpoint split_at (t : text) : text * option text :=
  match t with [] => ([], None) | c :: t => if c =? 64 then ([], Some t) else let '(a, b) := split_at t in (c :: a, b) end.
(** parse.py:66-97 parse_notation *)
Definition parse_notation (data : bytes) (hashed : bool) : res (option notation) :=
  do flags <- long_to_int data 0;;
  do name_length <- short_to_int data 4;;
  do value_length <- short_to_int data 6;;
  let name_end := 8 + name_length in
  let '(name, space) := split_at (utf8r (slice data 8 name_end)) in
  let value := slice data name_end (name_end + value_length) in
  if negb (Z.land flags 16777215 =? 0) then Ok None else
  let readable := Z.land (Z.shiftr flags 24) 255 =? 128 in
  Ok (Some (Notation_ name space readable (if readable then utf8r value else b64 value) hashed)).

(** parse.py:119-348, the subpackets that set single values: the assignments made. [self] is signature['selfsig'], [ty] signature['sig_type'].
    An exception ends the parsing of the signature, so that assignments made before it are not seen. *)
Definition simple (t : Z) (hashed critical : bool) (d : bytes) (self : bool) (ty owner : Z) : res (list (field * fval)) :=
  match t with
  | 2 => if negb hashed then Ok [] else do n <- long_to_int d 0;; Ok [(creation_time, FI n)]
  | 3 => do n <- long_to_int d 0;; Ok (if truth n then [(expiration_seconds, FI n)] else [])
  | 4 => do b <- get d 0;; if truth b then Ok [(exportable, FB true)] else Err LocalCertificationSignature
  | 5 => do a <- get d 0;; do b <- get d 1;; Ok [(trust_level, FI a); (trust_amount, FI b)]
  | 7 => do a <- get d 0;; Ok [(revocable, FB (truth a))]
  | 9 => if negb self then Ok [] else do n <- long_to_int d 0;; Ok (if truth n then [(key_expiration_seconds, FI n)] else [])
  | 11 => Ok (if self then [(preferred_sym_algorithms, FL d)] else [])
  | 12 => do a <- get d 0;; if Z.land a 128 =? 0 then Ok [] else
          do b <- get d 1;; do h <- bytearray_to_hex (slice_from d 2) 0 None;;
          Ok [(revocation_key_sensitive, FB (truth (Z.land a 64))); (revocation_key_pub_algorithm_type, FI b); (revocation_key, FT h)]
  | 21 => Ok (if self then [(preferred_hash_algorithms, FL d)] else [])
  | 22 => Ok (if self then [(preferred_compression_algorithms, FL d)] else [])
  | 23 => if negb self then Ok [] else do a <- get d 0;; Ok (if negb (Z.land a 127 =? 0) || any (slice_from d 1) then [] else [(key_server_no_modify, FB (truth (Z.land a 128)))])
  | 24 => Ok [(preferred_key_server, FT (utf8r d))]
  | 25 => if negb self then Ok [] else if negb (is_one owner [13; 17]) then Ok [] else do a <- get d 0;; Ok [(primary, FI a)]
  | 26 => Ok [(policy_uri, FT (utf8r d))]
  | 27 => do a <- get d 0;;
          let bit n := FB (truth (Z.land a n)) in
          Ok ([(may_certify_others, bit 1); (may_sign_data, bit 2); (may_encrypt_comms, bit 4); (may_encrypt_storage, bit 8); (may_be_used_for_auth, bit 32)]
              ++ (if self && is_one ty [31; 24] then [(may_have_been_split, bit 16); (may_have_multiple_owners, bit 128)] else []))
  | 28 => Ok [(user_id, FT (utf8r d))]
  | 29 => if negb (is_one ty [32; 40]) then Ok [] else do a <- get d 0;;
          Ok (if is_one a [0; 1; 2; 3; 32] || ((99 <? a) && (a <? 111)) then [(revocation_code, FI a); (revocation_reason, FT (utf8r (slice_from d 1)))] else [])
  | 30 => if negb self then Ok [] else do a <- get d 0;; Ok (if negb (Z.land a 254 =? 0) || any (slice_from d 1) then [] else [(supports_modification_detection, FI (Z.land a 1))])
  | 31 => do a <- get d 0;; do b <- get d 1;; do h <- bytearray_to_hex (slice_from d 2) 0 None;; Ok [(target_pub_key_algorithm, FI a); (target_hash_algorithm, FI b); (target_hash, FT h)]
  | _ => if critical then Err CannotParseCritical else Ok []
  end.
Definition with_fields (s : sdict) (l : list (field * fval)) : sdict := SDict l (e_regexes s) (e_ids s) (e_notations s) (e_self s) (e_hashed s).
(** parse.py:100-110 parse_embedded_signature: the ids of the parent are not passed on, and set(None) and [in None] are TypeErrors (the subpackets
    with key ids are looked at before, for version 4) *)
Definition parse_embedded (key_ids : dsig -> res unit) (d : bytes) : res sdict :=
  do g <- embedded d;;
  if is_one (g_version g) [2; 3] then Err TypeError
  else if 4 <=? g_version g then do _ <- key_ids g;; Err TypeError
  else Err UnsupportedSignatureVersion.
(** the key id of a type 16 subpacket, 221-233: eight digits of it *)
Definition issuer (b : dsub) : res (text * bool) := do h <- bytearray_to_hex (b_data b) 0 (Some 8);; Ok (h, b_hashed b).
Definition issuers (subs : list dsub) : res (list (text * bool)) := mapM issuer (filter (fun b => b_type b =? 16) subs).
(** parse.py:113-357 parse_signature_subpacket as it is called (signature_hashed=False), types other than 16 *)
Definition parse_sub (owner ty : Z) (s : sdict) (b : dsub) : res sdict :=
  let d := b_data b in
  match b_type b with
  | 6 => let r := ascii_r (slice d 0 (-1)) in
         match validate_subpacket_regex r with
         | Accept => Ok (SDict (e_fields s) (e_regexes s ++ [(r, b_hashed b)]) (e_ids s) (e_notations s) (e_self s) (e_hashed s))
         | RegexError _ => Ok s
         | Crash => Err AttributeError
         end
  | 20 => do n <- parse_notation d (b_hashed b);;
          match n with
          | None => Ok s
          | Some n => if b_critical b then Err CannotParseCriticalNotation else Ok (SDict (e_fields s) (e_regexes s) (e_ids s) (e_notations s ++ [n]) (e_self s) (e_hashed s))
          end
  | 32 => do x <- parse_embedded (fun g => do _ <- issuers (g_subs g);; Ok tt) d;; Ok x
  | t => do u <- simple t (b_hashed b) (b_critical b) d (e_self s) ty owner;; Ok (with_fields s (assign (e_fields s) u))
  end.
Fixpoint parse_subs (owner ty : Z) (s : sdict) (l : list dsub) : res sdict :=
  match l with
  | [] => Ok s
  | b :: t => if b_type b =? 16 then parse_subs owner ty s t else do s <- parse_sub owner ty s b;; parse_subs owner ty s t
  end.
(** the dictionary named hashed, 406-417: the last flag for each type, in the order of insertion *)
Fixpoint flag1 (l : list (Z * bool)) (k : Z) (v : bool) : list (Z * bool) :=
  match l with [] => [(k, v)] | (j, w) :: t => if j =? k then (j, v) :: t else (j, w) :: flag1 t k v end.
Definition flags (sig_hashed : bool) (subs : list dsub) : list (Z * bool) :=
  fold_left (fun l b => if is_one (b_type b) [6; 16; 20; 32] then l else flag1 l (b_type b) (sig_hashed || b_hashed b)) subs [].
(** 413-417; list.extend(None) is a TypeError *)
Fixpoint listed (l : list (Z * bool)) : res (list field) :=
  match l with
  | [] => Ok []
  | (k, v) :: t => if (k =? 0) || negb v then listed t else match keys_of_type k with None => Err TypeError | Some fs => do r <- listed t;; Ok (fs ++ r) end
  end.
Definition always : list field := [hash_algorithm_type; pub_algorithm_type; sig_type; sig_version].
Definition is_in (t : text) (l : list text) : bool := existsb (zlist_eqb t) l.
(** parse.py:360-426 parse_signature_packet, with the ids of the parent (parse_key passes a list). [upper] is str.upper. The hash2 text is left out. *)
Definition parse_signature_packet (upper : text -> text) (p : dsig) (parent_type : Z) (parent_key_ids : list text) (sig_hashed : bool) : res sdict :=
  let base := [(hash_algorithm_type, FI (g_hash p)); (pub_algorithm_type, FI (g_pub p)); (sig_type, FI (g_type p)); (sig_version, FI (g_version p))] in
  if is_one (g_version p) [2; 3] then
    let id := upper (g_key_id p) in
    Ok (SDict (assign base [(creation_time, FI (g_created p))]) [] [(id, true)] [] (is_in id parent_key_ids) (always ++ [creation_time]))
  else if 4 <=? g_version p then
    do ids <- issuers (g_subs p);;
    let self := existsb (fun k => is_in (fst k) parent_key_ids) ids in
    do s <- parse_subs parent_type (g_type p) (SDict base [] ids [] self always) (g_subs p);;
    do h <- listed (flags sig_hashed (g_subs p));;
    Ok (SDict (e_fields s) (e_regexes s) (e_ids s) (e_notations s) (e_self s) (e_hashed s ++ h))
  else Err UnsupportedSignatureVersion.
End Sig.

(** ** parse.py:449-513 parse_user_attribute_subpackets: what is yielded (content, mime type), and the exception that ends the generator.
    new_packet_length returns a position in the data, which is used as if it were relative to offset; p.data[sub_offset] is right. *)
Section Attr.
Variable magic : bytes -> text.
Definition image_of (parse_unknown : bool) (d : bytes) : res (list (bytes * text)) :=
  do a <- get d 0;; do b <- get d 1;;
  let header_length := a + Z.shiftl b 8 in
  do v <- get d 2;;
  if v =? 1 then
    if negb (header_length =? 16) then Ok [] else
    do f <- get d 3;;
    if any (slice d 4 16) then Ok []
    else Ok (if (f =? 1) || ((99 <? f) && (f <? 111)) then [(slice_from d 16, magic (slice d 16 1040))] else [])
  else Ok (if parse_unknown then let c := slice_from d header_length in [(c, magic (slice c 0 1024))] else []).
Fixpoint attr_subs (fuel : nat) (parse_unknown : bool) (data : bytes) (offset : Z) : list (bytes * text) * option exn :=
  match fuel with
  | O => ([], Some OutOfFuel)
  | S f =>
      if offset <? zlen data then
        match new_packet_length data offset with
        | Err e => ([], Some e)
        | Ok (sub_offset, sub_len, partial) =>
            if partial : bool then ([], None) else
            match get data sub_offset with
            | Err e => ([], Some e)
            | Ok ty =>
                let start := offset + sub_offset + 1 in
                let stop := start + sub_len in
                let d := slice data start stop in
                match (if ty =? 1 then image_of parse_unknown d else Ok []) with
                | Err e => ([], Some e)
                | Ok l => let '(r, e) := attr_subs f parse_unknown data stop in (l ++ r, e)
                end
            end
        end
      else ([], None)
  end.
Definition parse_user_attribute_subpackets (parse_unknown : bool) (data : bytes) : list (bytes * text) * option exn :=
  attr_subs (S (length data)) parse_unknown data 0.
End Attr.
