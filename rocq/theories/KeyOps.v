(** Model of signing and verifying with key objects: pgp/transferrable_keys.py:325-412, 490-568 and pgp/utils.py:95-177.
    Definitions only. PyCrypto's PKCS1_v1_5 and DSA are modelled after its documentation (PKCS #1 v1.5, FIPS 186). *)
From Coq Require Export Zpow_facts.
From Verif Require Import Base Utils Text S2k KeyPackets SigPackets Signable.

(** pgp/exceptions.py *)
Definition SignatureVerificationFailed := PgpError 1.
Definition UnsupportedPublicKeyAlgorithm := PgpError 2.
Definition UnsupportedDigestAlgorithm := PgpError 3.

(** BaseSignature objects of version >= 4 (pgp/signature.py:103-240); the fields of version 2 and 3 are not needed because
    their issuer_key_ids raises. *)
Record sigobj := SigObj { so_version : Z; so_type : Z; so_pk : Z; so_hash : Z; so_hash2 : bytes; so_values : list Z;
  so_hashed : list subpkt; so_unhashed : list subpkt }.
(** pgp/signature.py:250-256 _get_subpackets, 270-281 _get_subpacket_values(16, 'key_id', as_list), 325-331 *)
Definition get_subpackets (ty : Z) (hashed unhashed : list subpkt) : list subpkt :=
  filter (fun s => sub_type s =? ty) (hashed ++ unhashed).
Definition sub_key_id (s : subpkt) : res text := match sub_body s with SbIssuer k => Ok k | _ => Err AttributeError end.
Definition issuer_key_ids (s : sigobj) : res (list text) :=
  if so_version s <? 4 then Err AttributeError (* _issuer_key_ids *)
  else mapM sub_key_id (get_subpackets 16 (so_hashed s) (so_unhashed s)).

Section KeyOps.
Variable fl : Z -> Z.                       (* as in int_to_bytes *)
Variable md5 sha1 : bytes -> bytes.
Variable H : Z -> bytes -> bytes.           (* the hash functions, by algorithm number *)
Variable oid : Z -> bytes.                  (* the DER prefix of the DigestInfo, by hash algorithm *)
Variable inv : Z -> Z -> Z.                 (* Crypto.Util.number.inverse *)
Variable elg : Z -> bytes -> list Z -> res bool.  (* verification for algorithm 20 (hash algorithm, digest, values) *)

(** transferrable_keys.py:329-338 BasePublicKey.key_id *)
Definition obj_key_id (k : pubkey) : res text :=
  if k_version k <? 4 then
    match (if is_rsa_alg (k_alg k) then k_n k else if is_elg_alg (k_alg k) || (k_alg k =? 17) then k_p k else None) with
    | Some n => Ok (int_to_hex n (Some 16))
    | None => Err TypeError   (* '{:016X}'.format(None) *)
    end
  else key_id fl md5 sha1 k.

(** pgp/utils.py:157-177 get_hash_instance *)
Definition hash_supported (a : Z) : bool := match hash_lengths a with Some _ => true | None => false end.
(** transferrable_keys.py:363-386 _get_key_obj with utils.py:180-220 get_public_key_constructor: what is missing is a
    TypeError, algorithm 2 and the others are unsupported (21 raises another subclass of the same class) *)
Definition key_obj_ok (k : pubkey) : res unit :=
  let need l := if forallb (fun v => match v with Some _ => true | None => false end) l then Ok tt else Err TypeError in
  if k_alg k =? 17 then need [k_y k; k_g k; k_p k; k_q k]
  else if is_elg_alg (k_alg k) then need [k_p k; k_g k; k_y k]
  else if (k_alg k =? 1) || (k_alg k =? 3) then need [k_n k; k_e k]
  else Err UnsupportedPublicKeyAlgorithm.

(** PKCS #1 v1.5: EMSA-PKCS1-v1_5 encoding to [k] octets; ValueError when it does not fit *)
Definition emsa (k ha : Z) (digest : bytes) : res bytes :=
  let t := oid ha ++ digest in
  if k <? zlen t + 11 then Err ValueError else Ok ([0; 1] ++ repeat 255 (Z.to_nat (k - zlen t - 3)) ++ [0] ++ t).
(** octets of the modulus: ceil(size / 8) *)
Definition nbytes (n : Z) : Z := ceil8 (Z.log2 n + 1).
(** Crypto.Util.number.long_to_bytes: without leading zeros, but at least one octet *)
Definition long_to_bytes (i : Z) : bytes := if i =? 0 then [0] else be_bytes (Z.to_nat (nbytes i)) i.
(** PKCS1_v1_5.new(key).sign(hash) and then bytes_to_long: the integer em ^ d mod n *)
Definition rsa_sign (n d ha : Z) (digest : bytes) : res Z :=
  do em <- emsa (nbytes n) ha digest;;
  do m <- bytes_to_int em 0 (zlen em);;
  Ok (Zpow_mod m d n).
(** PKCS1_v1_5.new(key).verify(hash, S): False unless S has as many octets as the modulus *)
Definition rsa_verify (n e ha : Z) (digest S : bytes) : res bool :=
  if negb (zlen S =? nbytes n) then Ok false else
  do s <- bytes_to_int S 0 (zlen S);;
  let em1 := be_bytes (Z.to_nat (nbytes n)) (Zpow_mod s e n) in
  match emsa (nbytes n) ha digest with
  | Err _ => Ok false
  | Ok em2 => Ok (zlist_eqb em1 em2)
  end.
(** DSA (PyCrypto _DSAobj): sign(m, k) and verify(m, (r, s)) *)
Definition dsa_sign (p q g x m k : Z) : res (list Z) :=
  if (k <=? 1) || (q <=? k) then Err ValueError else
  let r := Zpow_mod g k p mod q in
  Ok [r; (inv k q * (m + x * r)) mod q].
Definition dsa_verify (p q g y m r s : Z) : bool :=
  if negb ((0 <? r) && (r <? q)) || negb ((0 <? s) && (s <? q)) then false else
  let w := inv s q in
  let u1 := (m * w) mod q in
  let u2 := (r * w) mod q in
  (((Zpow_mod g u1 p) * (Zpow_mod y u2 p)) mod p) mod q =? r.
(** utils.py:115-116 and 141-142 qbytes *)
Definition qbytes (q : Z) : Z := ceil8 (fl q + 1).

(** pgp/utils.py:128-154 verify_hash. `digest[start] == b'\x00'` compares an integer with bytes and is never true, so
    start stays 0; an empty digest would be an IndexError. Unpacking other than two values is a ValueError. *)
Definition verify_hash (k : pubkey) (alg ha : Z) (digest : bytes) (values : list Z) : res bool :=
  if (alg =? 1) || (alg =? 3) then
    do v <- get values 0;;
    match k_n k, k_e k with
    | Some n, Some e => rsa_verify n e ha digest (long_to_bytes v)
    | _, _ => Err TypeError
    end
  else if alg =? 20 then elg ha digest values
  else if alg =? 17 then
    match k_p k, k_q k, k_g k, k_y k with
    | Some p, Some q, Some g, Some y =>
        do _ <- get digest 0;;
        let d := slice digest 0 (qbytes q) in
        do m <- bytes_to_int d 0 (zlen d);;
        match values with
        | [r; s] => Ok (dsa_verify p q g y m r s)
        | _ => Err ValueError
        end
    | _, _, _, _ => Err TypeError
    end
  else Err ValueError.

(** transferrable_keys.py:388-412 BasePublicKey.verify *)
Definition verify (k : pubkey) (s : sigobj) (i : item) : res bool :=
  do kid <- obj_key_id k;;
  do ids <- issuer_key_ids s;;
  if negb (existsb (zlist_eqb kid) ids) then Err SignatureVerificationFailed else
  if negb (k_alg k =? so_pk s) then Err SignatureVerificationFailed else
  do _ <- key_obj_ok k;;
  if negb (hash_supported (so_hash s)) then Err UnsupportedDigestAlgorithm else
  do d <- item_signable fl i (so_version s);;
  do t <- sig_signable fl (so_version s) (so_type s) (so_pk s) (so_hash s) (so_hashed s);;
  let digest := H (so_hash s) (d ++ t) in
  if negb (zlist_eqb (slice digest 0 2) (so_hash2 s)) then Err SignatureVerificationFailed else
  do b <- verify_hash k (so_pk s) (so_hash s) digest (so_values s);;
  if (b : bool) then Ok true else Err SignatureVerificationFailed.

(** The secret values of an unlocked key: RSA exponent d, or DSA exponent x. *)
Inductive secret := SRsa (d : Z) | SDsa (x : Z) | SElg (x : Z).
(** pgp/utils.py:95-125 sign_hash. [nonce] is the random k of DSA, always below q. Algorithm 20 is not modelled. *)
Definition sign_hash (k : pubkey) (sec : secret) (nonce : Z) (alg ha : Z) (digest : bytes) : res (list Z) :=
  if (alg =? 1) || (alg =? 3) then
    match k_n k, sec with
    | Some n, SRsa d => do s <- rsa_sign n d ha digest;; Ok [s]
    | _, _ => Err TypeError
    end
  else if alg =? 17 then
    match k_p k, k_q k, k_g k, sec with
    | Some p, Some q, Some g, SDsa x =>
        let dg := slice digest 0 (qbytes q) in
        do m <- bytes_to_int dg 0 (zlen dg);;
        dsa_sign p q g x m nonce
    | _, _, _, _ => Err TypeError
    end
  else Err ValueError.
(** transferrable_keys.py:516-568 BaseSecretKey.sign. [locked] as in is_locked(), [now] = int(time.time()). [raw] : the item
    is a str or bytes rather than an object; a weak reference to a non-empty one is a TypeError (signature.py:219-220).
    The caller's list of hashed subpackets, when not empty, is itself extended: the second result is its new value. *)
Definition sign (locked : bool) (k : pubkey) (sec : secret) (nonce now : Z) (i : item) (raw : bool) (version st ha : Z) (given : list subpkt) : res (sigobj * list subpkt) :=
  if locked then Err RuntimeError else
  do _ <- key_obj_ok k;;
  if negb (hash_supported ha) then Err UnsupportedDigestAlgorithm else
  do d <- item_signable fl i version;;
  do kid <- obj_key_id k;;
  let hashed := if version =? 4 then Sub 16 false (SbIssuer kid) :: Sub 2 false (SbTime now) :: given else given in
  if (raw && negb (zlen d =? 0)) then Err TypeError else
  do t <- sig_signable fl version st (k_alg k) ha hashed;;
  let digest := H ha (d ++ t) in
  do vs <- sign_hash k sec nonce (k_alg k) ha digest;;
  Ok (SigObj version st (k_alg k) ha (slice digest 0 2) vs hashed [], match given with [] => [] | _ => hashed end).
End KeyOps.
