(** Model of the public and secret key packets of pgp/packets/packets.py. Definitions only. *)
From Verif Require Import Base Utils S2k Cipher SymCipher.

(** pgp/packets/packets.py:741-760 the fields of a PublicKeyPacket (and of PublicSubkeyPacket, 817-841, which differs
    only in the packet type) *)
Record pubkey := PubKey { k_version : Z; k_ctime : Z; k_alg : Z; k_exp : option Z;
  k_n : option Z; k_e : option Z; k_p : option Z; k_q : option Z; k_g : option Z; k_y : option Z }.

Definition is_rsa_alg (a : Z) : bool := (a =? 1) || (a =? 2) || (a =? 3).
Definition is_elg_alg (a : Z) : bool := (a =? 16) || (a =? 20).
Definition is_v23 (v : Z) : bool := (v =? 2) || (v =? 3).

(** pgp/packets/packets.py:689-732 _values_from_packet_contents. Returns the offset and the values. *)
Definition pub_values (data : bytes) : res (Z * pubkey) :=
  do version <- get data 0;;
  do creation_time <- long_to_int data 1;;
  do (expiration_days, offset) <-
    (if is_v23 version then do e <- short_to_int data 5;; Ok (Some e, 7)
     else if 4 <=? version then Ok (None, 5) else Err ValueError);;
  do alg <- get data offset;;
  let offset := offset + 1 in
  if is_rsa_alg alg then
    do (n, offset) <- mpi_to_int data offset;;
    do (e, offset) <- mpi_to_int data offset;;
    Ok (offset, PubKey version creation_time alg expiration_days (Some n) (Some e) None None None None)
  else if is_elg_alg alg then
    do (p, offset) <- mpi_to_int data offset;;
    do (g, offset) <- mpi_to_int data offset;;
    do (y, offset) <- mpi_to_int data offset;;
    Ok (offset, PubKey version creation_time alg expiration_days None None (Some p) None (Some g) (Some y))
  else if alg =? 17 then
    do (p, offset) <- mpi_to_int data offset;;
    do (q, offset) <- mpi_to_int data offset;;
    do (g, offset) <- mpi_to_int data offset;;
    do (y, offset) <- mpi_to_int data offset;;
    Ok (offset, PubKey version creation_time alg expiration_days None None (Some p) (Some q) (Some g) (Some y))
  else Err NotImplementedError.
(** pgp/packets/packets.py:734-740 from_packet_content *)
Definition pub_from_content (data : bytes) : res pubkey := do (_, k) <- pub_values data;; Ok k.

(** int_to_mpi of an attribute that may be None: comparing None with 0 is a TypeError *)
Definition opt_mpi (fl : Z -> Z) (v : option Z) : res bytes :=
  match v with Some i => int_to_mpi fl i | None => Err TypeError end.
(** pgp/packets/packets.py:777-806 public_content, content. `raise NotImplemented` is a TypeError. The warning for
    algorithm 20 is not modelled. *)
Definition pub_content (fl : Z -> Z) (k : pubkey) : res bytes :=
  do v <- mk_bytes [k_version k];;
  do x <- (if is_v23 (k_version k) then match k_exp k with Some e => Ok (int_to_2byte e) | None => Err TypeError end
           else Ok []);;
  do a <- mk_bytes [k_alg k];;
  let head := v ++ int_to_4byte (k_ctime k) ++ x ++ a in
  if is_rsa_alg (k_alg k) then
    do n <- opt_mpi fl (k_n k);; do e <- opt_mpi fl (k_e k);; Ok (head ++ n ++ e)
  else if is_elg_alg (k_alg k) then
    do p <- opt_mpi fl (k_p k);; do g <- opt_mpi fl (k_g k);; do y <- opt_mpi fl (k_y k);; Ok (head ++ p ++ g ++ y)
  else if k_alg k =? 17 then
    do p <- opt_mpi fl (k_p k);; do q <- opt_mpi fl (k_q k);; do g <- opt_mpi fl (k_g k);; do y <- opt_mpi fl (k_y k);;
    Ok (head ++ p ++ q ++ g ++ y)
  else Err TypeError.

(** pgp/packets/packets.py:808-813 get_content_for_signature_hash (= pgp/utils.py:422-428 hash_key of the content);
    a content of 65536 octets or more has its length cut to two octets *)
Definition hash_key (key_data : bytes) : bytes := [153] ++ int_to_2byte (zlen key_data) ++ key_data.
(** pgp/utils.py:890-913 key_packet_fingerprint: upper-case hexadecimal text. [md5] and [sha1] are the hashes. Below
    version 4 the attributes modulus_n, prime_p, ... are read, which packets do not have (AttributeError), except that
    for other algorithms nothing is hashed at all. *)
Definition hexdigest (h : bytes) : res (list Z) := bytearray_to_hex h 0 None.
Definition fingerprint (fl : Z -> Z) (md5 sha1 : bytes -> bytes) (k : pubkey) : res (list Z) :=
  if k_version k <? 4 then
    if is_rsa_alg (k_alg k) || is_elg_alg (k_alg k) then Err AttributeError else hexdigest (md5 [])
  else
    do c <- pub_content fl k;;
    hexdigest (sha1 (hash_key c)).
(** pgp/packets/packets.py:815-817 key_id: the last 16 digits *)
Definition key_id (fl : Z -> Z) (md5 sha1 : bytes -> bytes) (k : pubkey) : res (list Z) :=
  do f <- fingerprint fl md5 sha1 k;; Ok (slice_from f (-16)).

(** pgp/packets/packets.py:894-947 the fields of a SecretKeyPacket, without the passphrase and the decrypted values *)
Record seckey := SecKey { s_pub : pubkey; s_s2k : option s2k; s_sym : Z; s_iv : bytes; s_enc : bytes; s_checksum : bool; s_hash : bool }.

(** pgp/packets/packets.py:846-892 and 905-906: _values_from_packet_contents and the None test of __init__. For usage
    octets 0 and 101 the variable iv is never bound (UnboundLocalError); for usage octets other than 254 and 255 the
    specifier is None and __init__ raises ValueError. *)
Definition sec_from_content (data : bytes) : res seckey :=
  do (offset, k) <- pub_values data;;
  do usage <- get data offset;;
  let offset := offset + 1 in
  do (spec, sym, offset) <-
    (if usage =? 0 then Ok (None, 0, offset)
     else if (usage =? 254) || (usage =? 255) then
       do sym <- get data offset;;
       do (s, offset) <- parse_s2k_bytes sym data (offset + 1);; Ok (Some s, sym, offset)
     else Ok (None, usage, offset));;
  if (usage =? 0) || (usage =? 101) then Err UnboundLocalError else
  match symmetric_cipher_block_lengths sym with
  | None => Err ValueError
  | Some bl =>
      let iv := slice data offset (offset + bl) in
      let offset := offset + bl in
      let encrypted_portion := slice_from data offset in
      match spec with
      | None => Err ValueError
      | Some s => Ok (SecKey k (Some s) sym iv encrypted_portion (usage =? 255) (usage =? 254))
      end
  end.

(** pgp/packets/packets.py:1063-1085 content, for a packet with encrypted material. An empty portion is recomputed by
    encrypting the secret values (1086-1101), which is the parameter [recompute]. *)
Definition sec_content (fl : Z -> Z) (recompute : res bytes) (k : seckey) : res bytes :=
  do p <- pub_content fl (s_pub k);;
  do u <- match s_s2k k with Some s => do b <- s2k_bytes fl s;; Ok (Some b) | None => Ok None end;;
  do a <- mk_bytes [s_sym k];;
  do e <- match s_enc k with [] => recompute | e => Ok e end;;
  Ok (p ++ match u with
           | Some b => [if s_checksum k then 255 else 254] ++ a ++ b
           | None => a
           end ++ (if s_sym k =? 0 then [] else s_iv k) ++ e).

(** pgp/packets/packets.py:1053-1060 the loop that cuts the decrypted material into values *)
Fixpoint read_values (fuel : nat) (d : bytes) (offset data_length : Z) (acc : list Z) : res (list Z) :=
  if offset <? data_length then
    match fuel with
    | O => Err OutOfFuel
    | S n => do (v, offset) <- mpi_to_int d offset;; read_values n d offset data_length (acc ++ [v])
    end
  else Ok acc.
(** pgp/packets/packets.py:995-1010,1033-1061 decrypt_encrypted_key_portion for version >= 4. With a checksum,
    int_to_2byte is applied to a byte string (TypeError). [sha1] is SHA-1. *)
Definition decrypt_portion_v4 (E : Z -> bytes -> bytes -> bytes) (sha1 : bytes -> bytes) (key : option bytes) (sym : Z)
    (iv data : bytes) (checksum hash : bool) : res (list Z) :=
  let bs := match symmetric_cipher_block_lengths sym with Some b => b | None => 8 end in
  do o <- get_cfb_cipher sym key iv;;
  let padding := bs - zlen data mod bs in
  let k := match key with Some k => k | None => [] end in
  do (r, _) <- sym_decrypt E sym k o (data ++ repeat 0 (Z.to_nat padding));;
  let d := slice r 0 (- padding) in
  if checksum then Err TypeError else
  if hash then
    if negb (zlist_eqb (slice_from d (-20)) (sha1 (slice d 0 (-20)))) then Err ValueError
    else read_values (S (length d)) d 0 (zlen d - 20) []
  else read_values (S (length d)) d 0 (zlen d) [].
(** pgp/packets/packets.py:962-971 the data that encrypt_key_values encrypts: the MPIs of the values *)
Fixpoint key_values_data (fl : Z -> Z) (values : list Z) : res bytes :=
  match values with
  | [] => Ok []
  | v :: t => do b <- int_to_mpi fl v;; do r <- key_values_data fl t;; Ok (b ++ r)
  end.

(** PyCrypto's documented MODE_OPENPGP for encryption: the IV and its last two octets are CFB-encrypted with a zero IV;
    the data that follow are CFB-encrypted with the last block of that as IV, and the first call returns the encrypted
    IV as well. One call whose length is not a multiple of the block is allowed. *)
Record pgp_obj := PgpObj { po_eiv : bytes; po_c : cobj; po_first : bool; po_last : bool }.
Definition openpgp_new (E : Z -> bytes -> bytes -> bytes) (sym : Z) (key : option bytes) (iv : bytes) : res pgp_obj :=
  match symmetric_cipher_block_lengths sym with
  | None => Err AttributeError
  | Some bs =>
      do o <- get_cfb_cipher sym key (repeat 0 (Z.to_nat bs));;
      let k := match key with Some k => k | None => [] end in
      if negb (zlen iv =? bs) then Err ValueError else
      do (r, _) <- sym_encrypt E sym k o (iv ++ slice_from iv (-2) ++ repeat 0 (Z.to_nat (bs - 2)));;
      let eiv := slice r 0 (bs + 2) in
      do o2 <- get_cfb_cipher sym key (slice_from eiv (- bs));;
      Ok (PgpObj eiv o2 false false)
  end.
Definition openpgp_encrypt (E : Z -> bytes -> bytes -> bytes) (sym : Z) (k : bytes) (p : pgp_obj) (d : bytes) : res (bytes * pgp_obj) :=
  let bs := match symmetric_cipher_block_lengths sym with Some b => b | None => 8 end in
  let padding := (bs - zlen d mod bs) mod bs in
  if (0 <? padding) && po_last p then Err ValueError else
  do (r, o) <- sym_encrypt E sym k (po_c p) (d ++ repeat 0 (Z.to_nat padding));;
  let r := slice r 0 (zlen d) in
  Ok ((if po_first p then r else po_eiv p ++ r), PgpObj (po_eiv p) o true (po_last p || (0 <? padding))).
(** pgp/packets/packets.py:955-993 encrypt_key_values for version >= 4 *)
Definition encrypt_key_values_v4 (fl : Z -> Z) (E : Z -> bytes -> bytes -> bytes) (sha1 : bytes -> bytes) (values : list Z) (key : bytes)
    (sym : Z) (iv : bytes) (checksum hash : bool) : res bytes :=
  do p <- openpgp_new E sym (Some key) iv;;
  do d <- key_values_data fl values;;
  do (e, p) <- openpgp_encrypt E sym key p d;;
  do (c, p) <- (if checksum then openpgp_encrypt E sym key p (int_to_2byte (Z.land (fold_left Z.add d 0) 65535)) else Ok ([], p));;
  do (h, p) <- (if hash then openpgp_encrypt E sym key p (sha1 d) else Ok ([], p));;
  Ok (e ++ c ++ h).
