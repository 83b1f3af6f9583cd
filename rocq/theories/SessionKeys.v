(** Model of the session-key and one-pass signature packets of pgp/packets/packets.py. Definitions only. *)
From Verif Require Import Base Utils S2k Cipher SymCipher.

(** Python sum(l) *)
Definition zsum (l : list Z) : Z := fold_left Z.add l 0.

(** pgp/packets/packets.py:264-269 (in _get_encrypted_key): the block that is public-key encrypted. bytearray.insert
    raises ValueError for an algorithm outside 0..255; [session_key] is a byte string. *)
Definition session_block (symmetric_algorithm : Z) (session_key : bytes) : res bytes :=
  let checksum := zsum session_key mod 65536 in
  do a <- mk_bytes [symmetric_algorithm];;
  Ok (a ++ session_key ++ [Z.shiftr checksum 8; Z.land checksum 255]).
(** pgp/packets/packets.py:242-251 (in _get_key_and_cipher_algo) *)
Definition read_session_block (m : bytes) : res (Z * bytes) :=
  do symmetric_algorithm <- get m 0;;
  do hi <- get m (-2);;
  do lo <- get m (-1);;
  let expected_checksum := Z.shiftl hi 8 + lo in
  let actual_checksum := zsum (slice m 1 (-2)) mod 65536 in
  if negb (expected_checksum =? actual_checksum) then Err ValueError
  else Ok (symmetric_algorithm, slice m 1 (-2)).

(** pgp/packets/packets.py:211-218: the loop that cuts the encrypted session key into MPI bodies *)
Fixpoint read_ems (fuel : nat) (esk : bytes) (offset : Z) (ems : list bytes) : res (list bytes) :=
  if offset <? zlen esk - 2 then
    match fuel with
    | O => Err OutOfFuel
    | S n =>
        do mpilen <- mpi_length esk offset;;
        let offset := offset + 2 in
        read_ems n esk (offset + mpilen) (ems ++ [slice esk offset (offset + mpilen)])
    end
  else Ok ems.

Definition is_rsa (a : Z) : bool := (a =? 1) || (a =? 2) || (a =? 3).

(** pgp/packets/packets.py:197-251 _get_key_and_cipher_algo. [dec ems] is cipher.decrypt applied to the MPI bodies (a
    single one, or a tuple): [Ok None] stands for the random sentinel. Algorithms 17 and 19 are refused after
    decryption; others fall through to the block check. *)
Definition get_key_and_cipher_algo (dec : list bytes -> res (option bytes)) (public_key_algorithm : Z) (esk : bytes)
    : res (Z * bytes) :=
  do ems <- read_ems (length esk) esk 0 [];;
  do r <- dec ems;;
  match r with
  | None => Err ValueError
  | Some m =>
      if (public_key_algorithm =? 17) || (public_key_algorithm =? 19) then Err NotImplementedError
      else read_session_block m
  end.

(** pgp/packets/packets.py:253-285 _get_encrypted_key for RSA and ElGamal (1, 2, 3, 16). [enc block] is
    cipher.encrypt: one byte string for RSA, two for ElGamal. *)
Fixpoint mpis_of (fl : Z -> Z) (values : list bytes) : res bytes :=
  match values with
  | [] => Ok []
  | v :: t => do i <- bytes_to_int v 0 (zlen v);; do b <- int_to_mpi fl i;; do r <- mpis_of fl t;; Ok (b ++ r)
  end.
Definition get_encrypted_key (fl : Z -> Z) (enc : bytes -> res (list bytes)) (symmetric_algorithm : Z) (session_key : bytes)
    : res bytes :=
  do block <- session_block symmetric_algorithm session_key;;
  do values <- enc block;;
  mpis_of fl values.

(** PKCS#1 v1.5 padding, shared by Crypto.Cipher.PKCS1_v1_5 and pgp/packets/packets.py:39-84. [k] is the modulus
    length in octets and [ps] the non-zero random octets drawn by encrypt, given one for each position. *)
Definition pkcs1_pad (k : Z) (ps : bytes) (message : bytes) : res bytes :=
  if k - 11 <? zlen message then Err ValueError
  else Ok ([0; 2] ++ slice ps 0 (k - zlen message - 3) ++ [0] ++ message).
(** bytes.find(b'\x00', start) *)
Fixpoint find_zero (l : bytes) (i : Z) : Z :=
  match l with [] => -1 | x :: t => if x =? 0 then i else find_zero t (i + 1) end.
(** [None]: the sentinel *)
Definition pkcs1_unpad (em : bytes) : option bytes :=
  let sep := match em with _ :: _ :: t => find_zero t 2 | _ => -1 end in
  if negb (zlist_eqb (slice em 0 2) [0; 2]) || (sep <? 10) then None
  else Some (slice_from em (sep + 1)).
(** PyCrypto long_to_bytes: no leading zeros, b'\x00' for 0 *)
Definition long_to_bytes (i : Z) : bytes := be_bytes (Z.to_nat (if i =? 0 then 1 else Z.log2 i / 8 + 1)) i.
(** b'\x00' * (k - len(m)) + m *)
Definition left_pad (k : Z) (m : bytes) : bytes := repeat 0 (Z.to_nat (k - zlen m)) ++ m.
(** the big-endian value (OS2IP / bytes_to_long) *)
Definition os2ip (b : bytes) : Z := fold_left (fun a x => 256 * a + x) b 0.

(** Crypto.Cipher.PKCS1_v1_5 with the RSA permutation [f] (public) and its inverse [g] (secret). The ciphertext must
    have the length of the modulus. *)
Definition rsa_encrypt (k : Z) (f : Z -> Z) (ps : bytes) (message : bytes) : res (list bytes) :=
  do em <- pkcs1_pad k ps message;; Ok [left_pad k (long_to_bytes (f (os2ip em)))].
Definition rsa_decrypt (k : Z) (g : Z -> Z) (ems : list bytes) : res (option bytes) :=
  match ems with
  | [ct] => if negb (zlen ct =? k) then Err ValueError
            else Ok (pkcs1_unpad (left_pad k (long_to_bytes (g (os2ip ct)))))
  | _ => Err ValueError   (* len of the tuple is not k *)
  end.

(** pgp/packets/packets.py:39-84 PKCS115_ElGamal_Cipher over PyCrypto's ElGamal: encrypt(em, K) is
    (g^K mod p, y^K * em mod p); the code passes K = 0. [D] is the secret-key operation. *)
Record elg_pub := ElgPub { elg_p : Z; elg_g : Z; elg_y : Z }.
Definition elg_raw_encrypt (key : elg_pub) (m K : Z) : Z * Z :=
  (elg_g key ^ K mod elg_p key, (elg_y key ^ K * m) mod elg_p key).
(** (p.bit_length() + 7) // 8 *)
Definition elg_k (key : elg_pub) : Z := (Z.log2 (elg_p key) + 1 + 7) / 8.
Definition elg_encrypt (key : elg_pub) (ps : bytes) (message : bytes) : res (list bytes) :=
  do em <- pkcs1_pad (elg_k key) ps message;;
  let '(a, b) := elg_raw_encrypt key (os2ip em) 0 in
  Ok [long_to_bytes a; long_to_bytes b].
Definition elg_decrypt (key : elg_pub) (D : Z * Z -> Z) (ems : list bytes) : res (option bytes) :=
  match ems with
  | a :: b :: _ => Ok (pkcs1_unpad (left_pad (elg_k key) (long_to_bytes (D (os2ip a, os2ip b)))))
  | _ => Err IndexError
  end.

(** pgp/packets/packets.py:158-184: a public-key encrypted session key packet. key ids are text. *)
Record pkesk := Pkesk { pk_version : Z; pk_key_id : option (list Z); pk_alg : Z; pk_esk : bytes }.
(** pgp/packets/packets.py:158-177. The comparison of a text with b'0' * 16 is always false: the key id is never None. *)
Definition pkesk_from_content (data : bytes) : res pkesk :=
  do version <- get data 0;;
  do key_id <- bytearray_to_hex data 1 (Some 16);;
  do alg <- get data 9;;
  Ok (Pkesk version (Some key_id) alg (slice_from data 10)).
(** pgp/packets/packets.py:287-296 *)
Definition pkesk_content (p : pkesk) : res bytes :=
  let key_id := match pk_key_id p with Some k => k | None => repeat 48 16 end in
  do v <- mk_bytes [pk_version p];;
  do k <- hex_to_bytes key_id (Some 8);;
  do a <- mk_bytes [pk_alg p];;
  Ok (v ++ k ++ a ++ pk_esk p).

(** pgp/packets/packets.py:525-554: a symmetric-key encrypted session key packet *)
Record skesk := Skesk { sk_version : Z; sk_sym : Z; sk_s2k : s2k; sk_esk : option bytes }.
Definition skesk_from_content (data : bytes) : res skesk :=
  do version <- get data 0;;
  do sym <- get data 1;;
  do (s, offset) <- parse_s2k_bytes sym data 2;;
  match symmetric_cipher_key_lengths sym with
  | None => Err TypeError
  | Some n => Ok (Skesk version sym s (Some (slice data offset (offset + n + 1))))
  end.
(** pgp/packets/packets.py:621-628 *)
Definition skesk_content (fl : Z -> Z) (p : skesk) : res bytes :=
  do h <- mk_bytes [sk_version p; sk_sym p];;
  do s <- s2k_bytes fl (sk_s2k p);;
  Ok (h ++ s ++ match sk_esk p with Some e => e | None => [] end).

(** pgp/packets/packets.py:571-603 _get_key_and_cipher_algo. [H] is the hash oracle of S2k. The length of the padding
    is between 1 and a block. The key is None for a GnuPG specifier. *)
Definition skesk_get_key (H : Z -> bytes -> bytes) (E : Z -> bytes -> bytes -> bytes) (s : s2k) (sym : Z) (pass : bytes) (esk : option bytes)
    : res (Z * option bytes) :=
  do key <- to_key H s pass;;
  match esk with
  | None | Some [] => Ok (sym, key)
  | Some e =>
      match symmetric_cipher_block_lengths sym with
      | None => Err TypeError
      | Some bs =>
          do o <- get_cfb_cipher sym key (repeat 0 (Z.to_nat bs));;
          let padding := bs - zlen e mod bs in
          let k := match key with Some k => k | None => [] end in
          do (r, _) <- sym_decrypt E sym k o (e ++ repeat 0 (Z.to_nat padding));;
          let d := slice r 0 (- padding) in
          do a <- get d 0;;
          Ok (a, Some (slice_from d 1))
      end
  end.
(** pgp/packets/packets.py:605-619 _get_encrypted_key *)
Definition skesk_encrypt_key (H : Z -> bytes -> bytes) (E : Z -> bytes -> bytes -> bytes) (s : s2k) (sym : Z) (pass session_key : bytes) : res bytes :=
  do key <- to_key H s pass;;
  match symmetric_cipher_block_lengths (s2k_sym s) with
  | None => Err TypeError
  | Some bs =>
      do o <- get_cfb_cipher (s2k_sym s) key (repeat 0 (Z.to_nat bs));;
      do a <- mk_bytes [sym];;
      let data := a ++ session_key in
      let padding := bs - zlen data mod bs in
      let k := match key with Some k => k | None => [] end in
      do (r, _) <- sym_encrypt E (s2k_sym s) k o (data ++ repeat 0 (Z.to_nat padding));;
      Ok (slice r 0 (- padding))
  end.

(** pgp/packets/packets.py:631-684: a one-pass signature packet *)
Record onepass := OnePass { op_version : Z; op_sigtype : Z; op_hash : Z; op_pk : Z; op_key_id : list Z; op_nested : Z }.
Definition onepass_from_content (data : bytes) : res onepass :=
  do version <- get data 0;;
  do sigtype <- get data 1;;
  do hash <- get data 2;;
  do pk <- get data 3;;
  do key_id <- bytearray_to_hex data 4 (Some 8);;
  do nested <- get data 12;;
  Ok (OnePass version sigtype hash pk key_id nested).
Definition onepass_content (p : onepass) : res bytes :=
  do h <- mk_bytes [op_version p; op_sigtype p; op_hash p; op_pk p];;
  do k <- hex_to_bytes (op_key_id p) (Some 8);;
  do n <- mk_bytes [op_nested p];;
  Ok (h ++ k ++ n).
