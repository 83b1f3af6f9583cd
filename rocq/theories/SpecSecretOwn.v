(** C27: what the code writes when it encrypts the numbers of a secret key itself. *)
From Verif Require Import Base Cipher SpecCfb.
Definition last_octets (n : nat) (l : bytes) : bytes := skipn (length l - n) l.
(** The OpenPGP CFB mode of RFC 4880 13.9 for messages (not the one 5.5.3 gives for secret keys): the prefix and its last two octets encrypted
    with an IV of zeros, then the text, with the last block of ciphertext as IV *)
Definition sealed (E : bytes -> bytes) (bs : nat) (prefix m : bytes) : bytes :=
  let head := rfc_cfb_enc E bs (repeat 0 bs) (prefix ++ last_octets 2 prefix) in head ++ rfc_cfb_enc E bs (last_octets bs head) m.
(** 5.5.3: the sum of the octets modulo 65536, two octets *)
Definition sum16 (m : bytes) : bytes := let s := fold_right Z.add 0 m mod 65536 in [s / 256; s mod 256].
Definition checked (sha1 : bytes -> bytes) (checksum hash : bool) (m : bytes) : bytes := m ++ (if checksum then sum16 m else []) ++ (if hash then sha1 m else []).
