(** RFC 4880 section 6.1, "An Implementation of the CRC-24 in C":
      crc = 0xB704CE;
      while (len--) { crc ^= ( *octets++) << 16;
        for (i = 0; i < 8; i++) { crc <<= 1; if (crc & 0x1000000) crc ^= 0x1864CFB; } }
      return crc & 0xFFFFFF; *)
From Verif Require Import Base.

Definition rfc_crc_bit (crc : Z) : Z :=
  let c := Z.shiftl crc 1 in
  if Z.land c 16777216 =? 0 then c else Z.lxor c 25578747.    (* 0x1864CFB *)
Definition rfc_crc_octet (crc b : Z) : Z :=
  Nat.iter 8 rfc_crc_bit (Z.lxor crc (Z.shiftl b 16)).
Definition rfc_crc24 (data : bytes) : Z := Z.land (fold_left rfc_crc_octet data 11994318) 16777215.
