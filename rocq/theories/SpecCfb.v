(** CFB over a text of any length (NIST SP 800-38A 6.3 with segments of one block, as RFC 4880 13.9 uses it): the text
    is cut into blocks, the last of which may be short. *)
From Verif Require Import Base Cipher.

Section Cfb.
Variables (E : bytes -> bytes) (bs : nat).
(** C_j = P_j xor MSB(E(C_(j-1))), C_0 = IV *)
Fixpoint cfb_enc (n : nat) (reg data : bytes) : bytes :=
  match n with
  | O => []
  | S n' => let c := xor_bytes (firstn bs data) (E reg) in c ++ cfb_enc n' c (skipn bs data)
  end.
(** P_j = C_j xor MSB(E(C_(j-1))) *)
Fixpoint cfb_dec (n : nat) (reg data : bytes) : bytes :=
  match n with
  | O => []
  | S n' => xor_bytes (firstn bs data) (E reg) ++ cfb_dec n' (firstn bs data) (skipn bs data)
  end.
(** as many blocks as there are octets are more than enough *)
Definition rfc_cfb_enc (iv data : bytes) : bytes := cfb_enc (length data) iv data.
Definition rfc_cfb_dec (iv data : bytes) : bytes := cfb_dec (length data) iv data.
End Cfb.
