(** RFC 4880 3.7.1: what the string-to-key specifiers denote. *)
From Verif Require Import Base S2k.

(** the octets hashed (before preloading): the passphrase, salt and passphrase, or salt and passphrase
    repeated and cut to [count] octets, but at least one whole salt and passphrase *)
Definition rfc_iterated (sp : bytes) (count : Z) : bytes :=
  let n := Z.max count (zlen sp) in
  firstn (Z.to_nat n) (concat (repeat sp (Z.to_nat n))).
Definition rfc_input (s : s2k) (passphrase : bytes) : bytes :=
  match s with
  | SimpleS2K _ _ => passphrase
  | SaltedS2K _ _ salt => salt ++ passphrase
  | IteratedS2K _ _ salt count => rfc_iterated (salt ++ passphrase) count
  | GnuPGS2K _ _ _ _ _ => []
  end.
(** [n] hash instances, preloaded with 0, 1, 2, ... zero octets, concatenated and cut *)
Definition rfc_key (H : bytes -> bytes) (input : bytes) (n : nat) (required : Z) : bytes :=
  firstn (Z.to_nat required) (concat (map (fun i => H (repeat 0 i ++ input)) (seq 0 n))).
(** key sizes of the ciphers (RFC 4880 9.2): Twofish has a 256-bit key *)
Definition rfc_key_length (sym : Z) : option Z :=
  match sym with
  | 0 => Some 0 | 1 => Some 16 | 2 => Some 24 | 3 => Some 16 | 4 => Some 16
  | 7 => Some 16 | 8 => Some 24 | 9 => Some 32 | 10 => Some 32
  | 11 => Some 16 | 12 => Some 24 | 13 => Some 32 | _ => None
  end.
(** digest sizes of the hash algorithms (RFC 4880 9.4) and block sizes of the ciphers (RFC 4880 9.2, RFC 5581) *)
Definition rfc_hash_length (h : Z) : option Z :=
  match h with 1 => Some 16 | 2 => Some 20 | 3 => Some 20 | 8 => Some 32 | 9 => Some 48 | 10 => Some 64 | 11 => Some 28 | _ => None end.
Definition rfc_block_length (sym : Z) : option Z :=
  match sym with 0 => Some 0 | 1 | 2 | 3 | 4 => Some 8 | 7 | 8 | 9 | 10 | 11 | 12 | 13 => Some 16 | _ => None end.
Definition s2k_ok (s : s2k) : Prop :=
  match s with
  | SimpleS2K h _ => byte h
  | SaltedS2K h _ salt => byte h /\ wf salt /\ zlen salt = 8
  | IteratedS2K h _ salt count => byte h /\ wf salt /\ zlen salt = 8 /\ exists c, byte c /\ count = (16 + c mod 16) * 2 ^ (c / 16 + 6)
  | GnuPGS2K _ _ _ _ _ => False
  end.
(** specifiers with an 8-octet salt whose count covers the whole salt and passphrase *)
Definition rfc_ok (s : s2k) (pass : bytes) : Prop :=
  match s with
  | SimpleS2K _ _ => True
  | SaltedS2K _ _ salt => zlen salt = 8
  | IteratedS2K _ _ salt count => zlen salt = 8 /\ 8 + zlen pass <= count
  | GnuPGS2K _ _ _ _ _ => False
  end.
