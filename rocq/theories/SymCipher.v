(** Model of pgp/utils.py:243-297 get_symmetric_cipher in CFB mode, the only mode the modelled callers use, and of
    "encrypt, padded to whole blocks". [E alg key] is the block encryption of the cipher numbered [alg] in the table of
    get_symmetric_cipher (PyCrypto's for 2, 3, 4, 7, 8, 9; C45 and C46 cover the implementations in pgp/cipher).
    PyCrypto's CFB objects are modelled by the same object as those of pgp/cipher/base.py. Definitions only. *)
From Verif Require Import Base Utils S2k Cipher.

(** key sizes the cipher modules accept: pgp/cipher/aidea.py:161, twofish.py:38, camellia.py:39; DES3, CAST, Blowfish
    and AES are PyCrypto's documented ones *)
Definition cipher_key_sizes (alg : Z) : list Z :=
  if alg =? 1 then [16] else if alg =? 2 then [16; 24] else
  if alg =? 3 then map (fun n => n + 5) (zrange 12) else if alg =? 4 then map (fun n => n + 4) (zrange 53) else
  [16; 24; 32].

(** pgp/utils.py:243-297 with mode = CFB and segment_size = None: the segment is one block. Cipher 0 is NoopCipher and
    unknown numbers are None, neither of which has a block_size: AttributeError. bytes(None) is a TypeError. *)
Definition get_cfb_cipher (alg : Z) (key : option bytes) (iv : bytes) : res cobj :=
  match symmetric_cipher_block_lengths alg with
  | None => Err AttributeError
  | Some bs =>
      if alg =? 0 then Err AttributeError else
      match key with
      | None => Err TypeError
      | Some k => cipher_new bs (cipher_key_sizes alg) k MODE_CFB (Some iv) false (bs * 8)
      end
  end.

(** no counter is used in CFB *)
Definition no_ctr (n : nat) : bytes := [].
Definition sym_encrypt (E : Z -> bytes -> bytes -> bytes) (alg : Z) (key : bytes) (o : cobj) (d : bytes) : res (bytes * cobj) :=
  cipher_encrypt (E alg key) no_ctr o d.
(** CFB never uses the block decryption, so the identity stands for it *)
Definition sym_decrypt (E : Z -> bytes -> bytes -> bytes) (alg : Z) (key : bytes) (o : cobj) (d : bytes) : res (bytes * cobj) :=
  cipher_decrypt (E alg key) (fun b => b) no_ctr o d.
