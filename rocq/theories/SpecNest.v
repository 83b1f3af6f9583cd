(** Messages in messages: what compress(), symmetric_encrypt() and public_key_encrypt() wrap, one in the other to any depth, and how each layer is
    opened again (RFC 4880 5.6, 5.7, 5.13 and 11.3). *)
From Verif Require Import Base Spec Utils Framing Armor S2k SpecS2k SymCipher CfbProofs SessionKeys KeyPackets SigPackets DataPackets Packets SpecPackets Message SpecMessage PubMsg SpecPubMsg Compression SpecCompression.

(** one layer, with the arguments of the call that makes it and what the reader has: nothing, the passphrase, an unlocked secret key *)
Inductive layer :=
| Compress (alg : Z) (level : option Z)
| Passphrase (alg : Z) (pass session_key iv : bytes) (s2k_type s2k_hash : Z) (salt : bytes) (count : Z)
| Recipients (alg : Z) (session_key iv : bytes) (keys hidden : list recipient) (reader : recipient) (dec : Z -> list bytes -> res (option bytes)).

Section Nest.
Variables (z : zlib) (inflate : bytes -> option bytes) (bz2 : Z -> bytes -> res bytes).
Variables (H : Z -> bytes -> bytes) (E : Z -> bytes -> bytes -> bytes) (sha1 : bytes -> bytes) (od : Z -> option bytes -> bytes -> bytes -> res bytes) (fl : Z -> Z) (rec : seckey -> res bytes).

(** the sender's call (integrity protected, the passphrase's cipher that of the data) *)
Definition put (l : layer) (m : message) : res message :=
  match l with
  | Compress alg level => message_compress z bz2 fl rec alg level m
  | Passphrase alg pass sk iv ty hash salt count => symmetric_encrypt E sha1 H fl rec m alg pass sk iv true ty hash alg salt count
  | Recipients alg sk iv rs hs _ _ => public_key_encrypt E sha1 fl rec m alg None (Some rs) (Some hs) sk iv true
  end.
(** the reader's call: get_message() of the object *)
Definition take (l : layer) (m : message) : res message :=
  match l with
  | Compress _ _ => compressed_get_message z m
  | Passphrase _ pass _ _ _ _ _ _ => get_message E sha1 od H m (ByPass pass)
  | Recipients _ _ _ _ _ _ dec => get_message E sha1 od H m (ByKey false dec)
  end.
(** innermost layer first *)
Fixpoint put_all (ls : list layer) (m : message) : res message := match ls with [] => Ok m | l :: ls => do m' <- put l m;; put_all ls m' end.
Fixpoint take_all (ls : list layer) (m : message) : res message := match ls with [] => Ok m | l :: ls => do m' <- take_all ls m;; take l m' end.

(** the arguments a layer needs: C57, C63, C79 *)
Definition cipher_args (alg : Z) (sk iv : bytes) (bl : Z) : Prop :=
  symmetric_cipher_block_lengths alg = Some bl /\ alg <> 0 /\ In (zlen sk) (cipher_key_sizes alg) /\ wf sk /\ good_block (E alg sk) bl /\ wf iv /\ zlen iv = bl.
Definition layer_ok (l : layer) : Prop :=
  match l with
  | Compress alg level => alg = 0 \/ ((alg = 1 \/ alg = 2) /\ exists c, cnew z level = Ok c)
  | Passphrase alg pass sk iv ty hash salt count => exists bl s k n, cipher_args alg sk iv bl /\ new_s2k ty hash alg salt count = Ok s /\ to_key H s pass = Ok (Some k) /\ good_block (E alg k) bl /\
      s2k_ok s /\ symmetric_cipher_key_lengths alg = Some n /\ zlen sk <= n
  | Recipients alg sk iv rs hs r dec => exists bl pre post, cipher_args alg sk iv bl /\ rs ++ hs = pre ++ r :: post /\
      (forall r', In r' (rs ++ hs) -> good_id r' /\ exists esk, encrypted_to fl alg sk r' esk /\ esk <> [] /\ zlen esk < 2 ^ 32 - 100) /\
      (forall r' esk, In r' pre -> encrypted_to fl alg sk r' esk -> refuses dec r' esk ValueError \/ recovers dec r' esk alg sk) /\
      (forall esk, encrypted_to fl alg sk r esk -> recovers dec r esk alg sk)
  end.
(** no layer comes near 4 GiB (and octets are octets, which they always are in Python) *)
Fixpoint within_size (ls : list layer) (m : message) : Prop :=
  match ls with
  | [] => True
  | l :: ls => (forall d, message_octets fl rec m = Ok d -> wf d /\ zlen d < 2 ^ 32 - 100) /\
      forall m', put l m = Ok m' -> match m' with MCompressed _ s => zlen s < 2 ^ 32 - 100 | _ => True end /\ within_size ls m'
  end.
End Nest.
