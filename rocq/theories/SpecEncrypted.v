(** C121: an encrypted message as another program may have written it (RFC 4880 5.1, 5.3, 5.13, 11.3). *)
From Verif Require Import Base Spec SpecKey SpecS2k SpecCfb SpecMessage SpecFraming SpecUnlock SpecVerify Utils S2k Framing FramingProofs SessionKeys KeyPackets KeyCrypt KeyOps.

(** RFC 3447 7.2.1 around the session key block of 5.1: algorithm, key, and the sum of the key's octets *)
Definition padded_block (size alg : Z) (sk em : bytes) : Prop := exists ps, em = [0; 2] ++ ps ++ [0] ++ alg :: sk ++ be_bytes 2 (zsum sk mod 65536) /\
  wf ps /\ Forall (fun x => x <> 0) ps /\ 8 <= zlen ps /\ zlen em = size.
(** 5.1: version 3, the recipient's key id or zeros, an RSA algorithm, and the integer m ^ e mod n *)
Definition rsa_packet (n e size alg : Z) (sk em body : bytes) : Prop := exists kid pka enc, wf kid /\ zlen kid = 8 /\ In pka [1; 2; 3] /\ padded_block size alg sk em /\
  rfc_mpi (be_val em ^ e mod n) enc /\ body = 3 :: kid ++ pka :: enc.
(** or ElGamal, g ^ r mod p and m * y ^ r mod p for some r *)
Definition elgamal_packet (p g y size alg : Z) (sk body : bytes) : Prop := exists kid em r enc1 enc2, wf kid /\ zlen kid = 8 /\ 0 <= r /\ padded_block size alg sk em /\
  rfc_mpi (g ^ r mod p) enc1 /\ rfc_mpi (be_val em * y ^ r mod p) enc2 /\ body = 3 :: kid ++ 16 :: enc1 ++ enc2.
(** the secret exponent of an ElGamal key (the modulus need not be prime, the generator must be a unit), and an implementation of inverses *)
Definition elgamal_pair (inv : Z -> Z -> Z) (k : pubkey) (p g y x : Z) : Prop :=
  k_alg k = 16 /\ k_p k = Some p /\ k_g k = Some g /\ k_y k = Some y /\ Z.gcd g p = 1 /\ 1 < p /\ 0 <= x /\ y = g ^ x mod p /\ (forall a, 0 < a < p -> Z.gcd a p = 1 -> inv a p * a mod p = 1).
(** 5.3: version 4, the cipher and string-to-key specifier, and the encrypted algorithm and session key; without them the key from the passphrase is the session key *)
Inductive passphrase_packet (E : Z -> bytes -> bytes -> bytes) (H : Z -> bytes -> bytes) (s : s2k) (pass : bytes) : Z -> bytes -> bytes -> Prop :=
| pp_wrapped sb key bs alg sk : s2k_octets s sb -> passphrase_key H s pass key -> rfc_block_length (s2k_sym s) = Some bs ->
    passphrase_packet E H s pass alg sk ([4; s2k_sym s] ++ sb ++ rfc_cfb_enc (E (s2k_sym s) key) (Z.to_nat bs) (repeat 0 (Z.to_nat bs)) (alg :: sk))
| pp_direct sb key : s2k_octets s sb -> passphrase_key H s pass key -> passphrase_packet E H s pass (s2k_sym s) key ([4; s2k_sym s] ++ sb).
(** 11.3 and 5.13: session key packets (type, body), then one integrity-protected packet around [inner]; headers of any form *)
Definition encrypted_octets (E : Z -> bytes -> bytes -> bytes) (sha1 : bytes -> bytes) (esks : list (Z * bytes)) (alg : Z) (sk iv inner octets : bytes) : Prop := exists ps bl,
  rfc_packets ps octets /\ rfc_block_length alg = Some bl /\ zlen iv = bl /\ wf iv /\ wf inner /\
  map (fun r => (ptype r, pcontent r)) ps = esks ++ [(18, 1 :: rfc_seipd (E alg sk) bl sha1 iv (skipn (length iv - 2) iv) inner)].
(** what may stand among the session key packets besides: public-key ones of any version and algorithm, and passphrase ones of any version octet whose cipher has a key length and whose specifier is one of 3.7.1 *)
Definition other_packet (x : Z * bytes) : Prop :=
  (fst x = 1 /\ exists v kid a e, snd x = v :: kid ++ a :: e /\ wf kid /\ zlen kid = 8) \/ (fst x = 3 /\ exists v s sb n esk, snd x = [v; s2k_sym s] ++ sb ++ esk /\ s2k_octets s sb /\ rfc_key_length (s2k_sym s) = Some n).
(** [size] octets that have not got the padding *)
Definition no_padding (size m : Z) : Prop := forall ps rest, wf ([0; 2] ++ ps ++ [0] ++ rest) -> Forall (fun x => x <> 0) ps -> 8 <= zlen ps -> zlen ([0; 2] ++ ps ++ [0] ++ rest) = size -> be_val ([0; 2] ++ ps ++ [0] ++ rest) <> m.
(** a packet for somebody else's RSA key: its integer does not fill the modulus [n], or the secret exponent [d] does not turn it into something padded *)
Definition rsa_elsewhere (n d size : Z) (x : Z * bytes) : Prop := fst x = 1 /\ exists v kid pka c enc, snd x = v :: kid ++ pka :: enc /\ wf kid /\ zlen kid = 8 /\ In pka [1; 2; 3] /\ rfc_mpi c enc /\ 0 <= c < n /\
  (octets_of c size -> no_padding size (c ^ d mod n)).
(** a packet for somebody's ElGamal key: algorithm 16 and two integers *)
Definition elgamal_for_other (x : Z * bytes) : Prop := fst x = 1 /\ exists v kid e, snd x = v :: kid ++ 16 :: e /\ wf kid /\ zlen kid = 8 /\ (exists c1 c2 e1 e2, e = e1 ++ e2 /\ rfc_mpi c1 e1 /\ rfc_mpi c2 e2 /\ 0 < c1 /\ 0 < c2).
(** a packet for somebody's RSA key *)
Definition rsa_for_other (x : Z * bytes) : Prop := fst x = 1 /\ exists v kid pka c e, snd x = v :: kid ++ pka :: e /\ wf kid /\ zlen kid = 8 /\ In pka [1; 2; 3] /\ rfc_mpi c e /\ 0 < c.
(** ... and one that [x], the exponent of the key modulo [p], does not turn into something padded *)
Definition elgamal_elsewhere (inv : Z -> Z -> Z) (p x size : Z) (q : Z * bytes) : Prop := fst q = 1 /\ exists v kid c1 c2 e1 e2, snd q = v :: kid ++ 16 :: e1 ++ e2 /\ wf kid /\ zlen kid = 8 /\ rfc_mpi c1 e1 /\ rfc_mpi c2 e2 /\ 0 < c1 /\ 0 < c2 /\
  no_padding size (c2 * inv (c1 ^ x mod p) p mod p).
