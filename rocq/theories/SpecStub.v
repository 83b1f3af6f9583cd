(** C120: the stubs that GnuPG writes for secret keys that are not there (doc/DETAILS, "GNU extensions to the S2K algorithm"): string-to-key specifier 101,
    digest, "GNU", then 1 where the secret part is kept offline, or 2, a length octet and a serial number where it is on a smartcard. *)
From Verif Require Import Base Spec S2k.

Inductive stub_octets (h : Z) : option bytes -> bytes -> Prop :=
| stub_offline : byte h -> stub_octets h None [101; h; 71; 78; 85; 1]
| stub_card serial : byte h -> wf serial -> zlen serial < 256 -> stub_octets h (Some serial) ([101; h; 71; 78; 85; 2; zlen serial] ++ serial).
(** the packet body: the public part, usage 254 or 255, the cipher, the stub, whatever follows *)
Definition stub_body (kb : bytes) (sym h : Z) (serial : option bytes) (rest body : bytes) : Prop :=
  exists u so, (u = 254 \/ u = 255) /\ stub_octets h serial so /\ body = kb ++ [u; sym] ++ so ++ rest.
