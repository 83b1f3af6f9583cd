(** Model of == and hash() of the objects of pgp/signature.py: signatures, notations and revocation keys. Definitions only. *)
From Verif Require Import Base Text Crc24 Utils Framing SigPackets Packets SigLists TransKey.

Section SigEq.
Variables (fl : Z -> Z) (rec : KeyPackets.seckey -> res bytes).
(** signature.py:244-248: bytes(self.to_packet()), see 159-180 and packets.py:121-153 *)
Definition sig_octets (s : TransKey.sobject) : res bytes := do p <- TransKey.sig_to s;; pkt_bytes fl rec p.
(** 244-245 BaseSignature.__eq__; [None] is an object of another class, which has no to_packet (its attribute is looked up after the octets of
    [a] are there) *)
Definition sig_same (a : TransKey.sobject) (b : option TransKey.sobject) : res bool :=
  do x <- sig_octets a;;
  match b with None => Err AttributeError | Some b => do y <- sig_octets b;; Ok (zlist_eqb x y) end.
(** 247-248 BaseSignature.__hash__ *)
Definition sig_hash (a : TransKey.sobject) : res Z := do x <- sig_octets a;; Ok (crc24 x).
(** 67-71 Notation.__eq__ and __hash__ *)
Definition note_same (a b : notation) : res bool := do x <- note_octets fl a;; do y <- note_octets fl b;; Ok (zlist_eqb x y).
Definition note_hash (a : notation) : res Z := do x <- note_octets fl a;; Ok (crc24 x).
(** 103-107 RevocationKeyInfo.__eq__ and __hash__ *)
Definition rev_same (a b : revkey) : res bool := do x <- rev_octets fl a;; do y <- rev_octets fl b;; Ok (zlist_eqb x y).
Definition rev_hash (a : revkey) : res Z := do x <- rev_octets fl a;; Ok (crc24 x).
End SigEq.
