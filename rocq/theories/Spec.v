(** Independent specifications of integers on the wire (RFC 4880 section 3.1, 3.2). *)
From Verif Require Import Base.

(** Value of a big-endian octet string: most significant octet first. *)
Fixpoint be_val (bs : bytes) : Z :=
  match bs with
  | [] => 0
  | b :: t => b * 256 ^ zlen t + be_val t
  end.

(** Number of significant bits: the unique n with 2^(n-1) <= i < 2^n (0 for i = 0). *)
Definition bit_length (i : Z) : Z := if i =? 0 then 0 else Z.log2 i + 1.

(** RFC 4880 3.2: an MPI is the bit length in two octets, then the value, most significant octet first,
    with no superfluous leading zero octets. *)
Definition rfc_mpi (i : Z) (enc : bytes) : Prop :=
  exists l body, enc = l ++ body /\ zlen l = 2 /\ be_val l = bit_length i /\
    zlen body = (bit_length i + 7) / 8 /\ be_val body = i /\ wf enc.

(** Upper-case hexadecimal text of an octet string: two digits per octet, in order. *)
Definition hex_char (d : Z) : Z := nth (Z.to_nat d) [48;49;50;51;52;53;54;55;56;57;65;66;67;68;69;70] 0.
Definition hex_text (bs : bytes) : list Z := flat_map (fun b => [hex_char (b / 16); hex_char (b mod 16)]) bs.
(** The n-digit hexadecimal text of i (most significant digit first), keeping the low-order digits. *)
Fixpoint hex_fixed (n : nat) (i : Z) : list Z :=
  match n with
  | O => []
  | S n' => hex_char ((i / 16 ^ Z.of_nat n') mod 16) :: hex_fixed n' i
  end.
