(** RFC 4880 5.5.2: public key packet bodies. *)
From Verif Require Import Base Spec Utils KeyPackets.

(** what the algorithm-specific integers mean, in the order they are written *)
Definition rfc_key (v ctime alg : Z) (exp : option Z) (ms : list Z) : option pubkey :=
  match ms with
  | [n; e] => if (alg =? 1) || (alg =? 2) || (alg =? 3) then Some (PubKey v ctime alg exp (Some n) (Some e) None None None None) else None
  | [p; g; y] => if (alg =? 16) || (alg =? 20) then Some (PubKey v ctime alg exp None None (Some p) None (Some g) (Some y)) else None
  | [p; q; g; y] => if alg =? 17 then Some (PubKey v ctime alg exp None None (Some p) (Some q) (Some g) (Some y)) else None
  | _ => None
  end.
(** versions 2 and 3 carry a two-octet number of days of validity, later ones do not *)
Definition rfc_exp_ok (v : Z) (exp : option Z) : Prop :=
  ((v = 2 \/ v = 3) /\ exists d, exp = Some d /\ 0 <= d < 65536) \/ (4 <= v < 256 /\ exp = None).
(** the octets: version, creation time, days, algorithm, integers *)
Definition rfc_pub_body (v ctime alg : Z) (exp : option Z) (encs : list bytes) : bytes :=
  [v] ++ be_bytes 4 ctime ++ match exp with Some d => be_bytes 2 d | None => [] end ++ [alg] ++ concat encs.
(** an MPI as a reader accepts it: a bit count, and the octets that many bits need (leading zeros allowed) *)
Definition readable_mpi (i : Z) (enc : bytes) : Prop :=
  exists l body, enc = l ++ body /\ zlen l = 2 /\ zlen body = (be_val l + 7) / 8 /\ be_val body = i /\ wf enc.
