(** RFC 4880 5.2.3: version 4 signature bodies and subpackets; which subpacket contents survive; which objects are representable. *)
From Verif Require Import Base Spec SpecUtf8 SpecFraming SpecKey Utils S2k SigPackets.

(** 5.2.3.1: the length of type and content, the type with the critical bit 7, the content *)
Definition rfc_sub (ty : Z) (critical : bool) (content enc : bytes) : Prop :=
  0 <= ty < 128 /\ exists l, rfc_new_length (zlen content + 1) l /\ enc = l ++ [ty + (if critical then 128 else 0)] ++ content.
(** 5.2.3: version 4, type, algorithms, hashed area, unhashed area, left 16 bits of the digest, integers *)
Definition rfc_sig4 (st pk ha : Z) (hashed unhashed h2 : bytes) (ints : list bytes) (enc : bytes) : Prop :=
  exists l1 l2, enc = [4; st; pk; ha] ++ l1 ++ hashed ++ l2 ++ unhashed ++ h2 ++ concat ints /\
    zlen l1 = 2 /\ be_val l1 = zlen hashed /\ zlen l2 = 2 /\ be_val l2 = zlen unhashed /\ zlen h2 = 2 /\ wf enc.
(** 5.2.2: version 3 *)
Definition rfc_sig3 (v st : Z) (ctime : Z) (key_id : bytes) (pk ha : Z) (h2 : bytes) (ints : list bytes) (enc : bytes) : Prop :=
  exists ct, enc = [v; 5; st] ++ ct ++ key_id ++ [pk; ha] ++ h2 ++ concat ints /\ (v = 2 \/ v = 3) /\
    zlen ct = 4 /\ be_val ct = ctime /\ zlen key_id = 8 /\ zlen h2 = 2 /\ wf enc.

(** The contents, by type, that are written back as they were read. [emb] : the embedded signature body is. *)
Definition stable_sub (emb : bytes -> Prop) (ty : Z) (d : bytes) : Prop :=
  if (ty =? 2) || (ty =? 3) || (ty =? 9) then zlen d = 4
  else if (ty =? 4) || (ty =? 7) || (ty =? 25) then d = [0] \/ d = [1]
  else if ty =? 5 then zlen d = 2
  else if ty =? 6 then False
  else if ty =? 10 then exists a, d = [0; a] ++ repeat 0 20 \/ d = [128; a] ++ repeat 0 20
  else if (ty =? 11) || (ty =? 21) || (ty =? 22) then True
  else if ty =? 12 then False
  else if ty =? 16 then zlen d = 8
  else if ty =? 20 then exists nl vl name value, d = [128; 0; 0; 0] ++ nl ++ vl ++ name ++ value /\
      zlen nl = 2 /\ be_val nl = zlen name /\ zlen vl = 2 /\ be_val vl = zlen value /\ valid_utf8 name /\ valid_utf8 value /\
      ~ (exists n, name = n ++ [64] /\ ~ In 64 n)
  else if ty =? 23 then d = [0] \/ d = [128]
  else if (ty =? 24) || (ty =? 26) then d <> [] /\ valid_utf8 d
  else if ty =? 27 then exists k, d = [k] /\ (k / 64) mod 2 = 0
  else if ty =? 28 then valid_utf8 d
  else if ty =? 29 then exists c t, d = c :: t /\ valid_utf8 t
  else if ty =? 30 then d = [0] \/ d = [1]
  else if ty =? 31 then False
  else if ty =? 32 then emb d
  else d = [].

(** the types with a class of their own *)
Definition known_subs : list Z := [2; 3; 4; 5; 6; 7; 9; 10; 11; 12; 16; 20; 21; 22; 23; 24; 25; 26; 27; 28; 29; 30; 31; 32].
(** Objects whose fields the wire format can hold (and that are not of the classes that cannot be written:
    regular expressions, revocation keys, additional recipients and targets). *)
Definition plain_ok (ty : Z) (b : subbody) : Prop :=
  match b with
  | SbUnknown => 0 <= ty < 128 /\ ~ In ty known_subs
  | SbTime t => In ty [2; 3; 9] /\ 0 <= t < 2 ^ 32
  | SbBool _ => In ty [4; 7; 25]
  | SbTrust d a => ty = 5 /\ byte d /\ byte a
  | SbAlgs l => In ty [11; 21; 22] /\ wf l
  | SbIssuer k => ty = 16 /\ exists b, k = hex_text b /\ wf b /\ zlen b = 8
  | SbNotation n ns h v => ty = 20 /\ h = true /\ Forall scalar n /\ ~ In 64 n /\ Forall scalar v /\
      zlen (utf8 v) < 65536 /\
      match ns with
      | None => zlen (utf8 n) < 65536
      | Some s => s <> [] /\ Forall scalar s /\ zlen (utf8 n) + 1 + zlen (utf8 s) < 65536
      end
  | SbNoModify _ => ty = 23
  | SbUri u => In ty [24; 26] /\ u <> [] /\ Forall scalar u
  | SbFlags _ _ _ _ _ _ _ => ty = 27
  | SbUserId u => ty = 28 /\ Forall scalar u
  | SbReason c r => ty = 29 /\ byte c /\ Forall scalar r
  | SbFeatures _ => ty = 30
  | _ => False
  end.
Definition value_ok (fl : Z -> Z) (i : Z) : Prop := 0 <= i /\ bit_length i <= 65535 /\ (0 < i -> fl i = Z.log2 i).
Inductive sub_ok (fl : Z -> Z) : subpkt -> Prop :=
| so_plain ty c b : plain_ok ty b -> (forall d, plain_content b = Ok d -> zlen d < 65536) -> sub_ok fl (Sub ty c b)
| so_embedded c s : sig_ok fl s -> (forall d, sig_content fl s = Ok d -> zlen d < 65536) -> sub_ok fl (Sub 32 c (SbEmbedded s))
with sig_ok (fl : Z -> Z) : sigpkt -> Prop :=
| si_v4 st pk ha h2 vs hs us : byte st -> byte pk -> byte ha -> zlen h2 = 2 -> wf h2 -> Forall (value_ok fl) vs ->
    Forall (sub_ok fl) hs -> Forall (sub_ok fl) us ->
    (forall a, subs_bytes fl hs = Ok a -> zlen a < 65536) -> (forall a, subs_bytes fl us = Ok a -> zlen a < 65536) ->
    sig_ok fl (SigV4 4 st pk ha h2 vs hs us).
(** An area as a list of (type, critical, content) and their encodings, and the object each is read as. *)
Definition triple : Type := Z * bool * bytes.
Definition rfc_area (ts : list triple) (encs : list bytes) : Prop := Forall2 (fun t enc => rfc_sub (fst (fst t)) (snd (fst t)) (snd t) enc) ts encs.
Definition sub_of (emb : bytes -> res sigpkt) (t : triple) : res subpkt := do b <- subbody_from emb (fst (fst t)) (snd t);; Ok (Sub (fst (fst t)) (snd (fst t)) b).
