(** Model of pgp/transferrable_keys.py:43-181 (SignedMixin, KeySignature), 281-293 (expiration time of a key), pgp/signature.py:545-568, 799-860 (key
    expiration time, target, expired, revoked) and pgp/signature_verification.py:103-163. Definitions only. *)
From Verif Require Import Base Utils Text SigPackets SigAttrs.

(** A signature on a key, user id or user attribute. Version 4: the subpacket lists. Version 2 or 3: pgp/signature.py:129-157 stores a datetime
    and the key id, and the issuer_key_ids and creation_time properties (301-308, 323-331) read an attribute that is not there and convert a
    datetime as if it were a number. *)
Inductive sbody := V4 (s : sigobj) | V3 (created : Z) (issuer : text).
(** [k_values] are the signature's numbers; [k_validated] is what validate_signatures recorded (None until then). *)
Record ksig := KSig { k_type : Z; k_body : sbody; k_values : list Z; k_validated : option bool }.
Section Local.
(** datetime.fromtimestamp, as in SigAttrs *)
Variable local : Z -> res Z.
Definition sig_issuers (k : ksig) : res (list text) := match k_body k with V4 s => get_issuer_key_ids s | V3 _ _ => Err AttributeError end.
Definition sig_created (k : ksig) : res Z := match k_body k with V4 s => get_creation_time local s | V3 _ _ => Err TypeError end.
(** bool(set(a) & set(b)) *)
Definition meet (a b : list text) : bool := existsb (fun k => existsb (zlist_eqb k) b) a.
Definition is_in (t : Z) (l : list Z) : bool := existsb (Z.eqb t) l.

(** What carries signatures: its version, the signature types of the class (185-187, 616-618, 663-667, 773-777), the key ids of the primary key and
    the subkeys, and the signatures in order. *)
Record signed := Signed { sd_version : Z; sd_self : list Z; sd_rev : list Z; sd_own : list text; sd_sigs : list ksig }.
Definition public_key_types : list Z * list Z := ([31], [32]).
Definition subkey_types : list Z * list Z := ([24], [40]).
Definition user_types : list Z * list Z := ([16; 18; 17; 19], [48]).
(** datetime.datetime(1900, 1, 1) *)
Definition year_1900 : Z := -2208988800 * 1000000.
(** 91-114, with is_self_signature 169-181: the position of the signature. [last_signature_created] is not updated. *)
Fixpoint most_recent_from (own : list text) (types : list Z) (sigs : list ksig) (i : nat) (acc : option nat) : res (option nat) :=
  match sigs with
  | [] => Ok acc
  | k :: t =>
      do ids <- sig_issuers k;;
      if negb (meet ids own) then most_recent_from own types t (S i) acc
      else if negb (is_in (k_type k) types) then most_recent_from own types t (S i) acc
      else do c <- sig_created k;; most_recent_from own types t (S i) (if year_1900 <? c then Some i else acc)
  end.
Definition most_recent (o : signed) (rev : bool) : res (option nat) :=
  most_recent_from (sd_own o) (if rev then sd_rev o else sd_self o) (sd_sigs o) 0 None.

(** signature.py:799-838 for the i-th of these signatures: with a target subpacket self.signature_version is not an attribute (the signatures of
    the parent include this one, so the loop runs); otherwise the only other signature with a common issuer *)
Fixpoint revocable_from (ids : list text) (i j : nat) (sigs : list ksig) : res (list nat) :=
  match sigs with
  | [] => Ok []
  | k :: t =>
      if Nat.eqb i j then revocable_from ids i (S j) t else
      do ids2 <- sig_issuers k;;
      do r <- revocable_from ids i (S j) t;;
      Ok (if meet ids ids2 then j :: r else r)
  end.
Definition target_of (sigs : list ksig) (i : nat) (s : sigobj) : res (option nat) :=
  match get_subs s 31 with
  | _ :: _ => Err AttributeError
  | [] => do ids <- get_issuer_key_ids s;; do l <- revocable_from ids i 0 sigs;; match l with [j] => Ok (Some j) | _ => Ok None end
  end.
(** results of attributes: a value or an instant *)
Inductive kvalue := KVal (v : value) | KTime (t : Z).
(** signature.py:545-557 *)
Definition get_key_expiration (sigs : list ksig) (i : nat) (s : sigobj) : res kvalue :=
  do v <- get_value s 9 ATime;;
  if negb (truthy v) then Ok (KVal v) else
  do t <- target_of sigs i s;;
  match t with
  | None => Err AttributeError                  (* None has no creation_time *)
  | Some j => match nth_error sigs j with
              | Some k => do c <- sig_created k;; do n <- as_int v;; Ok (KTime (c + n * 1000000))
              | None => Err AttributeError
              end
  end.
(** the attributes of a signature that the mixin reads by name *)
Inductive aname := AProp (p : prop) | ACreation | AKeyExpiration.
Definition sig_attr (sigs : list ksig) (i : nat) (k : ksig) (a : aname) : res kvalue :=
  match k_body k, a with
  | V4 s, AProp p => do v <- get_prop s p;; Ok (KVal v)
  | V4 s, ACreation => do c <- get_creation_time local s;; Ok (KTime c)
  | V4 s, AKeyExpiration => get_key_expiration sigs i s
  | V3 _ _, AProp p => Ok (KVal VNone)          (* no subpackets *)
  | V3 _ _, ACreation => Err TypeError
  | V3 _ _, AKeyExpiration => Ok (KVal VNone)
  end.
(** 116-123: getattr with a default turns an AttributeError into the default; before version 4 the local variable is not bound *)
Definition mixin_get (o : signed) (a : aname) (default : value) (rev : bool) : res kvalue :=
  if 4 <=? sd_version o then
    do m <- most_recent o rev;;
    match m with
    | None => Ok (KVal default)
    | Some i =>
        match nth_error (sd_sigs o) i with
        | None => Ok (KVal default)
        | Some k => match sig_attr (sd_sigs o) i k a with Err AttributeError => Ok (KVal default) | r => r end
        end
    end
  else Err UnboundLocalError.
(** 132-164: the attributes by the names users call *)
Inductive kname :=
| K_revocation_reason | K_revocation_code | K_creation_time | K_expiration_time | K_compression | K_hash | K_symmetric | K_no_modify | K_key_server
| K_primary_user_id | K_policy_uri | K_certify | K_sign | K_comms | K_storage | K_auth | K_split | K_owners | K_modification_detection.
Definition mixin_table (n : kname) : aname * value * bool :=
  match n with
  | K_revocation_reason => (AProp P_revocation_reason, VNone, true)
  | K_revocation_code => (AProp P_revocation_code, VNone, true)
  | K_creation_time => (ACreation, VNone, false)
  | K_expiration_time => (AKeyExpiration, VNone, false)
  | K_compression => (AProp P_preferred_compression, VList [], false)
  | K_hash => (AProp P_preferred_hash, VList [], false)
  | K_symmetric => (AProp P_preferred_symmetric, VList [], false)
  | K_no_modify => (AProp P_no_modify, VNone, false)
  | K_key_server => (AProp P_preferred_key_server, VNone, false)
  | K_primary_user_id => (AProp P_primary_user_id, VNone, false)
  | K_policy_uri => (AProp P_policy_uri, VNone, false)
  | K_certify => (AProp P_certify, VNone, false)
  | K_sign => (AProp P_sign, VNone, false)
  | K_comms => (AProp P_comms, VNone, false)
  | K_storage => (AProp P_comms, VNone, false)
  | K_auth => (AProp P_comms, VNone, false)
  | K_split => (AProp P_split, VNone, false)
  | K_owners => (AProp P_owners, VNone, false)
  | K_modification_detection => (AProp P_owners, VNone, false)
  end.
Definition key_get (o : signed) (n : kname) : res kvalue := let '(a, d, rev) := mixin_table n in mixin_get o a d rev.
(** 125-128: the setter, for the attributes that are single subpacket values; None is not assignable *)
Fixpoint set_nth (i : nat) (k : ksig) (l : list ksig) : list ksig :=
  match l, i with [], _ => [] | _ :: t, O => k :: t | x :: t, S i => x :: set_nth i k t end.
Definition key_set (o : signed) (n : kname) (v : value) : res signed :=
  let '(a, _, rev) := mixin_table n in
  if 4 <=? sd_version o then
    do m <- most_recent o rev;;
    match m with
    | None => Err AttributeError
    | Some i =>
        match nth_error (sd_sigs o) i, a with
        | Some (KSig ty (V4 s) vals vd), AProp p => do s <- set_prop s p v;; Ok (Signed (sd_version o) (sd_self o) (sd_rev o) (sd_own o) (set_nth i (KSig ty (V4 s) vals vd) (sd_sigs o)))
        | _, _ => Err AttributeError
        end
    end
  else Ok o.
(** 281-286: version 2 or 3 keys have a stored time; anything else goes through the mixin *)
Definition key_expiration (o : signed) (stored : option Z) : res kvalue :=
  if (sd_version o =? 2) || (sd_version o =? 3) then Ok (match stored with Some t => KTime t | None => KVal VNone end)
  else if 4 <=? sd_version o then key_get o K_expiration_time
  else Ok (KVal VNone).

(** signature.py:840-846: signature_expiration_time has no version test; a version 3 signature has no subpackets *)
Definition sig_expired (now : Z) (k : ksig) : res bool :=
  match k_body k with
  | V3 _ _ => Ok false
  | V4 s => do e <- get_expiration_time local s;; match e with None => Ok false | Some e => Ok (e <? now) end
  end.
(** 46-58: self_signatures *)
Fixpoint self_signatures (own : list text) (sigs : list ksig) : res (list ksig) :=
  match sigs with [] => Ok [] | k :: t => do ids <- sig_issuers k;; do r <- self_signatures own t;; Ok (if meet own ids then k :: r else r) end.
(** 75-92: revocation_signatures and revoked. The types of revocations are not among those signature.py:848-863 can call revoked;
    issuer_key_expired and issuer_key_revoked are None unless validate_signatures sets them, which is not modelled. *)
Fixpoint live_revocations (now : Z) (types : list Z) (sigs : list ksig) : res (list ksig) :=
  match sigs with
  | [] => Ok []
  | k :: t =>
      do b <- (if is_in (k_type k) types then do e <- sig_expired now k;; Ok (negb e) else Ok false);;
      do r <- live_revocations now types t;; Ok (if b then k :: r else r)
  end.
Definition is_revoked (now : Z) (o : signed) : res bool :=
  do l <- self_signatures (sd_own o) (sd_sigs o);; do r <- live_revocations now (sd_rev o) l;; Ok (negb (Nat.eqb (length r) 0)).

(** ** signature_verification.py:103-163 *)
Definition SignatureCreatedBeforeContent := PgpError 40.
Definition SigningKeyCreatedInTheFuture := PgpError 41.
Definition SignatureCreatedInTheFuture := PgpError 42.
Definition SigningKeyHasExpired := PgpError 43.
Definition SignedByRevokedKey := PgpError 44.
Definition SigningKeyHasBeenRevoked := PgpError 45.
(** the signing key: its creation time, stored expiration time, key id, the key id of its primary key (or its own), and what the mixin needs *)
Record skey := SKey { sk_created : Z; sk_stored : option Z; sk_id : text; sk_primary_id : text; sk_signed : signed }.
(** text[-8:] *)
Definition last8 (t : text) : text := slice_from t (-8).
(** RevocationKeyInfo.from_subpacket of the type 12 subpackets (612-617); fingerprint[-8:] *)
Definition revokers (k : ksig) : list text :=
  match k_body k with
  | V3 _ _ => []
  | V4 s => flat_map (fun o => match so_rest o with Some (SbRevKey f _ _) => [last8 f] | _ => [] end) (get_subs s 12)
  end.
(** signature.revocable is not False; [revocable] is the exportable attribute *)
Definition is_false (v : value) : bool := match v with VBool false => true | _ => false end.
Definition revocable_value (k : ksig) : res value := match k_body k with V3 _ _ => Ok VNone | V4 s => get_prop s P_revocable end.
Fixpoint revocation_loop (key : skey) (revs : list text) (strict : bool) (sigs : list ksig) (revoked : bool) : res bool :=
  match sigs with
  | [] => Ok revoked
  | k :: t =>
      if is_in (k_type k) [40; 32] then
        do c <- sig_created k;;
        if (c <? sk_created key) && strict then Err SignedByRevokedKey else
        do ids <- sig_issuers k;;
        if existsb (zlist_eqb (sk_primary_id key)) ids then
          if strict then Err SigningKeyHasBeenRevoked else revocation_loop key revs strict t true
        else if negb (zlen revs =? 0) && existsb (zlist_eqb (last8 (sk_id key))) revs then
          if strict then Err SigningKeyHasBeenRevoked else revocation_loop key revs strict t true
        else revocation_loop key revs strict t revoked
      else revocation_loop key revs strict t revoked
  end.
Definition check_signature_values (key : skey) (sg : ksig) (now : Z) (strict : bool) : res (bool * bool) :=
  do sc <- sig_created sg;;
  if sc <? sk_created key then Err SignatureCreatedBeforeContent else
  if now <? sk_created key then Err SigningKeyCreatedInTheFuture else
  if now <? sc then Err SignatureCreatedInTheFuture else
  do e <- key_expiration (sk_signed key) (sk_stored key);;
  do expired <- (match e with
                 | KTime e => if e <? now then if strict then Err SigningKeyHasExpired else Ok true else Ok false
                 | KVal VNone => Ok false
                 | KVal _ => Err TypeError     (* the number 0 compared with a datetime *)
                 end);;
  do rv <- revocable_value sg;;
  do revoked <- (if negb (is_false rv) then
                   revocation_loop key (flat_map (fun k => if is_in (k_type k) [24; 31] then revokers k else []) (sd_sigs (sk_signed key))) strict (sd_sigs (sk_signed key)) false
                 else Ok false);;
  Ok (expired, revoked).
End Local.
