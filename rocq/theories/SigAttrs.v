(** Model of the subpacket-backed attributes of pgp/signature.py:129-157, 258-345, 347-805 (BaseSignature) and of the constructors of
    pgp/packets/signature_subpackets.py they call. Definitions only.
    Python attributes are untyped, so a subpacket object is its type number, critical flag and a dictionary of attributes; classes whose
    attributes signature.py never assigns keep their [subbody]. *)
From Verif Require Import Base Utils Text SigPackets.

Inductive attr :=
| ATime | AExportable | ARevocable | APrimary | ADepth | AAmount | ATrustAmount | ATrustDepth | APattern | AAlgs | AKeyId
| ANoModify | AUri | ACertify | ASign | AComms | AStorage | AAuth | ASplit | AOwners | AUserId | ACode | AReason | AFeatures.
Definition attr_eq_dec (a b : attr) : {a = b} + {a <> b}.
Proof. decide equality. Defined.
(** the values that are assigned: None, numbers, truth values, texts, lists of numbers *)
Inductive value := VNone | VInt (z : Z) | VBool (b : bool) | VText (t : text) | VList (l : list Z).
(** an instance dictionary: attribute lookup, and setattr *)
Definition dict := list (attr * value).
Fixpoint look (a : attr) (d : dict) : option value :=
  match d with [] => None | (k, v) :: t => if attr_eq_dec a k then Some v else look a t end.
Fixpoint set_key (a : attr) (v : value) (d : dict) : dict :=
  match d with [] => [(a, v)] | (k, w) :: t => if attr_eq_dec a k then (k, v) :: t else (k, w) :: set_key a v t end.
Record sobj := SObj { so_type : Z; so_critical : bool; so_dict : dict; so_rest : option subbody }.

(** The attributes the constructors set (signature_subpackets.py: the __init__ methods), for a subpacket that was parsed or built *)
Definition obj_of (s : subpkt) : sobj :=
  match s with Sub ty c b =>
    match b with
    | SbTime t => SObj ty c [(ATime, VInt t)] None
    | SbBool x => SObj ty c [(if ty =? 4 then AExportable else if ty =? 7 then ARevocable else APrimary, VBool x)] None
    | SbTrust d a => SObj ty c [(ADepth, VInt d); (AAmount, VInt a)] None
    | SbRegex p => SObj ty c [(APattern, VText p)] None
    | SbAlgs l => SObj ty c [(AAlgs, VList l)] None
    | SbIssuer k => SObj ty c [(AKeyId, VText k)] None
    | SbNoModify x => SObj ty c [(ANoModify, VBool x)] None
    | SbUri u => SObj ty c [(AUri, VText u)] None
    | SbFlags a1 a2 a3 a4 a5 a6 a7 =>
        SObj ty c [(ACertify, VBool a1); (ASign, VBool a2); (AComms, VBool a3); (AStorage, VBool a4); (AAuth, VBool a5); (ASplit, VBool a6); (AOwners, VBool a7)] None
    | SbUserId u => SObj ty c [(AUserId, VText u)] None
    | SbReason code r => SObj ty c [(ACode, VInt code); (AReason, VText r)] None
    | SbFeatures x => SObj ty c [(AFeatures, VBool x)] None
    | b => SObj ty c [] (Some b)
    end
  end.

(** Python truth value *)
Definition truthy (v : value) : bool :=
  match v with VNone => false | VInt z => negb (z =? 0) | VBool b => b | VText t => negb (zlen t =? 0) | VList l => negb (zlen l =? 0) end.
(** an attribute read by a content property: a missing one is an AttributeError *)
Definition need (a : attr) (o : sobj) : res value := match look a (so_dict o) with Some v => Ok v | None => Err AttributeError end.
(** arithmetic on the value: int_to_4byte, bytearray([..]); True and False are 1 and 0 *)
Definition as_int (v : value) : res Z := match v with VInt z => Ok z | VBool b => Ok (if b then 1 else 0) | _ => Err TypeError end.
(** value.encode(..) *)
Definition as_text (v : value) : res text := match v with VText t => Ok t | _ => Err AttributeError end.
(** map(int, value); the digits of a text are not modelled *)
Definition as_list (v : value) : res (list Z) := match v with VList l => Ok l | VText [] => Ok [] | VText _ => Err ValueError | _ => Err TypeError end.
(** hex_to_bytes(value, 8): slicing needs a text *)
Definition as_hex (v : value) : res text := match v with VText t => Ok t | _ => Err TypeError end.

(** What the content properties read (signature_subpackets.py): the subpacket that is written. *)
Definition sub_of (o : sobj) : res subpkt :=
  let ty := so_type o in
  let flag a := do v <- need a o;; Ok (truthy v) in
  do b <- (match so_rest o with
           | Some b => Ok b
           | None =>
               if (ty =? 2) || (ty =? 3) || (ty =? 9) then do v <- need ATime o;; do t <- as_int v;; Ok (SbTime t)
               else if ty =? 4 then do b <- flag AExportable;; Ok (SbBool b)
               else if ty =? 7 then do b <- flag ARevocable;; Ok (SbBool b)
               else if ty =? 25 then do b <- flag APrimary;; Ok (SbBool b)
               else if ty =? 5 then do v <- need ADepth o;; do d <- as_int v;; do w <- need AAmount o;; do a <- as_int w;; Ok (SbTrust d a)
               else if ty =? 6 then do v <- need APattern o;; do p <- as_text v;; Ok (SbRegex p)
               else if (ty =? 11) || (ty =? 21) || (ty =? 22) then do v <- need AAlgs o;; do l <- as_list v;; Ok (SbAlgs l)
               else if ty =? 16 then do v <- need AKeyId o;; do k <- as_hex v;; Ok (SbIssuer k)
               else if ty =? 23 then do b <- flag ANoModify;; Ok (SbNoModify b)
               else if (ty =? 24) || (ty =? 26) then do v <- need AUri o;; do u <- as_text v;; Ok (SbUri u)
               else if ty =? 27 then
                 do a1 <- flag ACertify;; do a2 <- flag ASign;; do a3 <- flag AComms;; do a4 <- flag AStorage;;
                 do a5 <- flag AAuth;; do a6 <- flag ASplit;; do a7 <- flag AOwners;; Ok (SbFlags a1 a2 a3 a4 a5 a6 a7)
               else if ty =? 28 then do v <- need AUserId o;; do u <- as_text v;; Ok (SbUserId u)
               else if ty =? 29 then do v <- need ACode o;; do c <- as_int v;; do w <- need AReason o;; do r <- as_text w;; Ok (SbReason c r)
               else if ty =? 30 then do b <- flag AFeatures;; Ok (SbFeatures b)
               else Ok SbUnknown
           end);;
  Ok (Sub ty (so_critical o) b).

(** SIGNATURE_SUBPACKET_TYPES[ty] called with the keyword arguments a = v and critical = False (signature.py:289-293): an unknown keyword or
    a missing one is a TypeError. The preference constructors test every element (215-225, 349-361). *)
Definition new_sub (ty : Z) (a : attr) (v : value) : res sobj :=
  let plain b := if attr_eq_dec a b then Ok (SObj ty false [(a, v)] None) else Err TypeError in
  if (ty =? 2) || (ty =? 3) || (ty =? 9) then plain ATime
  else if ty =? 4 then plain AExportable
  else if ty =? 7 then plain ARevocable
  else if ty =? 25 then plain APrimary
  else if ty =? 6 then plain APattern
  else if (ty =? 11) || (ty =? 21) || (ty =? 22) then
    do o <- plain AAlgs;;
    match v with
    | VList l => if forallb (fun x => x <? 256) l then Ok o else Err AssertionError
    | VText [] => Ok o
    | _ => Err TypeError
    end
  else if ty =? 16 then plain AKeyId
  else if ty =? 23 then plain ANoModify
  else if (ty =? 24) || (ty =? 26) then plain AUri
  else if ty =? 27 then
    if in_dec attr_eq_dec a [ACertify; ASign; AComms; AStorage; AAuth; ASplit; AOwners]
    then Ok (SObj ty false (set_key a v (map (fun k => (k, VBool true)) [ACertify; ASign; AComms; AStorage; AAuth; ASplit; AOwners])) None)
    else Err TypeError
  else if ty =? 28 then plain AUserId
  else if ty =? 30 then plain AFeatures
  else Err TypeError.   (* 5: no such keyword; 29: revocation_reason is missing *)

(** The two subpacket lists of a signature (signature.py:238-239). *)
Record sigobj := SigObj { so_hashed : list sobj; so_unhashed : list sobj }.
(** 250-256 *)
Definition get_subs (s : sigobj) (ty : Z) : list sobj := filter (fun o => so_type o =? ty) (so_hashed s ++ so_unhashed s).
(** 269-280 *)
Definition get_value (s : sigobj) (ty : Z) (a : attr) : res value :=
  match get_subs s ty with o :: _ => need a o | [] => Ok VNone end.
Definition get_values (s : sigobj) (ty : Z) (a : attr) : res (list value) := mapM (need a) (get_subs s ty).
(** 257-261 and 289-293: [hashed] is not passed on, so always in the hashed list *)
Definition add_sub (s : sigobj) (o : sobj) : sigobj := SigObj (so_hashed s ++ [o]) (so_unhashed s).
Definition add_values (s : sigobj) (ty : Z) (a : attr) (v : value) : res sigobj := do o <- new_sub ty a v;; Ok (add_sub s o).
(** setattr *)
Definition set_attr (a : attr) (v : value) (o : sobj) : sobj := SObj (so_type o) (so_critical o) (set_key a v (so_dict o)) (so_rest o).
(** 282-288 *)
Definition update_values (s : sigobj) (ty : Z) (a : attr) (v : value) : res sigobj :=
  match get_subs s ty with
  | [] => add_values s ty a v
  | _ => let f o := if so_type o =? ty then set_attr a v o else o in Ok (SigObj (map f (so_hashed s)) (map f (so_unhashed s)))
  end.
(** subpacket ==: same class and same octets (34-38). The class follows from the type. Python looks at identity first, so an object that
    cannot be written still equals itself; here writing it fails. *)
Definition sub_eq (fl : Z -> Z) (a b : sobj) : res bool :=
  if so_type a =? so_type b then
    do x <- sub_of a;; do p <- sub_bytes fl x;; do y <- sub_of b;; do q <- sub_bytes fl y;; Ok (zlist_eqb p q)
  else Ok false.
Fixpoint filter_res (f : sobj -> res bool) (l : list sobj) : res (list sobj) :=
  match l with [] => Ok [] | o :: t => do b <- f o;; do r <- filter_res f t;; Ok (if b then r else o :: r) end.
(** 263-267 *)
Definition remove_sub (fl : Z -> Z) (s : sigobj) (o : sobj) : res sigobj :=
  do h <- filter_res (sub_eq fl o) (so_hashed s);; do u <- filter_res (sub_eq fl o) (so_unhashed s);; Ok (SigObj h u).
(** 295-299: == of values *)
Definition value_eqb (v w : value) : bool :=
  match v, w with
  | VNone, VNone => true
  | VInt x, VInt y => x =? y
  | VBool x, VBool y => Bool.eqb x y
  | VText x, VText y => zlist_eqb x y
  | VList x, VList y => zlist_eqb x y
  | _, _ => false
  end.
Fixpoint remove_each (fl : Z -> Z) (a : attr) (v : value) (subs : list sobj) (s : sigobj) : res sigobj :=
  match subs with
  | [] => Ok s
  | o :: t => do w <- need a o;; do s <- (if value_eqb w v then remove_sub fl s o else Ok s);; remove_each fl a v t s
  end.
Definition remove_values (fl : Z -> Z) (s : sigobj) (ty : Z) (a : attr) (v : value) : res sigobj := remove_each fl a v (get_subs s ty) s.
(** 338-352 (issuer key ids) and 429-443 (regular expressions): [order] enumerates set(new) | set(existing); the order of a Python set is
    arbitrary. Elements are texts. *)
Fixpoint assign_each (fl : Z -> Z) (ty : Z) (a : attr) (new existing order : list text) (s : sigobj) : res sigobj :=
  match order with
  | [] => Ok s
  | k :: t =>
      do s <- (if existsb (zlist_eqb k) existing then
                 match new with [] => remove_values fl s ty a (VText k) | _ => Ok s end
               else add_values s ty a (VText k));;
      assign_each fl ty a new existing t s
  end.
Definition texts (l : list value) : res (list text) := mapM (fun v => match v with VText t => Ok t | _ => Err TypeError end) l.
(** 325-331 (version 4) and 333-352 *)
Definition get_issuer_key_ids (s : sigobj) : res (list text) := do l <- get_values s 16 AKeyId;; texts l.
Definition set_issuer_key_ids (fl : Z -> Z) (s : sigobj) (new order : list text) : res sigobj :=
  do existing <- get_issuer_key_ids s;; assign_each fl 16 AKeyId new existing order s.

(** The single-valued attributes: the subpacket type and attribute that their getter and setter use. *)
Inductive prop :=
| P_exportable | P_trust_amount | P_trust_depth | P_revocable | P_issuer_user_id | P_revocation_reason | P_revocation_code
| P_preferred_compression | P_preferred_hash | P_preferred_symmetric | P_no_modify | P_preferred_key_server | P_primary_user_id | P_policy_uri
| P_supports_md | P_certify | P_sign | P_comms | P_storage | P_auth | P_split | P_owners.
Definition getter (p : prop) : Z * attr :=
  match p with
  | P_exportable => (4, AExportable)               (* 382-392 *)
  | P_trust_amount => (5, ATrustAmount)            (* 394-404 *)
  | P_trust_depth => (5, ATrustDepth)              (* 406-416 *)
  | P_revocable => (4, AExportable)                (* 458: property(_get_exportable, _set_exportable) *)
  | P_issuer_user_id => (28, AUserId)              (* 486-496 *)
  | P_revocation_reason => (5, AReason)            (* 498-509 *)
  | P_revocation_code => (29, ACode)               (* 511-521 *)
  | P_preferred_compression => (22, AAlgs)         (* 570-582 *)
  | P_preferred_hash => (21, AAlgs)                (* 584-596 *)
  | P_preferred_symmetric => (11, AAlgs)           (* 598-610 *)
  | P_no_modify => (23, ANoModify)                 (* 638-649 *)
  | P_preferred_key_server => (24, AUri)           (* 651-662 *)
  | P_primary_user_id => (25, APrimary)            (* 664-675 *)
  | P_policy_uri => (26, AUri)                     (* 677-687 *)
  | P_supports_md => (30, AFeatures)               (* 689-701 *)
  | P_certify => (27, ACertify) | P_sign => (27, ASign) | P_comms => (27, AComms) | P_storage => (27, AStorage)
  | P_auth => (27, AAuth) | P_split => (27, ASplit) | P_owners => (27, AOwners)   (* 703-793 *)
  end.
Definition setter (p : prop) : Z * attr :=
  match p with P_revocation_reason => (5, ATrustAmount) | _ => getter p end.
Definition get_prop (s : sigobj) (p : prop) : res value := get_value s (fst (getter p)) (snd (getter p)).
Definition set_prop (s : sigobj) (p : prop) (v : value) : res sigobj := update_values s (fst (setter p)) (snd (setter p)) v.

(** Times: a naive datetime is a number of microseconds; [local t] is datetime.fromtimestamp(t), None where that raises. *)
Section Times.
Variable local : Z -> res Z.
(** 301-308, version 4 *)
Definition get_creation_time (s : sigobj) : res Z :=
  do v <- get_value s 2 ATime;; match v with VInt t => local t | VBool b => local (if b then 1 else 0) | _ => Err TypeError end.
(** 310-321: self.signature__expiration_time does not exist *)
Definition set_creation_time (s : sigobj) (dt : Z) : res sigobj := Err AttributeError.
(** 356-364: None, or the creation time plus the seconds *)
Definition get_expiration_time (s : sigobj) : res (option Z) :=
  do v <- get_value s 3 ATime;;
  if negb (truthy v) then Ok None else
  do n <- as_int v;; do c <- get_creation_time s;; Ok (Some (c + n * 1000000)).
(** 366-376: with None only a local variable is set *)
Definition set_expiration_time (s : sigobj) (dt : option Z) : res sigobj :=
  match dt with
  | None => Ok s
  | Some dt =>
      do c <- get_creation_time s;;
      if dt <? c then Err ValueError else
      do c <- get_creation_time s;;
      update_values s 3 ATime (VInt ((dt - c) / 1000000))
  end.
End Times.
(** 144-152 from_packet, 165-180 to_packet of version 4: the subpacket lists *)
Definition sig_obj_of (hashed unhashed : list subpkt) : sigobj := SigObj (map obj_of hashed) (map obj_of unhashed).
Definition written (s : sigobj) : res (list subpkt * list subpkt) :=
  do h <- mapM sub_of (so_hashed s);; do u <- mapM sub_of (so_unhashed s);; Ok (h, u).
