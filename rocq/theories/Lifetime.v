(** Model of who keeps whom alive among the objects of a key: pgp/transferrable_keys.py:91-114, 167-181 (self signatures), 244-250, 459-470, 630-663,
    690-711, 816-837, 969-1054, 1090-1095 (construction, to_public_key, to_signable_data) and pgp/signature.py:217-223, 794-796 (parent).
    A part (user id, user attribute, subkey) has only a weak reference to its primary key and a signature only a weak reference to what it signs;
    a key holds its lists, a list holds its items, a part holds its list of signatures. Memory: an object is freed as soon as no variable and no
    object that is still there holds it (CPython's reference counts), and a weak reference to a freed object gives None.
    Simplifications: contents are reduced to the key id, the text of a user id or attribute and the issuers of a signature; keys are version 4;
    errors that do not come from a freed object (SelfSig, KeyOps, SigAttrs model those) are left out. Definitions only. *)
From Verif Require Import Base Text.

Definition ref := nat.
Inductive lkind := Sigs | Users | Subs.
Inductive obj :=
| OList (k : lkind) (items : list ref)
| OKey (secret : bool) (id : text) (sigs uids attrs subs : ref)        (* TransferablePublicKey, TransferableSecretKey *)
| OSub (secret : bool) (id : text) (primary : ref) (sigs : ref)        (* PublicSubkey, SecretSubkey; [primary] is weak *)
| OUser (data : text) (primary : ref) (sigs : ref)                     (* UserID, UserAttribute; [primary] is weak *)
| OSig (issuers : list text) (target : ref).                           (* KeySignature; [target] is weak *)
(** every object ever made (its place is its identity) and what the variables of the program hold *)
Definition heap := list obj.
Record state := State { objs : heap; vars : nat -> option ref }.
Definition set_var (s : state) (v : nat) (x : option ref) : state := State (objs s) (fun w => if Nat.eqb v w then x else vars s w).

(** a strong reference from one object to another *)
Inductive holds (h : heap) : ref -> ref -> Prop :=
| H_item l k it x : nth_error h l = Some (OList k it) -> In x it -> holds h l x
| H_ksigs x b i s u a c : nth_error h x = Some (OKey b i s u a c) -> holds h x s
| H_kuids x b i s u a c : nth_error h x = Some (OKey b i s u a c) -> holds h x u
| H_kattrs x b i s u a c : nth_error h x = Some (OKey b i s u a c) -> holds h x a
| H_ksubs x b i s u a c : nth_error h x = Some (OKey b i s u a c) -> holds h x c
| H_ssigs x b i p s : nth_error h x = Some (OSub b i p s) -> holds h x s
| H_usigs x d p s : nth_error h x = Some (OUser d p s) -> holds h x s.
(** still there *)
Inductive live (st : state) : ref -> Prop :=
| L_var v x : vars st v = Some x -> live st x
| L_held y x : live st y -> holds (objs st) y x -> live st x.

(** ** Construction: transferrable_keys.py:969-1043 *)
(** list.append *)
Fixpoint put (h : heap) (r : ref) (o : obj) : heap :=
  match h, r with [], _ => [] | _ :: t, O => o :: t | x :: t, S r => x :: put t r o end.
Definition append (h : heap) (l x : ref) : heap := match nth_error h l with Some (OList k it) => put h l (OList k (it ++ [x])) | _ => h end.
(** KeySignature.from_packet(packet, target), appended: 979-984, 994-998 *)
Fixpoint build_sigs (h : heap) (l t : ref) (sigs : list (list text)) : heap :=
  match sigs with [] => h | s :: r => build_sigs (append (h ++ [OSig s t]) l (length h)) l t r end.
(** a part with its own new list of signatures (630, 701, 826), appended to the key's list, then its signatures *)
Definition build_part (h : heap) (l : ref) (mk : text -> ref -> obj) (p : text * list (list text)) : heap :=
  let sl := length h in
  let x := S sl in
  build_sigs (append (h ++ [OList Sigs []; mk (fst p) sl]) l x) sl x (snd p).
Fixpoint build_parts (h : heap) (l : ref) (mk : text -> ref -> obj) (ps : list (text * list (list text))) : heap :=
  match ps with [] => h | p :: r => build_parts (build_part h l mk p) l mk r end.
(** what the packets of a key say: key id, issuers of each signature on the key, then user ids, user attributes and subkeys with theirs *)
Record desc := Desc { d_id : text; d_sigs : list (list text); d_users : list (text * list (list text)); d_attrs : list (text * list (list text)); d_subs : list (text * list (list text)) }.
Definition read_key (h : heap) (secret : bool) (d : desc) : heap * ref :=
  let n := length h in
  let k := (4 + n)%nat in
  let h := h ++ [OList Sigs []; OList Users []; OList Users []; OList Subs []; OKey secret (d_id d) n (1 + n)%nat (2 + n)%nat (3 + n)%nat] in
  let h := build_sigs h n k (d_sigs d) in
  let h := build_parts h (1 + n)%nat (fun t sl => OUser t k sl) (d_users d) in
  let h := build_parts h (2 + n)%nat (fun t sl => OUser t k sl) (d_attrs d) in
  let h := build_parts h (3 + n)%nat (fun t sl => OSub secret t k sl) (d_subs d) in
  (h, k).

(** ** What the attributes and methods give *)
(** the weak reference of a part, or of a signature (parent) *)
Definition weak (o : obj) : option ref := match o with OSub _ _ p _ | OUser _ p _ => Some p | OSig _ t => Some t | _ => None end.
(** part.primary_public_key and signature.parent: the object, or None when it is gone (642-643, 710-711, signature.py:794-796) *)
Inductive deref (st : state) (x : ref) : option ref -> Prop :=
| D_there o p : nth_error (objs st) x = Some o -> weak o = Some p -> live st p -> deref st x (Some p)
| D_gone o p : nth_error (objs st) x = Some o -> weak o = Some p -> ~ live st p -> deref st x None.
Definition obj_id (h : heap) (x : ref) : list text :=
  match nth_error h x with Some (OSub _ i _ _) => [i] | Some (OKey _ i _ _ _ _) => [i] | _ => [] end.
(** the key ids of a key and of its subkeys: 175-178 *)
Definition own_ids (h : heap) (k : ref) : list text :=
  match nth_error h k with
  | Some (OKey _ i _ _ _ c) => i :: match nth_error h c with Some (OList _ it) => flat_map (obj_id h) it | _ => [] end
  | _ => []
  end.
(** bool(set(a) & set(b)) *)
Definition meet (a b : list text) : bool := existsb (fun k => existsb (zlist_eqb k) b) a.
Definition is_key (h : heap) (x : ref) : bool := match nth_error h x with Some (OKey _ _ _ _ _ _) => true | _ => false end.
(** 169-181 is_self_signature: None has no attributes *)
Inductive self_signature (st : state) (s : ref) : res bool -> Prop :=
| S_parent_gone : deref st s None -> self_signature st s (Err AttributeError)
| S_key is t : nth_error (objs st) s = Some (OSig is t) -> deref st s (Some t) -> is_key (objs st) t = true ->
    self_signature st s (Ok (meet is (own_ids (objs st) t)))
| S_part is t p : nth_error (objs st) s = Some (OSig is t) -> deref st s (Some t) -> deref st t (Some p) ->
    self_signature st s (Ok (meet is (own_ids (objs st) p)))
| S_primary_gone t : deref st s (Some t) -> deref st t None -> self_signature st s (Err AttributeError).
(** 91-114: every attribute that comes from a self signature asks this of each signature in turn *)
Inductive scan (st : state) : list ref -> res unit -> Prop :=
| Scan_nil : scan st [] (Ok tt)
| Scan_ok s b l r : self_signature st s (Ok b) -> scan st l r -> scan st (s :: l) r
| Scan_err s e l : self_signature st s (Err e) -> scan st (s :: l) (Err e).
Definition sigs_of (o : obj) : option ref := match o with OKey _ _ s _ _ _ => Some s | OSub _ _ _ s => Some s | OUser _ _ s => Some s | _ => None end.
Inductive attributes (st : state) (x : ref) : res unit -> Prop :=
| Attributes o l it r : nth_error (objs st) x = Some o -> sigs_of o = Some l -> nth_error (objs st) l = Some (OList Sigs it) -> scan st it r -> attributes st x r.
(** 655-663: a secret subkey converts if its primary key is still there (a weak reference to None is a TypeError) and its expiration time, an
    attribute from self signatures, can be read *)
Inductive convert_sub (st : state) (x : ref) : res unit -> Prop :=
| C_gone : deref st x None -> convert_sub st x (Err TypeError)
| C_ok i p s r : nth_error (objs st) x = Some (OSub true i p s) -> deref st x (Some p) -> attributes st x r -> convert_sub st x r.
Inductive convert_subs (st : state) : list ref -> res unit -> Prop :=
| Cs_nil : convert_subs st [] (Ok tt)
| Cs_ok x l r : convert_sub st x (Ok tt) -> convert_subs st l r -> convert_subs st (x :: l) r
| Cs_err x e l : convert_sub st x (Err e) -> convert_subs st (x :: l) (Err e).
(** 463-470, 1090-1095: the expiration time of the key, then its subkeys *)
Inductive convert (st : state) (k : ref) : res unit -> Prop :=
| Cv_err e : attributes st k (Err e) -> convert st k (Err e)
| Cv_subs b i s u a c it r : nth_error (objs st) k = Some (OKey b i s u a c) -> attributes st k (Ok tt) -> nth_error (objs st) c = Some (OList Subs it) ->
    convert_subs st it r -> convert st k r.
(** to_signable_data, as the list of what it covers: 244-250, 459-461, 634-640, 686-695, 828-837. A secret key converts first; a secret subkey
    converts and so asks its primary twice (Signable.item_signable). *)
Inductive signable (st : state) : ref -> res (list text) -> Prop :=
| G_public k i s u a c : nth_error (objs st) k = Some (OKey false i s u a c) -> signable st k (Ok [i])
| G_secret k i s u a c : nth_error (objs st) k = Some (OKey true i s u a c) -> convert st k (Ok tt) -> signable st k (Ok [i])
| G_secret_err k i s u a c e : nth_error (objs st) k = Some (OKey true i s u a c) -> convert st k (Err e) -> signable st k (Err e)
| G_gone x : deref st x None -> signable st x (Err AttributeError)
| G_primary_err x p e : deref st x (Some p) -> signable st p (Err e) -> signable st x (Err e)
| G_user x d p s o : nth_error (objs st) x = Some (OUser d p s) -> deref st x (Some p) -> signable st p (Ok o) -> signable st x (Ok (o ++ [d]))
| G_sub x i p s o : nth_error (objs st) x = Some (OSub false i p s) -> deref st x (Some p) -> signable st p (Ok o) -> signable st x (Ok (o ++ [i]))
| G_secret_sub x i p s o : nth_error (objs st) x = Some (OSub true i p s) -> deref st x (Some p) -> signable st p (Ok o) -> convert_sub st x (Ok tt) ->
    signable st x (Ok (o ++ o ++ [i]))
| G_secret_sub_err x i p s o e : nth_error (objs st) x = Some (OSub true i p s) -> deref st x (Some p) -> signable st p (Ok o) -> convert_sub st x (Err e) ->
    signable st x (Err e).

(** ** Programs *)
Definition kind_of (o : obj) : option lkind := match o with OSig _ _ => Some Sigs | OUser _ _ _ => Some Users | OSub _ _ _ _ => Some Subs | _ => None end.
(** the public copy of a subkey keeps the same weak reference and the same list of signatures *)
Definition public_sub (o : obj) : obj := match o with OSub _ i p s => OSub false i p s | o => o end.
Definition public_subs (h : heap) (it : list ref) : heap := map (fun x => match nth_error h x with Some o => public_sub o | None => OList Subs [] end) it.
Inductive op := Read (v : nat) (secret : bool) (d : desc) | Public (v w : nat) | PublicSub (v w : nat) | Copy (v w : nat) | Take (v w : nat) (x : ref) | Up (v w : nat) | Del (v : nat) | Append (v w : nat).
Inductive step (st : state) : op -> state -> Prop :=
| T_read v b d h k : read_key (objs st) b d = (h, k) -> step st (Read v b d) (set_var (State h (vars st)) v (Some k))
| T_public v w k i s u a c it : vars st v = Some k -> nth_error (objs st) k = Some (OKey true i s u a c) -> nth_error (objs st) c = Some (OList Subs it) ->
    convert st k (Ok tt) ->
    step st (Public v w) (set_var (State (objs st ++ public_subs (objs st) it ++
      [OList Subs (seq (length (objs st)) (length it)); OKey false i s u a (length (objs st) + length it)%nat]) (vars st)) w (Some (1 + length (objs st) + length it)%nat))
| T_public_sub v w x i p s : vars st v = Some x -> nth_error (objs st) x = Some (OSub true i p s) -> convert_sub st x (Ok tt) ->
    step st (PublicSub v w) (set_var (State (objs st ++ [OSub false i p s]) (vars st)) w (Some (length (objs st))))
| T_copy v w x : vars st v = Some x -> step st (Copy v w) (set_var st w (Some x))
| T_take v w x y : vars st v = Some x -> holds (objs st) x y -> step st (Take v w y) (set_var st w (Some y))
| T_up v w x r : vars st v = Some x -> deref st x r -> step st (Up v w) (set_var st w r)
| T_del v : step st (Del v) (set_var st v None)
| T_append v w l x k it o : vars st v = Some l -> vars st w = Some x -> nth_error (objs st) l = Some (OList k it) -> nth_error (objs st) x = Some o ->
    kind_of o = Some k -> step st (Append v w) (State (append (objs st) l x) (vars st)).
Definition empty : state := State [] (fun _ => None).
Inductive runs (st : state) : list op -> state -> Prop :=
| R_nil : runs st [] st
| R_cons o l st1 st2 : step st o st1 -> runs st1 l st2 -> runs st (o :: l) st2.
