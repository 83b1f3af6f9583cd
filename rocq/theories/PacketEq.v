(** The [==] of packet objects: the __eq__ methods of pgp/packets/packets.py, signature_subpackets.py,
    user_attribute_subpackets.py and pgp/s2k.py. Definitions only. Fields compare by value in Python: octet strings
    (bytes or bytearray) with each other, text with text, None only with None. *)
From Verif Require Import Base Utils Framing Text Armor S2k SessionKeys KeyPackets SigPackets DataPackets UserAttr Packets.

(** None, or a value *)
Definition opt_eq {A} (eq : A -> A -> bool) (a b : option A) : bool :=
  match a, b with None, None => true | Some x, Some y => eq x y | _, _ => false end.
(** list == list *)
Fixpoint list_eq {A} (eq : A -> A -> bool) (a b : list A) : bool :=
  match a, b with [], [] => true | x :: s, y :: t => eq x y && list_eq eq s t | _, _ => false end.
Definition hf_eq (a b : header_format) : bool := match a, b with NewH, NewH => true | OldH, OldH => true | _, _ => false end.

(** pgp/s2k.py:27-34 (salt and count are None in the classes without them) and 181-187 GnuPGS2K *)
Definition s2k_eq (a b : s2k) : bool :=
  match a, b with
  | SimpleS2K h s, SimpleS2K h' s' => (h =? h') && (s =? s')
  | SaltedS2K h s salt, SaltedS2K h' s' salt' => (h =? h') && (s =? s') && zlist_eqb salt salt'
  | IteratedS2K h s salt c, IteratedS2K h' s' salt' c' => (h =? h') && (s =? s') && zlist_eqb salt salt' && (c =? c')
  | GnuPGS2K h m s n l, GnuPGS2K h' m' s' n' l' =>
      (h =? h') && (s =? s') && (m =? m') && opt_eq zlist_eqb n n' && opt_eq Z.eqb l l'
  | _, _ => false
  end.
(** packets.py:188-195 PublicKeyEncryptedSessionKeyPacket *)
Definition pkesk_eq (a b : pkesk) : bool :=
  (pk_version a =? pk_version b) && opt_eq zlist_eqb (pk_key_id a) (pk_key_id b) && (pk_alg a =? pk_alg b)
  && zlist_eqb (pk_esk a) (pk_esk b).
(** packets.py:556-563 SymmetricKeyEncryptedSessionKeyPacket *)
Definition skesk_eq (a b : skesk) : bool :=
  (sk_version a =? sk_version b) && (sk_sym a =? sk_sym b) && s2k_eq (sk_s2k a) (sk_s2k b)
  && opt_eq zlist_eqb (sk_esk a) (sk_esk b).
(** packets.py:664-672 OnePassSignaturePacket: the version is not compared *)
Definition onepass_eq (a b : onepass) : bool :=
  (op_sigtype a =? op_sigtype b) && (op_hash a =? op_hash b) && (op_pk a =? op_pk b)
  && zlist_eqb (op_key_id a) (op_key_id b) && (op_nested a =? op_nested b).
(** packets.py:759-772 PublicKeyPacket *)
Definition pub_eq (a b : pubkey) : bool :=
  (k_version a =? k_version b) && (k_ctime a =? k_ctime b) && (k_alg a =? k_alg b)
  && opt_eq Z.eqb (KeyPackets.k_exp a) (KeyPackets.k_exp b) && opt_eq Z.eqb (k_n a) (k_n b) && opt_eq Z.eqb (k_e a) (k_e b)
  && opt_eq Z.eqb (k_p a) (k_p b) && opt_eq Z.eqb (k_g a) (k_g b) && opt_eq Z.eqb (k_q a) (k_q b)
  && opt_eq Z.eqb (k_y a) (k_y b).
(** packets.py:922-931 SecretKeyPacket *)
Definition sec_eq (a b : seckey) : bool :=
  pub_eq (s_pub a) (s_pub b) && opt_eq s2k_eq (s_s2k a) (s_s2k b) && (s_sym a =? s_sym b) && zlist_eqb (s_iv a) (s_iv b)
  && zlist_eqb (s_enc a) (s_enc b) && Bool.eqb (s_checksum a) (s_checksum b) && Bool.eqb (s_hash a) (s_hash b).
(** user_attribute_subpackets.py:30-34 and 90-97 *)
Definition attr_eq (a b : attr) : bool :=
  match a, b with
  | AUnknown t, AUnknown t' => t =? t'
  | AImage v l f d, AImage v' l' f' d' => (v =? v') && (l =? l') && opt_eq Z.eqb f f' && zlist_eqb d d'
  | _, _ => false
  end.
Definition ltime_eq (a b : ltime) : bool := match a, b with TInt x, TInt y => x =? y | TDate x, TDate y => x =? y | _, _ => false end.
Definition ldata_eq (a b : ldata) : bool :=
  match a, b with LBytes x, LBytes y => zlist_eqb x y | LText x, LText y => zlist_eqb x y | _, _ => false end.
(** packets.py:1174-1179, 1201-1205, 1281-1288, 1337-1342, 1377-1381, 1416-1420, 1490-1495, 1518-1522, 1568-1574; 103-108 for
    the packets of a type without a class, where the content is not compared *)
Definition data_eq (a b : dpacket) : bool :=
  match a, b with
  | PCompressed g d, PCompressed g' d' => (g =? g') && zlist_eqb d d'
  | PSymEnc d, PSymEnc d' => zlist_eqb d d'
  | PLiteral f n t d, PLiteral f' n' t' d' => (f =? f') && zlist_eqb n n' && ltime_eq t t' && ldata_eq d d'
  | PTrust v c, PTrust v' c' => (v =? v') && opt_eq Z.eqb c c'
  | PUserId u, PUserId u' => zlist_eqb u u'
  | PComment ty c, PComment ty' c' => (ty =? ty') && zlist_eqb c c'
  | PSeipd v d, PSeipd v' d' => (v =? v') && zlist_eqb d d'
  | PMdc d, PMdc d' => zlist_eqb d d'
  | PControl m c d, PControl m' c' d' => zlist_eqb m m' && (c =? c') && zlist_eqb d d'
  | POther ty _, POther ty' _ => ty =? ty'
  | _, _ => false
  end.

(** signature_subpackets.py:34-41: a subpacket compares, and hashes, as its class and its octets. The class follows from the
    type, but for the objects of the base class. *)
Definition sub_class (s : subpkt) : option Z := match s with Sub ty _ SbUnknown => None | Sub ty _ _ => Some ty end.
Definition sub_key (fl : Z -> Z) (s : subpkt) : res (option Z * bytes) := do b <- sub_bytes fl s;; Ok (sub_class s, b).
Definition key_eq (a b : option Z * bytes) : bool := opt_eq Z.eqb (fst a) (fst b) && zlist_eqb (snd a) (snd b).
(** set(a) == set(b): building a set asks for the hash, hence the octets, of each member *)
Definition sets_eq (fl : Z -> Z) (a b : list subpkt) : res bool :=
  do ka <- mapM (sub_key fl) a;;
  do kb <- mapM (sub_key fl) b;;
  Ok (forallb (fun x => existsb (key_eq x) kb) ka && forallb (fun x => existsb (key_eq x) ka) kb).
(** packets.py:439-450 SignaturePacket: objects of version 2 and 3 have no lists of subpackets (425-427) *)
Definition heads_eq (v st pk ha : Z) (h2 : bytes) (vs : list Z) (v' st' pk' ha' : Z) (h2' : bytes) (vs' : list Z) : bool :=
  (v =? v') && (st =? st') && (pk =? pk') && (ha =? ha') && zlist_eqb h2 h2' && zlist_eqb vs vs'.
Definition sig_eq (fl : Z -> Z) (a b : sigpkt) : res bool :=
  match a, b with
  | SigV4 v st pk ha h2 vs hs us, SigV4 v' st' pk' ha' h2' vs' hs' us' =>
      if heads_eq v st pk ha h2 vs v' st' pk' ha' h2' vs' then
        do e <- sets_eq fl hs hs';;
        if e then sets_eq fl us us' else Ok false
      else Ok false
  | SigV3 v st pk ha h2 vs _ _, SigV3 v' st' pk' ha' h2' vs' _ _ =>
      if heads_eq v st pk ha h2 vs v' st' pk' ha' h2' vs' then Err AttributeError else Ok false
  | SigV3 v st pk ha h2 vs _ _, SigV4 v' st' pk' ha' h2' vs' _ _ =>
      if heads_eq v st pk ha h2 vs v' st' pk' ha' h2' vs' then Err AttributeError else Ok false
  | SigV4 v st pk ha h2 vs hs us, SigV3 v' st' pk' ha' h2' vs' _ _ =>
      if heads_eq v st pk ha h2 vs v' st' pk' ha' h2' vs' then
        do _ <- mapM (sub_key fl) hs;; Err AttributeError
      else Ok false
  end.

(** packets.py:103-108 and the classes above it: same class, header format and type, then the fields of the class *)
Definition body_eq (fl : Z -> Z) (a b : pbody) : res bool :=
  match a, b with
  | BPkesk x, BPkesk y => Ok (pkesk_eq x y)
  | BSig x, BSig y => sig_eq fl x y
  | BSkesk x, BSkesk y => Ok (skesk_eq x y)
  | BOnePass x, BOnePass y => Ok (onepass_eq x y)
  | BSec s x, BSec t y => Ok (Bool.eqb s t && sec_eq x y)
  | BPub s x, BPub t y => Ok (Bool.eqb s t && pub_eq x y)
  | BAttr x, BAttr y => Ok (list_eq attr_eq x y)
  | BData x, BData y => Ok (data_eq x y)
  | _, _ => Ok false
  end.
Definition pkt_eq (fl : Z -> Z) (a b : pkt) : res bool :=
  if hf_eq (p_fmt a) (p_fmt b) then body_eq fl (p_body a) (p_body b) else Ok false.
