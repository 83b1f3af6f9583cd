(** Model of pgp/transferrable_keys.py:193-237, 436-480 (key objects and packets), 669-688, 728-806 (user ids and attributes), 838-1066
    (validate_transferrable_key, from_packets, to_packets) and pgp/signature.py:129-180. Definitions only. *)
From Verif Require Import Base Utils Framing Text Armor S2k SessionKeys KeyPackets SigPackets DataPackets UserAttr Packets.

Definition InvalidKeyPacketOrder := PgpError 50.
Definition InvalidKeyPacketType := PgpError 51.
(** packet.signature_type; packets of type 2 are signature packets *)
Definition sig_ty (p : pkt) : Z := match p_body p with BSig (SigV3 _ t _ _ _ _ _ _) => t | BSig (SigV4 _ t _ _ _ _ _ _) => t | _ => -1 end.
(** packet.version of a key packet *)
Definition key_version (p : pkt) : res Z := match p_body p with BPub _ k => Ok (k_version k) | BSec _ k => Ok (k_version (s_pub k)) | _ => Err AttributeError end.
Definition key_type (secret : bool) : Z := if secret then 5 else 6.
Definition subkey_type (secret : bool) : Z := if secret then 7 else 14.
(** 854-858: j goes back over trust packets; the packets j, j-1, ..., 0. The first packet is a key, so j stays in range. *)
Fixpoint strip_trust (l : list pkt) : list pkt := match l with p :: t => if pkt_type p =? 12 then strip_trust t else l | [] => [] end.
Definition before (pre : list pkt) : list pkt := strip_trust (rev pre).
Definition is_one (t : Z) (l : list Z) : bool := existsb (Z.eqb t) l.
(** for t in type_order[:i]: if t not in (...) raise *)
Definition only (l : list Z) (pre : list pkt) : bool := forallb (fun p => is_one (pkt_type p) l) pre.
Definition check (b : bool) (e : exn) : res unit := if b then Ok tt else Err e.
(** 861-957, for packet i: [pre] are the packets before it, [next] the one after it *)
Definition step (secret : bool) (version : Z) (pre : list pkt) (x : pkt) (next : option pkt) : res unit :=
  let kt := key_type secret in let this := pkt_type x in
  if this =? kt then check (zlen pre =? 0) InvalidKeyPacketOrder
  else if this =? 2 then
    match filter (fun p => negb (is_one (pkt_type p) [2; 12])) (before pre) with
    | [] => Err IndexError
    | q :: _ =>
        let t := sig_ty x in
        if t =? 31 then check (only [kt; 2] pre) InvalidKeyPacketOrder
        else if t =? 24 then
          if negb (pkt_type q =? subkey_type secret) then Err InvalidKeyPacketOrder
          else match before pre with
               | y :: _ => check (negb ((pkt_type y =? 2) && negb (sig_ty y =? 24))) InvalidKeyPacketOrder
               | [] => Err IndexError
               end
        else if t =? 32 then check (only [kt; 2; 12] pre) InvalidKeyPacketOrder
        else if t =? 40 then
          match before pre with
          | y :: _ => check ((pkt_type y =? 2) && (sig_ty y =? 40)) InvalidKeyPacketOrder
          | [] => Err IndexError
          end
        else if is_one t [16; 17; 18; 19; 48] then check (is_one (pkt_type q) [13; 17; 12]) InvalidKeyPacketOrder
        else Err InvalidKeyPacketType
    end
  else if this =? 13 then check (only [kt; 2; 13; 12] pre) InvalidKeyPacketOrder
  else if this =? 17 then check (only [kt; 2; 13; 17; 12] pre) InvalidKeyPacketOrder
  else if (this =? 14) || (this =? 7) then
    if version <? 4 then Err InvalidKeyPacketType
    else match next with
         | None => Err IndexError
         | Some n => check ((pkt_type n =? 2) && (sig_ty n =? 24)) InvalidKeyPacketOrder
         end
  else if this =? 12 then
    match before pre with
    | y :: _ => check (pkt_type y =? 2) InvalidKeyPacketOrder
    | [] => Err InvalidKeyPacketOrder
    end
  else Err InvalidKeyPacketType.
Fixpoint validate_from (secret : bool) (version : Z) (pre rest : list pkt) : res unit :=
  match rest with
  | [] => Ok tt
  | x :: t => do _ <- step secret version pre x (hd_error t);; validate_from secret version (pre ++ [x]) t
  end.
(** 838-957 *)
Definition validate_key (secret : bool) (l : list pkt) : res unit :=
  match l with
  | [] => Err IndexError
  | k :: _ => if negb (pkt_type k =? key_type secret) then Err InvalidKeyPacketOrder else do v <- key_version k;; validate_from secret v [] l
  end.

(** ** objects *)
Section Times.
(** datetime.fromtimestamp, time.mktime of its timetuple, and magic.from_buffer(data[:1024]) *)
Variables (local mktime : Z -> res Z) (magic : bytes -> text).
(** KeySignature.from_packet and to_packet (signature.py:129-180). Of a version 3 signature the creation_time property fails. *)
Record sobject := SObject { o_fmt : header_format; o_sig : sigpkt; o_made : Z }.
Definition sig_from (p : pkt) : res sobject :=
  match p_body p with
  | BSig (SigV3 v t pk h h2 vs ct kid) => if (v =? 2) || (v =? 3) then do d <- local ct;; Ok (SObject (p_fmt p) (SigV3 v t pk h h2 vs ct kid) d) else Err ValueError
  | BSig (SigV4 v t pk h h2 vs hs us) => if 4 <=? v then Ok (SObject (p_fmt p) (SigV4 v t pk h h2 vs hs us) 0) else Err ValueError
  | _ => Err AttributeError
  end.
Definition sig_to (s : sobject) : res pkt :=
  match o_sig s with SigV3 _ _ _ _ _ _ _ _ => Err TypeError | g => Ok (Pkt (o_fmt s) (BSig g)) end.
(** key objects: the packet's numbers, the creation time and the expiration time as datetimes (193-221), and for secret keys the other fields
    of the packet *)
Record kobject := KObject { ko_fmt : header_format; ko_pub : pubkey; ko_created : Z; ko_expires : option Z; ko_sec : option seckey }.
Definition days : Z := 86400 * 1000000.
Definition key_from_pub (f : header_format) (k : pubkey) (sec : option seckey) : res kobject :=
  do c <- local (k_ctime k);;
  let e := if k_version k <? 4 then None else match k_exp k with None => None | Some 0 => None | Some d => Some (c + d * days) end in
  Ok (KObject f k c e sec).
Definition key_from (secret : bool) (p : pkt) : res kobject :=
  match p_body p with
  | BPub _ k => if secret then Err AttributeError else key_from_pub (p_fmt p) k None
  | BSec _ k => key_from_pub (p_fmt p) (s_pub k) (if secret then Some k else None)
  | _ => Err AttributeError
  end.
(** 223-237 and 476-480: for version < 4 the expiration time is the stored one, and a datetime minus a number is a TypeError *)
Definition key_to (sub : bool) (k : kobject) : res pkt :=
  do ct <- mktime (ko_created k);;
  do _ <- (if (k_version (ko_pub k) <? 4) && is_v23 (k_version (ko_pub k)) then match ko_expires k with Some _ => Err TypeError | None => Ok tt end else Ok tt);;
  let q := ko_pub k in
  let pub := PubKey (k_version q) ct (k_alg q) None (k_n q) (k_e q) (k_p q) (k_q q) (k_g q) (k_y q) in
  match ko_sec k with
  | None => Ok (Pkt (ko_fmt k) (BPub sub pub))
  | Some s => match s_s2k s with None => Err ValueError | Some _ => Ok (Pkt (ko_fmt k) (BSec sub (SecKey pub (s_s2k s) (s_sym s) (s_iv s) (s_enc s) (s_checksum s) (s_hash s)))) end
  end.
(** 669-679 *)
Definition uid_from (p : pkt) : res (header_format * text) := match p_body p with BData (PUserId u) => Ok (p_fmt p, u) | _ => Err AttributeError end.
Definition uid_to (u : header_format * text) : res pkt := Ok (Pkt (fst u) (BData (PUserId (snd u)))).
(** 728-765: an item is a media type and its data. A media type that is not an image gives None, on which Python fails when the packet is
    written; here at once. *)
Definition image_jpeg : text := [105; 109; 97; 103; 101; 47; 106; 112; 101; 103].
Definition item_from (a : attr) : res (text * bytes) :=
  match a with
  | AImage _ _ (Some 1) d => Ok (image_jpeg, d)
  | AImage _ _ _ d => Ok (magic (slice d 0 1024), d)
  | AUnknown _ => Err AttributeError
  end.
Definition item_to (i : text * bytes) : res attr :=
  if zlist_eqb (slice (fst i) 0 6) [105; 109; 97; 103; 101; 47] || zlist_eqb (fst i) [105; 109; 97; 103; 101] then
    Ok (AImage 1 16 (Some (if zlist_eqb (slice_from (fst i) (-5)) [47; 106; 112; 101; 103] then 1 else 101)) (snd i))
  else Err AttributeError.
Definition attr_from (p : pkt) : res (header_format * list (text * bytes)) :=
  match p_body p with BAttr l => do i <- mapM item_from l;; Ok (p_fmt p, i) | _ => Err AttributeError end.
Definition attr_to (a : header_format * list (text * bytes)) : res pkt := do l <- mapM item_to (snd a);; Ok (Pkt (fst a) (BAttr l)).

(** 969-1047: the loops. [spans] groups packets of the given types with the signatures after them and stops at anything else. *)
Fixpoint span_sigs (l : list pkt) : list pkt * list pkt :=
  match l with p :: t => if pkt_type p =? 2 then let '(a, b) := span_sigs t in (p :: a, b) else ([], l) | [] => ([], []) end.
Fixpoint spans (fuel : nat) (tys : list Z) (l : list pkt) : list (pkt * list pkt) * list pkt :=
  match fuel, l with
  | S f, p :: t => if is_one (pkt_type p) tys then let '(s, r) := span_sigs t in let '(g, r) := spans f tys r in ((p, s) :: g, r) else ([], l)
  | _, _ => ([], l)
  end.
Record tkey := TKey { tk_secret : bool; tk_key : kobject; tk_sigs : list sobject; tk_uids : list ((header_format * text) * list sobject);
  tk_attrs : list ((header_format * list (text * bytes)) * list sobject); tk_subs : list (kobject * list sobject) }.
Definition with_sigs {A} (f : pkt -> res A) (g : pkt * list pkt) : res (A * list sobject) := do a <- f (fst g);; do s <- mapM sig_from (snd g);; Ok (a, s).
Definition from_packets (secret : bool) (l : list pkt) : res tkey :=
  do _ <- validate_key secret l;;
  match l with
  | [] => Err IndexError
  | p :: t =>
      do k <- key_from secret p;;
      let '(s, r) := span_sigs t in
      do sigs <- mapM sig_from s;;
      let '(us, r) := spans (length r) [13] r in
      do uids <- mapM (with_sigs uid_from) us;;
      let '(ats, r) := spans (length r) [17] r in
      do attrs <- mapM (with_sigs attr_from) ats;;
      let '(sb, r) := spans (length r) [14; 7] r in
      do subs <- mapM (with_sigs (key_from secret)) sb;;
      Ok (TKey secret k sigs uids attrs subs)
  end.
(** 1049-1066 *)
Definition emit {A} (f : A -> res pkt) (g : A * list sobject) : res (list pkt) := do p <- f (fst g);; do s <- mapM sig_to (snd g);; Ok (p :: s).
Definition to_packets (k : tkey) : res (list pkt) :=
  do p <- key_to false (tk_key k);;
  do s <- mapM sig_to (tk_sigs k);;
  do u <- mapM (emit uid_to) (tk_uids k);;
  do a <- mapM (emit attr_to) (tk_attrs k);;
  do b <- mapM (emit (key_to true)) (tk_subs k);;
  Ok (p :: s ++ concat u ++ concat a ++ concat b).
End Times.
