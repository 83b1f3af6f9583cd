(** Specification of a keyring file as a list of keys. *)
From Verif Require Import Base Utils Framing SpecFraming Text Armor S2k SessionKeys KeyPackets SigPackets DataPackets UserAttr Packets Keyring.

Section Ring.
Variables (fl : Z -> Z) (md5 sha1 : bytes -> bytes).
(** a key in the file: its packets, each with its octets, and the last 8 digits of its key id *)
Record entry := Entry { e_id : text; e_parts : list (pkt * bytes) }.
Definition octets (l : list (pkt * bytes)) : bytes := concat (map snd l).
Definition e_bytes (e : entry) : bytes := octets (e_parts e).
Definition e_pkts (e : entry) : list pkt := map fst (e_parts e).
Definition file_of (es : list entry) : bytes := concat (map e_bytes es).
(** a packet with a definite length, which the library decodes *)
Definition part_ok (x : pkt * bytes) : Prop := exists r, rfc_packet false r (snd x) /\ pkt_dec r = Ok (fst x).
(** a key packet and then packets that are not keys *)
Definition entry_ok (e : entry) : Prop :=
  Forall part_ok (e_parts e) /\ exists k t kid, e_pkts e = k :: t /\ (pkt_type k = 5 \/ pkt_type k = 6) /\ pkt_key_id fl md5 sha1 k = Ok kid /\ e_id e = short kid /\
  Forall (fun p => pkt_type p <> 5 /\ pkt_type p <> 6) t.
(** the newest key with an id, and the keys before it *)
Fixpoint newest (id : text) (es : list entry) : option entry :=
  match es with [] => None | e :: t => match newest id t with Some x => Some x | None => if zlist_eqb (e_id e) id then Some e else None end end.
Fixpoint before_newest (id : text) (es : list entry) : list entry :=
  match es with [] => [] | e :: t => match newest id t with Some _ => e :: before_newest id t | None => [] end end.
Definition e_fmt (e : entry) : option header_format := match e_pkts e with p :: _ => Some (p_fmt p) | [] => None end.
Definition file_fmt (pref : option header_format) (es : list entry) : option header_format := match pref with Some h => Some h | None => match es with e :: _ => e_fmt e | [] => None end end.

(** A ring that represents the list of keys. *)
Definition rep (r : ring) (es : list entry) : Prop :=
  r_file r = file_of es /\ Forall entry_ok es /\ r_read_only r = false /\ (forall id, lookup (r_table r) id = match newest id es with Some _ => Some (zlen (file_of (before_newest id es))) | None => None end) /\
  r_pref r = file_fmt (r_pref r) es /\ map fst (r_table r) = rev (map e_id es).
(** What a key object writes: with each header format, an entry under the last 8 digits of its fingerprint *)
Definition writes (k : kobj) (f : text) (ent : option header_format -> entry) : Prop :=
  ko_fp k = Ok f /\ 8 < zlen f /\ forall h, ko_bytes k h = Ok (e_bytes (ent h)) /\ entry_ok (ent h) /\ e_id (ent h) = short f.

(** ** the operations on the list of keys, as the code performs them *)
Definition of_op (o : op) : kobj := match o with Add k => k | Update k => k | Delete k => k end.
Definition list_step (ent : kobj -> option header_format -> entry) (s : list entry * option header_format) (o : op) : list entry * option header_format :=
  let '(es, pref) := s in
  let id := e_id (ent (of_op o) None) in
  let es' := match o with
             | Add k => es ++ [ent k pref]
             | Update k => match newest id es with Some e => before_newest id es ++ [ent k (e_fmt e)] | None => es end
             | Delete k => match newest id es with Some e => before_newest id es | None => es end
             end in
  (es', file_fmt pref es').
Definition list_run (ent : kobj -> option header_format -> entry) (ops : list op) (s : list entry * option header_format) := fold_left (list_step ent) ops s.

(** ** the operations on a map from ids to what was stored *)
Definition stored := text -> option (option header_format -> entry).
Definition set_id (m : stored) (id : text) (v : option (option header_format -> entry)) : stored := fun x => if zlist_eqb x id then v else m x.
Definition map_step (ent : kobj -> option header_format -> entry) (m : stored) (o : op) : stored :=
  let id := e_id (ent (of_op o) None) in match o with Delete _ => set_id m id None | _ => set_id m id (Some (ent (of_op o))) end.
Definition initial (es : list entry) : stored := fun id => match newest id es with Some e => Some (fun _ => e) | None => None end.
(** a history in which only new keys are added and only the key at the end of the file is replaced or deleted *)
Fixpoint tidy (ent : kobj -> option header_format -> entry) (s : list entry * option header_format) (ops : list op) : Prop :=
  match ops with
  | [] => True
  | o :: t =>
      let id := e_id (ent (of_op o) None) in
      match o with Add _ => newest id (fst s) = None | _ => exists l e, fst s = l ++ [e] /\ e_id e = id end /\ tidy ent (list_step ent s o) t
  end.
(** every operation of the history is about a key that can be written *)
Definition all_write (ent : kobj -> option header_format -> entry) (ops : list op) : Prop := Forall (fun o => exists f, writes (of_op o) f (ent (of_op o))) ops.
(** the object made from a stored key: compressed data packets (type 8) do not belong to it *)
Definition make {K} (build : bool -> list pkt -> res K) (e : entry) : res K := match e_pkts e with p :: t => build (pkt_type p =? 5) (p :: filter (fun q => negb (pkt_type q =? 8)) t) | [] => Err KeyError end.
End Ring.
