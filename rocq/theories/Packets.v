(** The packet classes together: pgp/packets/packets.py PACKET_TYPES and Packet.__bytes__ of every class. Definitions only. *)
From Verif Require Import Base Utils Framing Text Armor S2k SessionKeys KeyPackets SigPackets DataPackets UserAttr.

(** the object built from the content of a packet; [sub] marks the two subkey classes (1107-1134) *)
Inductive pbody :=
| BPkesk (p : pkesk) | BSig (s : sigpkt) | BSkesk (p : skesk) | BOnePass (p : onepass)
| BSec (sub : bool) (k : seckey) | BPub (sub : bool) (k : pubkey) | BAttr (l : list attr) | BData (d : dpacket).
(** pgp/packets/packets.py:85-105: every packet object has a header format and a type *)
Record pkt := Pkt { p_fmt : header_format; p_body : pbody }.

(** pgp/packets/packets.py:1584-1614 PACKET_TYPES.get(tag, Packet).from_packet_content *)
Definition body_dec (ty : Z) (data : bytes) : res pbody :=
  if ty =? 1 then do p <- pkesk_from_content data;; Ok (BPkesk p)
  else if ty =? 2 then do p <- sig_from_content data;; Ok (BSig p)
  else if ty =? 3 then do p <- skesk_from_content data;; Ok (BSkesk p)
  else if ty =? 4 then do p <- onepass_from_content data;; Ok (BOnePass p)
  else if ty =? 5 then do p <- sec_from_content data;; Ok (BSec false p)
  else if ty =? 7 then do p <- sec_from_content data;; Ok (BSec true p)
  else if ty =? 6 then do p <- pub_from_content data;; Ok (BPub false p)
  else if ty =? 14 then do p <- pub_from_content data;; Ok (BPub true p)
  else if ty =? 17 then do p <- attrs_from_content data;; Ok (BAttr p)
  else do p <- data_from ty data;; Ok (BData p).
Definition pkt_dec (r : raw_packet) : res pkt := do b <- body_dec (ptype r) (pcontent r);; Ok (Pkt (hfmt r) b).

(** the type each class passes to Packet.__init__ *)
Definition body_type (b : pbody) : Z :=
  match b with
  | BPkesk _ => 1 | BSig _ => 2 | BSkesk _ => 3 | BOnePass _ => 4
  | BSec false _ => 5 | BSec true _ => 7 | BPub false _ => 6 | BPub true _ => 14
  | BAttr _ => 17 | BData d => data_type d
  end.
Definition pkt_type (p : pkt) : Z := body_type (p_body p).
(** the content property of each class. [rec] : see sec_content *)
Definition body_content (fl : Z -> Z) (rec : seckey -> res bytes) (b : pbody) : res bytes :=
  match b with
  | BPkesk p => pkesk_content p | BSig s => sig_content fl s | BSkesk p => skesk_content fl p | BOnePass p => onepass_content p
  | BSec _ k => sec_content fl (rec k) k | BPub _ k => pub_content fl k | BAttr l => attrs_content l | BData d => data_content d
  end.
(** 121-153 __bytes__ *)
Definition pkt_bytes (fl : Z -> Z) (rec : seckey -> res bytes) (p : pkt) : res bytes :=
  do d <- body_content fl rec (p_body p);;
  packet_bytes (Raw (p_fmt p) (pkt_type p) d).
(** pgp/packets/parsers.py:43-45 parse_ascii_packet_data *)
Definition parse_ascii_packet_data (txt : text) : res (list pkt * option exn) :=
  do a <- from_ascii txt;; Ok (parse_binary_packet_data pkt_dec (adata a)).
