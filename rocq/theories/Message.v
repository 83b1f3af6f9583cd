(** Model of pgp/message.py: message objects, their packets, and encryption of message data. Definitions only.
    Python's truth test of a message object is always true. Random octets are parameters. *)
From Verif Require Import Base Utils Text Utf8 Framing S2k Cipher SymCipher SessionKeys KeyPackets SigPackets DataPackets Packets.

(** pgp/signature.py:130-180: the fields of a (version 4) signature object are those of its packet; [ms_one_pass] is
    MessageSignature.one_pass (message.py:36-38, 628-631) *)
Record msig := MSig { ms_fmt : header_format; ms_sig : sigpkt; ms_one_pass : bool }.
(** pgp/message.py:238-256, 305-348, 372-381. [None] in SKPub: the attribute encrypted_key was never set. *)
Inductive skey :=
| SKSym (sym : Z) (s : s2k) (esk : option bytes)
| SKPub (fmt : header_format) (version : Z) (alg : Z) (key_id : option (list Z)) (esk : option bytes)
| SKDefault.
(** pgp/message.py:392-416 SymmetricallyEncryptedMessageData *)
Record encdata := EncData { ed_data : bytes; ed_integrity : bool; ed_version : option Z }.
(** pgp/message.py:137-204 (a timestamp is the datetime of an instant), 693-709, 634-663, 560-585 *)
Inductive message :=
| MText (d : ldata) (name : text) (t : Z)
| MBinary (d : ldata) (name : text) (t : Z)
| MCompressed (alg : Z) (data : bytes)
| MSigned (sigs : list msig) (m : option message) (one_pass : bool)
| MEncrypted (keys : list skey) (d : encdata).

(** message.py:141-151 LiteralMessage.from_packet. 117 = 'u', 116 = 't'. datetime.fromtimestamp of a datetime is a TypeError. *)
Definition literal_message (f : Z) (name : text) (tm : ltime) (d : ldata) : res message :=
  match tm with
  | TDate _ => Err TypeError
  | TInt t => Ok (if (f =? 117) || (f =? 116) then MText d name t else MBinary d name t)
  end.
(** message.py:551-557 parse_session_key_packet with 245-248 and 311-320, 334-348; only called for types 1 and 3.
    [if encrypted_key:] is false for an empty key. *)
Definition session_key_of (p : pkt) : res skey :=
  match p_body p with
  | BPkesk k => Ok (SKPub (p_fmt p) (pk_version k) (pk_alg k) (pk_key_id k) (match pk_esk k with [] => None | e => Some e end))
  | BSkesk k => Ok (SKSym (sk_sym k) (sk_s2k k) (sk_esk k))
  | _ => Err TypeError
  end.
(** message.py:395-408, 547-548. A packet of another class has no encrypted_data. *)
Definition encdata_of (p : pkt) : res encdata :=
  match p_body p with
  | BData (PSymEnc d) => Ok (EncData d false None)
  | BData (PSeipd v d) => Ok (EncData d true (Some v))
  | _ => Err AttributeError
  end.
Definition is_enc_type (t : Z) : bool := (t =? 9) || (t =? 18).
Definition is_esk_type (t : Z) : bool := (t =? 3) || (t =? 1).
(** message.py:569-573: while packet.type in encrypted_message_session_key_packet_types *)
Fixpoint esk_loop (keys : list skey) (p : pkt) (rest : list pkt) : res (list skey * pkt) :=
  if is_esk_type (pkt_type p) then
    do k <- session_key_of p;;
    match rest with
    | [] => Ok (keys ++ [k], p)
    | q :: rest' => esk_loop (keys ++ [k]) q rest'
    end
  else Ok (keys, p).
(** message.py:562-581 EncryptedMessageWrapper.from_packets *)
Definition encrypted_from (p : pkt) (rest : list pkt) : res message :=
  do (keys, q) <- esk_loop (if is_enc_type (pkt_type p) then [SKDefault] else []) p rest;;
  match keys with
  | [] => Err ValueError
  | _ => if is_enc_type (pkt_type q) || is_esk_type (pkt_type q) then do d <- encdata_of q;; Ok (MEncrypted keys d) else Err TypeError
  end.
(** message.py:731-746 open_pgp_message_from_packets, for a list that starts with neither kind of signature packet: no branch
    taken leaves [result] unbound. The packets after a literal or compressed packet are not looked at. *)
Definition open_plain (p : pkt) (rest : list pkt) : res message :=
  if is_enc_type (pkt_type p) || is_esk_type (pkt_type p) then encrypted_from p rest
  else match p_body p with
       | BData (PCompressed a d) => Ok (MCompressed a d)
       | BData (PLiteral f n t d) => literal_message f n t d
       | _ => Err UnboundLocalError
       end.
(** message.py:628-631 and signature.py:129-157 *)
Definition msig_of (fmt : header_format) (s : sigpkt) (one_pass : bool) : res msig :=
  match s with
  | SigV3 v _ _ _ _ _ _ _ => if (v =? 2) || (v =? 3) then Ok (MSig fmt s one_pass) else Err ValueError
  | SigV4 v _ _ _ _ _ _ _ => if 4 <=? v then Ok (MSig fmt s one_pass) else Err ValueError
  end.
(** message.py:639-658 SignedMessageWrapper.from_packets *)
Fixpoint signed_loop (ps : list pkt) (one_pass : bool) (sigs : list msig) (m : option message) : res message :=
  match ps with
  | [] => Ok (MSigned sigs m one_pass)
  | p :: ps =>
      match p_body p with
      | BOnePass _ => signed_loop ps true sigs m
      | BSig s => match m with
                  | Some _ => do g <- msig_of (p_fmt p) s one_pass;; signed_loop ps one_pass (sigs ++ [g]) m
                  | None => Err TypeError
                  end
      | _ => match m with
             | None => do x <- open_plain p [];; signed_loop ps one_pass sigs (Some x)
             | Some _ => Err TypeError
             end
      end
  end.
(** message.py:731-746 *)
Definition open_message (ps : list pkt) : res message :=
  match ps with
  | [] => Err IndexError
  | p :: rest => match p_body p with
                 | BOnePass _ | BSig _ => signed_loop ps false [] None
                 | _ => open_plain p rest
                 end
  end.

(** ** to_packets. [hf] is the header_format argument. *)
Definition hdr_or (hf : option header_format) (own : header_format) : header_format := match hf with Some h => h | None => own end.
(** message.py:289-299, 322-332; DefaultSessionKey has no to_packet *)
Definition skey_packet (hf : option header_format) (k : skey) : res pkt :=
  match k with
  | SKSym sym s esk => Ok (Pkt (hdr_or hf NewH) (BSkesk (Skesk 4 sym s esk)))
  | SKPub fmt v a kid (Some esk) => Ok (Pkt (hdr_or hf fmt) (BPkesk (Pkesk v kid a esk)))
  | SKPub _ _ _ _ None => Err AttributeError
  | SKDefault => Err AttributeError
  end.
(** message.py:528-541. A protected object without version cannot be written (bytearray.append(None)); that shows only when
    the packet is serialised, here already. *)
Definition encdata_packet (hf : option header_format) (d : encdata) : res pkt :=
  if ed_integrity d then
    match ed_version d with Some v => Ok (Pkt (hdr_or hf NewH) (BData (PSeipd v (ed_data d)))) | None => Err TypeError end
  else Ok (Pkt (hdr_or hf NewH) (BData (PSymEnc (ed_data d)))).
(** signature.py:159-180 to_packet: for versions 2 and 3 creation_time is datetime.fromtimestamp(a datetime), a TypeError *)
Definition msig_packet (hf : option header_format) (g : msig) : res pkt :=
  match ms_sig g with
  | SigV4 _ _ _ _ _ _ _ _ => Ok (Pkt (hdr_or hf (ms_fmt g)) (BSig (ms_sig g)))
  | SigV3 _ _ _ _ _ _ _ _ => Err TypeError
  end.
(** signature.py:325-331 issuer_key_ids: the key_id of every subpacket of type 16, hashed ones first; the attribute
    _issuer_key_ids that versions 2 and 3 read does not exist *)
Definition issuer_of (s : subpkt) : list (res (list Z)) :=
  if sub_type s =? 16 then [match sub_body s with SbIssuer k => Ok k | _ => Err AttributeError end] else [].
Definition issuer_key_ids (s : sigpkt) : res (list (list Z)) :=
  match s with
  | SigV4 _ _ _ _ _ _ hs us => mapM (fun x => x) (flat_map issuer_of (hs ++ us))
  | SigV3 _ _ _ _ _ _ _ _ => Err AttributeError
  end.
Definition sig_fields (s : sigpkt) : Z * Z * Z :=
  match s with SigV4 _ st pk ha _ _ _ _ => (st, pk, ha) | SigV3 _ st pk ha _ _ _ _ => (st, pk, ha) end.
(** message.py:668-686: one packet per signature, in order; nested is [i != len(signatures)], so 1 except for the last *)
Fixpoint onepass_packets (hf : option header_format) (sigs : list msig) : res (list pkt) :=
  match sigs with
  | [] => Ok []
  | g :: rest =>
      do ids <- issuer_key_ids (ms_sig g);;
      do k <- get ids 0;;
      let '(st, pk, ha) := sig_fields (ms_sig g) in
      do ps <- onepass_packets hf rest;;
      Ok (Pkt (hdr_or hf (ms_fmt g)) (BOnePass (OnePass 3 st ha pk k (match rest with [] => 0 | _ => 1 end))) :: ps)
  end.
(** message.py:163-164, 172-177, 193-198, 721-728, 618-625, 668-690 *)
Fixpoint to_packets (hf : option header_format) (m : message) : res (list pkt) :=
  match m with
  | MText d n t => Ok [Pkt (hdr_or hf NewH) (BData (PLiteral 117 n (TDate t) d))]
  | MBinary d n t => Ok [Pkt (hdr_or hf NewH) (BData (PLiteral 98 n (TDate t) d))]
  | MCompressed a d => Ok [Pkt (hdr_or hf NewH) (BData (PCompressed a d))]
  | MEncrypted keys d => do ks <- mapM (skey_packet hf) keys;; do p <- encdata_packet hf d;; Ok (ks ++ [p])
  | MSigned sigs m op =>
      do ops <- (if op then onepass_packets hf sigs else Ok []);;
      do ps <- (match m with Some m => to_packets hf m | None => Err AttributeError end);;
      do ss <- mapM (msig_packet hf) sigs;;
      Ok (ops ++ ps ++ ss)
  end.

(** ** encryption of message data *)
Section Enc.
(** block ciphers, SHA-1, and PyCrypto's decryption in OPENPGP mode *)
Variables (E : Z -> bytes -> bytes -> bytes) (sha1 : bytes -> bytes) (opgp_decrypt : Z -> option bytes -> bytes -> bytes -> res bytes).
Definition the_key (key : option bytes) : bytes := match key with Some k => k | None => [] end.
(** message.py:418-451 encrypt; [iv] is Random.new().read(block_len). 211, 20 is the MDC packet's header. *)
Definition encrypt_data (iv : bytes) (integrity : bool) (alg : Z) (key : option bytes) (msg : bytes) : res bytes :=
  match symmetric_cipher_block_lengths alg with
  | None => Err KeyError
  | Some bl =>
      do c <- get_cfb_cipher alg key (repeat 0 (Z.to_nat bl));;
      if integrity then
        let padding := bl - (zlen msg + 2 + 22) mod bl in
        do (d1, c) <- sym_encrypt E alg (the_key key) c iv;;
        let msg := msg ++ [211; 20] in
        let mdc := sha1 (iv ++ slice_from iv (-2) ++ msg) in
        do (d2, c) <- sym_encrypt E alg (the_key key) c (slice_from iv (-2) ++ msg ++ mdc ++ repeat 0 (Z.to_nat padding));;
        Ok (d1 ++ slice d2 0 (- padding))
      else
        let padding := bl - zlen msg mod bl in
        do (d1, c) <- sym_encrypt E alg (the_key key) c (iv ++ slice_from iv (-2));;
        do c2 <- get_cfb_cipher alg key iv;;
        do (d2, c) <- sym_encrypt E alg (the_key key) c2 (msg ++ repeat 0 (Z.to_nat padding));;
        Ok (d1 ++ d2)
  end.
(** message.py:410-416: the constructor encrypts only non-empty data *)
Definition encdata_new (iv : bytes) (alg : Z) (key : option bytes) (msg : bytes) (integrity : bool) (version : option Z) : res encdata :=
  match msg with
  | [] => Err TypeError        (* data stays None; the first use of it is bytes(None) or bytearray.extend(None) *)
  | _ => do d <- encrypt_data iv integrity alg key msg;; Ok (EncData d integrity version)
  end.
(** message.py:453-489: the decrypted octets, after the prefix *)
Definition decrypt_octets (d : encdata) (alg : Z) (key : option bytes) : res (bytes * bytes) :=
  let data := ed_data d in
  match symmetric_cipher_block_lengths alg with
  | None => Err KeyError
  | Some bl =>
      let encrypted_iv := slice data 0 (bl + 2) in
      do c <- get_cfb_cipher alg key (repeat 0 (Z.to_nat bl));;
      do (iv, c) <- sym_decrypt E alg (the_key key) c (slice data 0 bl);;
      if ed_integrity d then
        do (first_block, c) <- sym_decrypt E alg (the_key key) c (slice data bl (bl + bl));;
        if negb (zlist_eqb (slice first_block 0 2) (slice_from iv (-2))) then Err ValueError else
        let padding := bl - (zlen data - (bl + bl)) mod bl in
        let data := data ++ repeat 0 (Z.to_nat padding) in
        do (r, c) <- sym_decrypt E alg (the_key key) c (slice_from data (bl + bl));;
        Ok (iv, slice (slice_from first_block 2 ++ r) 0 (- padding))
      else
        do r <- opgp_decrypt alg key encrypted_iv data;;
        Ok (iv, slice r 0 (- 0))
  end.
(** message.py:498-503: the packets; [parse_binary_packet_data] is the same loop, its first exception ends it *)
Definition all_packets (d : bytes) : res (list pkt) :=
  match parse_binary_packet_data pkt_dec d with (ps, None) => Ok ps | (_, Some e) => Err e end.
(** message.py:490-526 *)
Definition decrypt_data (d : encdata) (alg : Z) (key : option bytes) : res message :=
  do (iv, dec) <- decrypt_octets d alg key;;
  let held := zlist_eqb (slice dec (-22) (-20)) [211; 20] in
  let mdc_data := if held then slice_from dec (-22) else [] in
  let main := if held then slice dec 0 (-22) else dec in
  do ps <- all_packets main;;
  do ps <- (match mdc_data with [] => Ok ps | _ => do (_, p) <- packet_from_packet_data pkt_dec mdc_data 0;; Ok (ps ++ [p]) end);;
  if ed_integrity d then
    do last <- get ps (-1);;
    if negb (pkt_type last =? 19) then Err ValueError else
    let rest := slice ps 0 (-1) in
    match p_body last with
    | BData (PMdc m) => if zlist_eqb m (sha1 (iv ++ slice_from iv (-2) ++ slice dec 0 (-20))) then open_message rest else Err ValueError
    | _ => Err AttributeError
    end
  else open_message ps.

(** [H] : the hash oracle of S2k.v *)
Variable H : Z -> bytes -> bytes.
(** what the caller gives get_message: a passphrase (octets) or a secret key object, locked or with the decryption of its key
    object; packets.py:200-205: the cipher class is chosen by the algorithm (the first argument of [dec]) of the session key, not of the secret key *)
Inductive secret := ByPass (pass : bytes) | ByKey (locked : bool) (dec : Z -> list bytes -> res (option bytes)).
(** message.py:258-265, 350-358, 377-381. A key object is not a passphrase (TypeError), octets have no is_locked. *)
Definition algorithm_and_key (k : skey) (x : secret) : res (Z * option bytes) :=
  match k with
  | SKSym sym s esk => match x with ByPass p => skesk_get_key H E s sym p esk | ByKey _ _ => Err TypeError end
  | SKPub _ _ alg _ esk =>
      match x with
      | ByPass _ => Err AttributeError
      | ByKey true _ => Err RuntimeError
      | ByKey false dec => match esk with
                           | None => Err AttributeError
                           | Some e => do (a, k) <- get_key_and_cipher_algo (dec alg) alg e;; Ok (a, Some k)
                           end
      end
  | SKDefault => match x with ByPass p => Ok (1, Some (H 1 p)) | ByKey _ _ => Err TypeError end
  end.
Definition is_pub_key (k : skey) : bool := match k with SKPub _ _ _ _ _ => true | _ => false end.
(** message.py:587-616 EncryptedMessageWrapper.get_message *)
Fixpoint get_message_loop (keys : list skey) (d : encdata) (x : secret) : res message :=
  match keys with
  | [] => Err ValueError
  | k :: keys =>
      match algorithm_and_key k x with
      | Ok (a, sk) => decrypt_data d a sk
      | Err ValueError => if is_pub_key k then get_message_loop keys d x else Err ValueError
      | Err e => Err e
      end
  end.
Definition get_message (m : message) (x : secret) : res message :=
  match m with
  | MEncrypted keys d => get_message_loop keys d x
  | MSigned _ (Some m) _ => Ok m                            (* 665-666 *)
  | _ => Err AttributeError                                 (* literal messages; a compressed one takes no argument, see Compression.v *)
  end.

(** message.py:84-85 b''.join(map(bytes, self.to_packets())) *)
Definition message_octets (fl : Z -> Z) (rec : seckey -> res bytes) (m : message) : res bytes :=
  do ps <- to_packets None m;; do encs <- mapM (pkt_bytes fl rec) ps;; Ok (concat encs).
(** s2k.py:206-211 S2K_TYPES and the constructors called with the four keywords (GnuPGS2K takes no salt) *)
Definition new_s2k (ty hash sym : Z) (salt : bytes) (count : Z) : res s2k :=
  if ty =? 0 then Ok (SimpleS2K hash sym) else if ty =? 1 then Ok (SaltedS2K hash sym salt) else if ty =? 3 then Ok (IteratedS2K hash sym salt count)
  else if ty =? 101 then Err TypeError else Err KeyError.
(** message.py:96-133 symmetric_encrypt with all its arguments given; the defaults are s2k_type 3, s2k_sym = alg, hash 1,
    count 65536 and random salt and session key. 250-287: the session key is encrypted unless it is empty. *)
Definition symmetric_encrypt (fl : Z -> Z) (rec : seckey -> res bytes) (m : message) (alg : Z) (pass session_key iv : bytes) (integrity : bool)
    (s2k_type s2k_hash s2k_sym : Z) (salt : bytes) (count : Z) : res message :=
  do s <- new_s2k s2k_type s2k_hash s2k_sym salt count;;
  do esk <- (match session_key with [] => Ok None | _ => do e <- skesk_encrypt_key H E s alg pass session_key;; Ok (Some e) end);;
  do d <- message_octets fl rec m;;
  do ed <- encdata_new iv alg (Some session_key) d integrity (Some 1);;
  Ok (MEncrypted [SKSym alg s esk] ed).
End Enc.
(** pgp/message.py:33, 183-187: INCOMPLETE_CRLF.sub(b'\r\n', data), the leftmost non-overlapping matches of
    [(\r[^\n]|[^\r]\n)]: two octets, of which exactly one is the right half of CR LF, become CR LF *)
Fixpoint crlf_sub (d : bytes) : bytes :=
  match d with
  | a :: t => match t with
              | b :: t' => if ((a =? 13) && negb (b =? 10)) || (negb (a =? 13) && (b =? 10)) then 13 :: 10 :: crlf_sub t' else a :: crlf_sub t
              | [] => [a]
              end
  | [] => []
  end.
(** pgp/message.py:183-187 TextMessage.to_signable_data: [data] is the text encoded as UTF-8; type 1 is a canonical text document *)
Definition text_signable (signature_type : Z) (data : bytes) : bytes := if signature_type =? 1 then crlf_sub data else data.
