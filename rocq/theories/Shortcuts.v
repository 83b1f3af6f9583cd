(** Model of pgp/shortcuts.py:16-90 (read_message, read_key, serialize_key) and of the public copy of a secret key,
    pgp/transferrable_keys.py:463-471, 655-664, 1090-1095 (to_public_key). Definitions only. *)
From Verif Require Import Base Utils Framing Text Armor S2k SessionKeys KeyPackets SigPackets DataPackets UserAttr Packets Message TransKey.

(** what is passed in and returned: bytes or str *)
Inductive input := InBytes (b : bytes) | InStr (t : text).
(** pgp/armor.py:61-68 is_armor, for both *)
Definition input_armor (i : input) : bool := match i with InBytes b => is_armor b | InStr t => zlist_eqb (slice t 0 (zlen DASHES)) DASHES end.
(** list(generator): the packets, or the exception that ended the generator *)
Definition listed (r : list pkt * option exn) : res (list pkt) := match snd r with None => Ok (fst r) | Some e => Err e end.
(** octets that bytes.strip() removes *)
Definition octet_space (b : Z) : bool := (b =? 32) || ((9 <=? b) && (b <=? 13)).
(** shortcuts.py:17-28 and 43-54, the same in both functions. Octets given as armored text: the header expression is a str pattern, TypeError,
    reached unless every line is blank (IndexError). A str given as binary: its characters are not integers, TypeError. *)
Definition read_packets (i : input) (armored : bool) : res (list pkt) :=
  do (i, armored) <-
    (if input_armor i then match i with InBytes b => if forallb (fun c => c <? 128) b then Ok (InStr b, true) else Err UnicodeError | InStr t => Ok (InStr t, true) end
     else Ok (i, armored));;
  if (armored : bool) then
    match i with
    | InStr t => do r <- parse_ascii_packet_data t;; listed r
    | InBytes b => Err (if forallb octet_space b then IndexError else TypeError)
    end
  else
    match i with
    | InBytes b => listed (parse_binary_packet_data pkt_dec b)
    | InStr [] => Ok []
    | InStr _ => Err TypeError
    end.
(** shortcuts.py:16-29 *)
Definition read_message (i : input) (armored : bool) : res message := do ps <- read_packets i armored;; open_message ps.

Section Keys.
Variables (local mktime : Z -> res Z) (magic : bytes -> text) (fl : Z -> Z) (rec : seckey -> res bytes).
(** shortcuts.py:42-62 *)
Definition read_key (i : input) (armored : bool) : res tkey :=
  do ps <- read_packets i armored;;
  match ps with
  | [] => Err IndexError
  | p :: _ => if pkt_type p =? 6 then from_packets local magic false ps else if pkt_type p =? 5 then from_packets local magic true ps else Err ValueError
  end.
(** transferrable_keys.py:1049-1066 with a header format: every to_packet(header_format) uses it instead of the object's own *)
Definition refmt (h : header_format) (p : pkt) : pkt := Pkt h (p_body p).
(** shortcuts.py:75-90. [ver] is the text 'Python PGP <version>'. TransferableSecretKey is a subclass of TransferablePublicKey
    (transferrable_keys.py:1075), so the first isinstance holds for every key. *)
Definition serialize_key (ver : text) (k : tkey) (armored : bool) (hf : option header_format) : res input :=
  let h := match hf with Some h => h | None => OldH end in
  do ps <- to_packets mktime k;;
  do bs <- mapM (pkt_bytes fl rec) (map (refmt h) ps);;
  let data := concat bs in
  if armored then do t <- armor_str (Armor PGP_PUBLIC_KEY_BLOCK data None None (Some ver) None None None None None);; Ok (InStr t)
  else Ok (InBytes data).
End Keys.

(** to_public_key. [p] is the present value of self.prime_p: of an RSA key its secret factor while the key is unlocked, of other keys the
    public prime (KeyLock.v). Lists and signature objects are shared, which values do not show. *)
Definition public_kobject (p : kobject -> option Z) (k : kobject) : kobject :=
  let q := ko_pub k in
  let prime := if is_rsa_alg (k_alg q) then p k else k_p q in
  KObject (ko_fmt k) (PubKey (k_version q) (k_ctime q) (k_alg q) (KeyPackets.k_exp q) (k_n q) (k_e q) prime (k_q q) (k_g q) (k_y q)) (ko_created k) (ko_expires k) None.
Definition to_public_key (p : kobject -> option Z) (k : tkey) : tkey :=
  TKey false (public_kobject p (tk_key k)) (tk_sigs k) (tk_uids k) (tk_attrs k) (map (fun s => (public_kobject p (fst s), snd s)) (tk_subs k)).
