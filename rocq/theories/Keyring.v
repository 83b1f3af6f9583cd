(** Model of pgp/db/gpg.py:151-190 (BaseResource), 296-465 (Keyring), 468-506 (get_resource) and 509-609 (GPGDatabase). Not modelled: the
    lock files (one process, no stale lock), the GDBM resource beyond the failure of its constructor, and errors of the file system other
    than a missing file. Definitions only. *)
From Verif Require Import Base Utils Framing Text Armor S2k SessionKeys KeyPackets SigPackets DataPackets UserAttr Packets.

Section Ring.
(** the double logarithm of Utils and the two hashes, for key ids; the key object made from packets (from_packets of the two classes) *)
Variables (fl : Z -> Z) (md5 sha1 : bytes -> bytes) (K : Type) (build : bool -> list pkt -> res K).

(** packet.key_id (packets.py:815-822) *)
Definition pkt_key_id (p : pkt) : res text :=
  match p_body p with BPub _ k => key_id fl md5 sha1 k | BSec _ k => key_id fl md5 sha1 (s_pub k) | _ => Err AttributeError end.
Definition is_key (p : pkt) : bool := (pkt_type p =? 6) || (pkt_type p =? 5).
Definition short (f : text) : text := slice_from f (-8).

(** parse_binary_packet_stream over an open file, with fh.tell() before and after each packet *)
Fixpoint packets_at (fuel : nat) (size : Z) (s : bytes) : list (Z * pkt * Z) * option exn :=
  match fuel with
  | O => ([], Some OutOfFuel)
  | S f =>
      match s with
      | [] => ([], None)
      | _ => match packet_from_packet_stream pkt_dec s with
             | Ok (p, s') => let '(ps, e) := packets_at f size s' in ((size - zlen s, p, size - zlen s') :: ps, e)
             | Err e => ([], Some e)
             end
      end
  end.
Definition packets_from (file : bytes) (offset : Z) : list (Z * pkt * Z) * option exn :=
  packets_at (S (length file)) (zlen file) (slice_from file offset).

Record ring := Ring { r_file : bytes; r_table : list (text * Z); r_pref : option header_format; r_read_only : bool; r_secret : bool }.
(** a Python dict: assignment puts an entry in front *)
Definition lookup {A} (t : list (text * A)) (k : text) : option A := match find (fun e => zlist_eqb (fst e) k) t with Some e => Some (snd e) | None => None end.

(** 309-330 _update_offset_table: the preferred header format is set even when an exception follows *)
Fixpoint scan (l : list (Z * pkt * Z)) (e : option exn) (pref : option header_format) (t : list (text * Z)) : option header_format * res (list (text * Z)) :=
  match l with
  | [] => (pref, match e with None => Ok t | Some x => Err x end)
  | (o, p, _) :: l =>
      let pref := match pref with None => Some (p_fmt p) | _ => pref end in
      if is_key p then match pkt_key_id p with Ok k => scan l e pref ((short k, o) :: t) | Err x => (pref, Err x) end
      else scan l e pref t
  end.
Definition update_table (r : ring) : ring * res unit :=
  let '(ps, e) := packets_from (r_file r) 0 in
  let '(pref, t) := scan ps e (r_pref r) [] in
  match t with
  | Ok t => (Ring (r_file r) t pref (r_read_only r) (r_secret r), Ok tt)
  | Err x => (Ring (r_file r) (r_table r) pref (r_read_only r) (r_secret r), Err x)
  end.
(** 300-304 *)
Definition open_ring (file : bytes) (secret read_only : bool) : res ring :=
  match update_table (Ring file [] None read_only secret) with (r, Ok _) => Ok r | (_, Err e) => Err e end.
(** 332-363 _get_key *)
Fixpoint collect (l : list (Z * pkt * Z)) (e : option exn) (acc : list pkt) : res (list pkt) :=
  match l with
  | [] => match e with None => Ok acc | Some x => Err x end
  | (_, p, _) :: l =>
      if pkt_type p =? 8 then collect l e acc
      else if negb (match acc with [] => true | _ => false end) && is_key p then Ok acc
      else collect l e (acc ++ [p])
  end.
Definition get_key (r : ring) (offset : Z) : res K :=
  let '(l, e) := packets_from (r_file r) offset in
  do ps <- collect l e [];;
  match ps with
  | [] => Err KeyError
  | p :: _ => if pkt_type p =? 6 then build false ps else if pkt_type p =? 5 then build true ps else Err ValueError
  end.
(** 373-375 *)
Definition get (r : ring) (fingerprint : text) : res K := match lookup (r_table r) (short fingerprint) with Some o => get_key r o | None => Err KeyError end.
(** a key object: its class, its fingerprint, and the octets of to_packets with a header format *)
Record kobj := KObj { ko_class : option bool; ko_fp : res text; ko_bytes : option header_format -> res bytes }.
Definition store (r : ring) (file : bytes) : ring * res unit := update_table (Ring file (r_table r) (r_pref r) (r_read_only r) (r_secret r)).
(** 377-397: the whole fingerprint is looked up in a table of short ids *)
Definition add (r : ring) (k : kobj) : ring * res unit :=
  if r_read_only r then (r, Err TypeError)
  else match ko_fp k with
       | Err e => (r, Err e)
       | Ok f =>
           match lookup (r_table r) f with
           | Some _ => (r, Err KeyError)
           | None => match ko_bytes k (r_pref r) with Err e => (r, Err e) | Ok d => store r (r_file r ++ d) end
           end
       end.
(** 399-465 up to the writing: the list named packets stays empty, so that the loop never breaks. Returns the octets kept and the header
    format of the key that is replaced. *)
Definition without (r : ring) (offset : Z) : res (bytes * option header_format) :=
  let '(l, e) := packets_from (r_file r) offset in
  match e with
  | Some x => Err x
  | None =>
      match rev l with
      | [] => Err UnboundLocalError
      | (_, _, last) :: _ => Ok (slice (r_file r) 0 offset ++ slice_from (r_file r) last, match l with (_, p, _) :: _ => Some (p_fmt p) | [] => None end)
      end
  end.
Definition change (new : bool) (r : ring) (k : kobj) : ring * res unit :=
  if r_read_only r then (r, Err TypeError)
  else match ko_fp k with
       | Err e => (r, Err e)
       | Ok f =>
           match lookup (r_table r) (short f) with
           | None => (r, Err KeyError)
           | Some o =>
               match without r o with
               | Err e => (r, Err e)
               | Ok (d, h) =>
                   if new then match ko_bytes k h with Err e => (r, Err e) | Ok b => store r (d ++ b) end
                   else store r d
               end
           end
       end.
Definition update := change true.
Definition delete := change false.
(** a history of operations; the caller goes on after an exception *)
Inductive op := Add (k : kobj) | Update (k : kobj) | Delete (k : kobj).
Definition apply (r : ring) (o : op) : ring := fst (match o with Add k => add r k | Update k => update r k | Delete k => delete r k end).
Definition run (r : ring) (l : list op) : ring := fold_left apply l r.

(** ** 509-579 GPGDatabase: resources in order. TransferableSecretKey is a subclass of TransferablePublicKey, so the first isinstance test
    holds of both classes; the class of a key object is Some secret, or None for any other object. *)
Definition db := list (text * ring).
Fixpoint on_first (secret : bool) (f : ring -> ring * res unit) (d : db) : db * res unit :=
  match d with
  | [] => ([], Ok tt)
  | (n, r) :: t =>
      if Bool.eqb (r_secret r) secret then let '(r', x) := f r in ((n, r') :: t, x)
      else let '(t', x) := on_first secret f t in ((n, r) :: t', x)
  end.
Definition isinstance_public (k : kobj) : bool := match ko_class k with Some _ => true | None => false end.
Definition isinstance_secret (k : kobj) : bool := match ko_class k with Some true => true | _ => false end.
Definition dispatch (f : ring -> kobj -> ring * res unit) (d : db) (k : kobj) : db * res unit :=
  if isinstance_public k then on_first false (fun r => f r k) d
  else if isinstance_secret k then on_first true (fun r => f r k) d
  else (d, Err TypeError).
Definition add_key := dispatch add.
Definition update_key := dispatch update.
Definition delete_key := dispatch delete.
(** ** 183-190 _maybe_create, 468-506 get_resource. The file system maps names to contents; os.path.abspath is a parameter. *)
Definition gdbm_magic : bytes := [19; 87; 154; 206; 206; 154; 87; 19].
(** Python's [x in y] for bytes objects *)
Definition is_sub (x y : bytes) : bool := existsb (fun i => zlist_eqb (firstn (length x) (skipn i y)) x) (seq 0 (S (length y - length x))) && (zlen x <=? zlen y).
Inductive rtype := RKeyring | RKeybox | RGdbm.
Definition starts (p s : text) : bool := zlist_eqb (firstn (length p) s) p.
Definition kr_prefix : text := [103; 110; 117; 112; 103; 45; 107; 101; 121; 114; 105; 110; 103; 58].
Definition kbx_prefix : text := [103; 110; 117; 112; 103; 45; 107; 98; 120; 58].
Definition detect (content : option bytes) : rtype :=
  match content with
  | None => RKeyring
  | Some d =>
      if is_sub (firstn 4 d) gdbm_magic then RGdbm
      else if zlist_eqb (firstn 1 (slice d 4 8)) [1] && zlist_eqb (slice d 8 12) [75; 66; 88; 102] then RKeybox
      else RKeyring
  end.
(** create_db takes no argument but gets the file name (TypeError); GDBM has no method firstkey (AttributeError), and without the library a
    RuntimeError is raised *)
Definition get_resource (abspath : text -> text) (fs : text -> option bytes) (have_gdbm : bool) (filename : text) (force secret read_only : bool) : res (text * ring) :=
  let '(t, name) := if starts kr_prefix filename then (Some RKeyring, skipn 12 filename) else if starts kbx_prefix filename then (Some RKeybox, skipn 11 filename) else (None, filename) in
  let name := abspath name in
  let missing := if force then Err TypeError else Err RuntimeError in
  match (match t with Some t => t | None => detect (fs name) end) with
  | RKeybox => Err ValueError
  | RKeyring => match fs name with None => missing | Some d => do r <- open_ring d secret read_only;; Ok (name, r) end
  | RGdbm => if have_gdbm then match fs name with None => missing | Some _ => Err AttributeError end else Err RuntimeError
  end.
End Ring.
