(** Model of the list-valued attributes of pgp/signature.py whose elements are objects: notations (39-75, 460-484), revocation keys (78-107, 612-636),
    embedded signatures (523-548), and of regular expressions (418-446) and the key expiration time (550-568). Definitions only.
    A set of such objects compares their octets; its order is arbitrary and is an argument here. *)
From Verif Require Import Base Utils Text SigPackets SigAttrs DumpSig.

Section Objects.
Variable A : Type.
(** the octets that == and hash look at; the subpacket that is added or removed *)
Variable octets : A -> res bytes.
Variable to_sub : A -> subpkt.
(** k in existing *)
Fixpoint holds (b : bytes) (l : list A) : res bool :=
  match l with [] => Ok false | x :: t => do c <- octets x;; if zlist_eqb b c then Ok true else holds b t end.
(** the body of the loops at 470-482, 533-545, 622-634 *)
Fixpoint assign_objects (fl : Z -> Z) (new existing order : list A) (s : sigobj) : res sigobj :=
  match order with
  | [] => Ok s
  | k :: t =>
      do b <- octets k;;
      do old <- holds b existing;;
      do s <- (if (old : bool) then match new with [] => remove_sub fl s (obj_of (to_sub k)) | _ => Ok s end
               else Ok (add_sub s (obj_of (to_sub k))));;
      assign_objects fl new existing t s
  end.
(** set(new) | set(existing) hashes every element first *)
Definition assign_set (fl : Z -> Z) (new existing order : list A) (s : sigobj) : res sigobj :=
  do _ <- mapM octets (new ++ existing);; assign_objects fl new existing order s.
End Objects.
Arguments assign_set {A}.

(** 39-75 Notation. The value is text if it is marked as human readable and octets otherwise. *)
Record notation := Note { n_name : text; n_space : option text; n_human : bool; n_value : list Z }.
(** 52-59; 68-72 *)
Definition note_sub (n : notation) : subpkt := Sub 20 false (SbNotation (n_name n) (n_space n) (n_human n) (n_value n)).
Definition note_octets (fl : Z -> Z) (n : notation) : res bytes := sub_bytes fl (note_sub n).
(** 44-50 from_subpacket *)
Definition note_of (o : sobj) : res notation :=
  if so_critical o then Err CannotParseCriticalNotation else
  match so_rest o with Some (SbNotation n ns h v) => Ok (Note n ns h v) | _ => Err AttributeError end.
(** 460-484 *)
Definition get_notations (s : sigobj) : res (list notation) := mapM note_of (get_subs s 20).
Definition set_notations (fl : Z -> Z) (s : sigobj) (new order : list notation) : res sigobj :=
  do existing <- get_notations s;; assign_set (note_octets fl) note_sub fl new existing order s.

(** 78-107 RevocationKeyInfo *)
Record revkey := RevKey { r_fpr : text; r_alg : Z; r_sensitive : bool }.
(** 90-96: the constructor asserts 40 digits; then bytes() of it *)
Definition rev_sub (r : revkey) : subpkt := Sub 12 false (SbRevKey (r_fpr r) (r_alg r) (r_sensitive r)).
Definition rev_octets (fl : Z -> Z) (r : revkey) : res bytes :=
  if zlen (r_fpr r) =? 40 then sub_bytes fl (rev_sub r) else Err AssertionError.
Definition rev_of (o : sobj) : res revkey := match so_rest o with Some (SbRevKey f a x) => Ok (RevKey f a x) | _ => Err AttributeError end.
(** 612-636 *)
Definition get_revocation_keys (s : sigobj) : res (list revkey) := mapM rev_of (get_subs s 12).
Definition set_revocation_keys (fl : Z -> Z) (s : sigobj) (new order : list revkey) : res sigobj :=
  do existing <- get_revocation_keys s;; assign_set (rev_octets fl) rev_sub fl new existing order s.

(** An embedded signature with the header format of its packet (523-528: the packet in the subpacket, made at signature_subpackets.py:590-592 with
    the new format). [framed] is bytes(to_packet()) given the header format and the content (packets.py:58-108, see Framing.v). *)
Section Embedded.
Variable framed : bool -> bytes -> res bytes.
Record embedded := Emb { b_new : bool; b_sig : sigpkt }.
Definition emb_sub (e : embedded) : subpkt := Sub 32 false (SbEmbedded (b_sig e)).
Definition emb_octets (fl : Z -> Z) (e : embedded) : res bytes := do c <- sig_content fl (b_sig e);; framed (b_new e) c.
Definition emb_of (o : sobj) : res embedded := match so_rest o with Some (SbEmbedded g) => Ok (Emb true g) | _ => Err AttributeError end.
(** 523-548 *)
Definition get_embedded (s : sigobj) : res (list embedded) := mapM emb_of (get_subs s 32).
Definition set_embedded (fl : Z -> Z) (s : sigobj) (new order : list embedded) : res sigobj :=
  do existing <- get_embedded s;; assign_set (emb_octets fl) emb_sub fl new existing order s.
End Embedded.

(** 418-446 regular expressions: [compile] is re.compile, which raises on what is not an expression; the compiled object keeps its pattern. *)
Section Regexes.
Variable compile : text -> res unit.
Definition get_regexes (s : sigobj) : res (list text) :=
  do l <- get_values s 6 APattern;; do l <- texts l;; do _ <- mapM compile l;; Ok l.
Definition set_regexes (fl : Z -> Z) (s : sigobj) (new order : list text) : res sigobj :=
  do existing <- get_regexes s;; assign_each fl 6 APattern new existing order s.
End Regexes.

(** 550-568 key expiration time; [created] is self.target.creation_time. Times are microseconds. None is "no such subpacket". *)
Inductive expiry := NoExpiry | Zero | At (t : Z).
Section KeyExpiration.
Variable created : res Z.
Definition get_key_expiration (s : sigobj) : res expiry :=
  do v <- get_value s 9 ATime;;
  match v with
  | VNone => Ok NoExpiry
  | _ => if negb (truthy v) then Ok Zero else do n <- as_int v;; do c <- created;; Ok (At (c + n * 1000000))
  end.
Definition set_key_expiration (s : sigobj) (t : Z) : res sigobj :=
  do c <- created;; update_values s 9 ATime (VInt ((t - c) / 1000000)).
End KeyExpiration.
