(** Model of several Keyring resources (pgp/db/gpg.py:296-465) that are open on one file, in one process or in several, and of a crash while
    the file is written. Each operation is one step, which is what the lock file is for (FileLock.v says how far it serves). Definitions only. *)
From Verif Require Import Base Utils Framing Text Armor S2k SessionKeys KeyPackets SigPackets DataPackets UserAttr Packets Keyring.

Section Shared.
Variables (fl : Z -> Z) (md5 sha1 : bytes -> bytes) (K : Type) (build : bool -> list pkt -> res K).
(** a resource reads the file at each operation, but keeps its own table of offsets and header format (309-330) *)
Definition seeing (file : bytes) (r : ring) : ring := Ring file (r_table r) (r_pref r) (r_read_only r) (r_secret r).
Record shared := Shared { sh_file : bytes; sh_rings : list ring }.
Fixpoint put {A} (l : list A) (i : nat) (v : A) : list A := match l, i with [], _ => [] | _ :: t, O => v :: t | x :: t, S j => x :: put t j v end.
(** resource i performs an operation; there is no such resource: nothing happens *)
Definition sh_step (s : shared) (i : nat) (o : op) : shared :=
  match nth_error (sh_rings s) i with
  | Some r => let r' := apply fl md5 sha1 (seeing (sh_file s) r) o in Shared (r_file r') (put (sh_rings s) i r')
  | None => s
  end.
Definition sh_run (s : shared) (l : list (nat * op)) : shared := fold_left (fun s x => sh_step s (fst x) (snd x)) l s.
Definition sh_get (s : shared) (i : nat) (f : text) : res K := match nth_error (sh_rings s) i with Some r => get K build (seeing (sh_file s) r) f | None => Err KeyError end.

(** ** what an operation writes (387-393, 432-434, 459-461), if it gets that far *)
Definition written (r : ring) (o : op) : option bytes :=
  let change (new : bool) (k : kobj) :=
    if r_read_only r then None
    else match ko_fp k with
         | Err _ => None
         | Ok f =>
             match lookup (r_table r) (short f) with
             | None => None
             | Some off =>
                 match without r off with
                 | Err _ => None
                 | Ok (d, h) => if new then match ko_bytes k h with Err _ => None | Ok b => Some (d ++ b) end else Some d
                 end
             end
         end in
  match o with
  | Add k =>
      if r_read_only r then None
      else match ko_fp k with
           | Err _ => None
           | Ok f => match lookup (r_table r) f with Some _ => None | None => match ko_bytes k (r_pref r) with Err _ => None | Ok d => Some (r_file r ++ d) end end
           end
  | Update k => change true k
  | Delete k => change false k
  end.
(** open(filename, 'wb') empties the file, then the octets are written in order: what a crash during the operation can leave *)
Definition after_crash (r : ring) (o : op) (file : bytes) : Prop :=
  file = r_file r \/ match written r o with Some d => exists n, file = firstn n d | None => False end.
End Shared.
