(** Model of pgp/db/gpg.py:64-148: the lock file of a keyring, used by any number of processes, threads and Lock objects, all for one keyring
    file. Each step is one access to shared state: the file system, the locked attribute, the reentrant lock. Definitions only.
    Simplifications: opening and reading a small file is one step; creating an object is two (open with truncation, then the buffered write);
    time.time() may show that the timeout is over at any test; os.link, os.unlink and open fail only for the reason shown; int() is modelled on
    digits. os.kill(pid, SIG_DFL) sends signal 0, that is, none; it fails if there is no such process. *)
From Verif Require Import Base Text.

(** ** the text of a lock file (gpg.py:95-98): ten digits, the node name, a newline *)
Fixpoint digits (n : nat) (z : Z) : text := match n with O => [] | S m => digits m (z / 10) ++ [z mod 10 + 48] end.
Definition lock_text (pid : Z) (node : text) : text := digits 10 pid ++ node ++ NL.
Definition digit_val (c : Z) : option Z := if (48 <=? c) && (c <=? 57) then Some (c - 48) else None.
Fixpoint num (acc : Z) (l : text) : option Z := match l with [] => Some acc | c :: t => match digit_val c with Some d => num (10 * acc + d) t | None => None end end.
(** 114-119 read: int(fh.read(10)), fh.read().strip(); None stands for the ValueError of int *)
Definition read_lock (t : text) : option (Z * text) :=
  match firstn 10 t with [] => None | h => match num 0 h with Some p => Some (p, strip (skipn 10 t)) | None => None end end.

(** ** processes, threads and objects, numbered; id(self) is an address and may be the same in two processes *)
Record config := Config { c_pid : nat -> Z; c_node : nat -> text; c_proc : nat -> nat; c_oproc : nat -> nat; c_id : nat -> Z }.

(** where a thread is: out of the methods, dead, or before a step of acquire (121-142) or release (144-156) of an object *)
Inductive pc :=
| Out | Dead
| AWhile (o : nat) (timed : bool)     (* while not self.locked *)
| ATime (o : nat) (timed : bool)      (* if timeout is not None and ... *)
| ALock (o : nat) (timed : bool)      (* self._lock.acquire() *)
| ALink (o : nat) (timed : bool)      (* os.link *)
| ARead (o : nat) (timed : bool)      (* self.read() and the tests of its result *)
| AKill (o : nat) (timed : bool)      (* os.kill *)
| AUnlink (o : nat) (timed : bool)    (* os.unlink, continue *)
| ASet (o : nat) (timed : bool)       (* self.locked = True *)
| RTest (o : nat)                     (* if not self.locked *)
| RRead (o : nat)                     (* self.read() and the test *)
| RUnlink (o : nat)                   (* os.unlink *)
| RClear (o : nat)                    (* self.locked = False *)
| RFree (o : nat).                    (* self._lock.release() *)

(** an object: not made, its template file open, or made, with self.locked and the owner and count of self._lock *)
Inductive obj := NoObj | Opening (inode : nat) | Obj (locked : bool) (rl : option (nat * nat)).
(** the directory (the lock file, and the templates by the number in their names), the contents of files, objects, threads, _locks of each
    process, and how many acquire calls of a thread on an object returned True for which release was not called yet *)
Record st := St { s_name : option nat; s_tmpl : Z -> option nat; s_data : nat -> text; s_next : nat; s_obj : nat -> obj; s_pc : nat -> pc; s_locks : nat -> list nat; s_hold : nat -> nat -> nat }.
Definition upd {A} (f : nat -> A) (n : nat) (v : A) : nat -> A := fun m => if (m =? n)%nat then v else f m.
Definition updz {A} (f : Z -> A) (n : Z) (v : A) : Z -> A := fun m => if m =? n then v else f m.
Definition start : st := St None (fun _ => None) (fun _ => []) 0 (fun _ => NoObj) (fun _ => Out) (fun _ => []) (fun _ _ => O).

Definition set_name s v := St v (s_tmpl s) (s_data s) (s_next s) (s_obj s) (s_pc s) (s_locks s) (s_hold s).
Definition set_obj s o v := St (s_name s) (s_tmpl s) (s_data s) (s_next s) (upd (s_obj s) o v) (s_pc s) (s_locks s) (s_hold s).
Definition goto s t p := St (s_name s) (s_tmpl s) (s_data s) (s_next s) (s_obj s) (upd (s_pc s) t p) (s_locks s) (s_hold s).
Definition set_hold s t o n := St (s_name s) (s_tmpl s) (s_data s) (s_next s) (s_obj s) (s_pc s) (s_locks s) (upd (s_hold s) t (upd (s_hold s t) o n)).

(** what the caller of a method sees when it ends, and the signal *)
Inductive raised := FileExists | FileNotFound | BadText | NoProcess | NotOwner.
Inductive seen := Nothing | Returned (b : bool) | Released | NotReleased | Raised (e : raised) | Signal (pid : Z).

Inductive event :=
| Open (o : nat)                       (* Lock(filename): open(template, 'w') *)
| Write (o : nat)                      (* ... the text is written and the file closed *)
| Acquire (t o : nat) (timed : bool)   (* thread t calls o.acquire(), with a timeout or without *)
| Release (t o : nat)                  (* thread t calls o.release() *)
| Step (t : nat) (c : bool)            (* thread t goes on; c: the timeout is over, or: os.kill finds the process *)
| Exit (p t : nat)                     (* process p ends; _clean_up_locks runs in thread t *)
| Crash (p : nat).                     (* process p is killed *)

Section Sys.
Variable cf : config.
Definition own_file (s : st) (p : nat) : option (bool * bool) :=
  match s_name s with
  | Some i => match read_lock (s_data s i) with Some (pid, n) => Some (pid =? c_pid cf p, zlist_eqb n (c_node cf p)) | None => None end
  | None => None
  end.
Definition file_error (s : st) : raised := match s_name s with None => FileNotFound | Some _ => BadText end.
Definition locked_of (x : obj) : bool := match x with Obj b _ => b | _ => false end.
Definition rl_of (x : obj) : option (nat * nat) := match x with Obj _ r => r | _ => None end.
(** RLock.acquire and release by a thread *)
Definition rl_acquire (r : option (nat * nat)) (t : nat) : option (option (nat * nat)) :=
  match r with None => Some (Some (t, 1%nat)) | Some (u, n) => if (u =? t)%nat then Some (Some (u, S n)) else None end.
Definition rl_release (r : option (nat * nat)) (t : nat) : option (option (nat * nat)) :=
  match r with Some (u, S n) => if (u =? t)%nat then Some (match n with O => None | _ => Some (u, n) end) else None | _ => None end.

(** 121-156, one step of a thread; None: it has to wait *)
Definition thread_step (s : st) (t : nat) (c : bool) : option (st * seen) :=
  let p := c_proc cf t in
  match s_pc s t with
  | Out | Dead => None
  | AWhile o d => if locked_of (s_obj s o) then Some (goto (set_hold s t o (S (s_hold s t o))) t Out, Returned true) else Some (goto s t (ATime o d), Nothing)
  | ATime o d => if d && c then Some (goto s t Out, Returned false) else Some (goto s t (ALock o d), Nothing)
  | ALock o d =>
      match rl_acquire (rl_of (s_obj s o)) t with
      | Some r => Some (goto (set_obj s o (Obj (locked_of (s_obj s o)) r)) t (ALink o d), Nothing)
      | None => None
      end
  | ALink o d =>
      match s_tmpl s (c_id cf o), s_name s with
      | None, _ => Some (goto s t Out, Raised FileNotFound)
      | Some i, Some _ => Some (goto s t Out, Raised FileExists)
      | Some i, None => Some (goto (set_name s (Some i)) t (ARead o d), Nothing)
      end
  | ARead o d =>
      match own_file s p with
      | None => Some (goto s t Out, Raised (file_error s))
      | Some (true, true) => Some (goto s t (ASet o d), Nothing)
      | Some (false, true) => Some (goto s t (AKill o d), Nothing)
      | Some (_, false) => Some (goto s t (ASet o d), Nothing)
      end
  | AKill o d => if c then Some (goto s t (AUnlink o d), Signal 0) else Some (goto s t Out, Raised NoProcess)
  | AUnlink o d => match s_name s with None => Some (goto s t Out, Raised FileNotFound) | Some _ => Some (goto (set_name s None) t (AWhile o d), Nothing) end
  | ASet o d => Some (goto (set_obj s o (Obj true (rl_of (s_obj s o)))) t (AWhile o d), Nothing)
  | RTest o => if locked_of (s_obj s o) then Some (goto s t (RRead o), Nothing) else Some (goto s t Out, NotReleased)
  | RRead o =>
      match own_file s p with
      | None => Some (goto s t Out, Raised (file_error s))
      | Some (true, true) => Some (goto s t (RUnlink o), Nothing)
      | _ => Some (goto s t Out, NotReleased)
      end
  | RUnlink o => match s_name s with None => Some (goto s t Out, Raised FileNotFound) | Some _ => Some (goto (set_name s None) t (RClear o), Nothing) end
  | RClear o => Some (goto (set_obj s o (Obj false (rl_of (s_obj s o)))) t (RFree o), Nothing)
  | RFree o =>
      match rl_release (rl_of (s_obj s o)) t with
      | Some r => Some (goto (set_obj s o (Obj (locked_of (s_obj s o)) r)) t Out, Released)
      | None => Some (goto s t Out, Raised NotOwner)
      end
  end.

(** 67-78 _clean_up_locks, taken as one step: release, then unlink the lock file whoever made it; an exception of release ends the loop.
    The templates are not removed: l.lock_template_name does not exist. *)
Fixpoint clean_up (s : st) (p t : nat) (l : list nat) : st :=
  match l with
  | [] => s
  | o :: l =>
      if locked_of (s_obj s o) then
        match own_file s p with
        | None => s
        | Some (true, true) =>
            let s := set_obj (set_name s None) o (Obj false (rl_of (s_obj s o))) in
            match rl_release (rl_of (s_obj s o)) t with
            | Some r => clean_up (set_name (set_obj s o (Obj false r)) None) p t l
            | None => s
            end
        | _ => clean_up (set_name s None) p t l
        end
      else clean_up (set_name s None) p t l
  end.
(** the threads of a process end *)
Definition ended (s : st) (p : nat) : st :=
  St (s_name s) (s_tmpl s) (s_data s) (s_next s) (s_obj s) (fun t => if (c_proc cf t =? p)%nat then Dead else s_pc s t) (s_locks s) (fun t o => if (c_proc cf t =? p)%nat then O else s_hold s t o).

Definition is_out (p : pc) : bool := match p with Out => true | _ => false end.
Definition is_made (x : obj) : bool := match x with Obj _ _ => true | _ => false end.
Definition step (s : st) (e : event) : option (st * seen) :=
  match e with
  | Open o =>
      match s_obj s o with
      | NoObj =>
          match s_tmpl s (c_id cf o) with
          | Some i => Some (set_obj (St (s_name s) (s_tmpl s) (upd (s_data s) i []) (s_next s) (s_obj s) (s_pc s) (s_locks s) (s_hold s)) o (Opening i), Nothing)
          | None => Some (set_obj (St (s_name s) (updz (s_tmpl s) (c_id cf o) (Some (s_next s))) (upd (s_data s) (s_next s) []) (S (s_next s)) (s_obj s) (s_pc s) (s_locks s) (s_hold s)) o (Opening (s_next s)), Nothing)
          end
      | _ => None
      end
  | Write o =>
      match s_obj s o with
      | Opening i =>
          let p := c_oproc cf o in
          Some (set_obj (St (s_name s) (s_tmpl s) (upd (s_data s) i (lock_text (c_pid cf p) (c_node cf p))) (s_next s) (s_obj s) (s_pc s) (upd (s_locks s) p (s_locks s p ++ [o])) (s_hold s)) o (Obj false None), Nothing)
      | _ => None
      end
  | Acquire t o d => if is_out (s_pc s t) && is_made (s_obj s o) && (c_proc cf t =? c_oproc cf o)%nat then Some (goto s t (AWhile o d), Nothing) else None
  | Release t o => if is_out (s_pc s t) && is_made (s_obj s o) && (c_proc cf t =? c_oproc cf o)%nat then Some (goto (set_hold s t o (Nat.pred (s_hold s t o))) t (RTest o), Nothing) else None
  | Step t c => thread_step s t c
  | Exit p t => if (c_proc cf t =? p)%nat && is_out (s_pc s t) then Some (ended (clean_up s p t (s_locks s p)) p, Nothing) else None
  | Crash p => Some (ended s p, Nothing)
  end.
(** a schedule: the events in order; None if one of them cannot happen *)
Fixpoint run (s : st) (l : list event) : option (st * list seen) :=
  match l with
  | [] => Some (s, [])
  | e :: l => match step s e with Some (s', x) => match run s' l with Some (s'', xs) => Some (s'', x :: xs) | None => None end | None => None end
  end.
End Sys.
