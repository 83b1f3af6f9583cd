(** Model of parts of pgp/commands/gpg: algorithm_helper.py (AlgorithmHelper), recipient_helper.py (RecipientHelper), the choice of the cipher in
    encrypt.py:28-66, and io_helper.py:265-284 (write_output). Definitions only. Arguments that the code takes as lists are lists here. *)
From Coq Require Import String.
From Verif Require Import Base Text.
Open Scope Z_scope.

Definition is_in (t : text) (l : list text) : bool := existsb (zlist_eqb t) l.
(** while x in l: l.remove(x) *)
Definition drop (x : text) (l : list text) : list text := filter (fun y => negb (zlist_eqb x y)) l.

(** ** algorithm_helper.py *)
(** 4-9. The missing comma after sha224 is the code's. *)
Definition DEFAULT_CIPHERS : list text := map str ["aes256"; "camellia256"; "twofish"; "blowfish"; "aes192"; "camellia192"; "aes"; "camellia128"; "cast5"; "3des"; "idea"]%string.
Definition DEFAULT_DIGESTS : list text := map str ["sha512"; "sha256"; "ripemd160"; "sha386"; "sha224sha1"; "md5"]%string.
Definition DEFAULT_COMPRESSION : list text := map str ["zip"; "zlib"; "bz2"]%string.

Record aargs := AArgs { g_personal : option (list text); g_personal_digest : option (list text); g_personal_compress : option (list text);
                        g_disabled : option (list text); g_disabled_pub : option (list text);
                        g_cipher : option text; g_digest : option text; g_compress : option text; g_cert_digest : option text;
                        g_z : Z; g_bz : Z; g_level : option Z }.
Record helper := Helper { h_cipher : text; h_digest : text; h_compress : text; h_cert_digest : text; h_personal : option (list text); h_z : Z; h_bz : Z }.
(** personal or DEFAULT, for the two lists that are not changed *)
Definition or_list (a : option (list text)) (d : list text) : list text := match a with Some (x :: t) => x :: t | _ => d end.
(** 36-40: [shared] says that preferred_ciphers is the caller's list, otherwise it is DEFAULT_CIPHERS itself. Results: DEFAULT_CIPHERS, the caller's
    list, and the exception: [x in None] is a TypeError. *)
Fixpoint disable (shared : bool) (algos : list text) (d : list text) (personal : option (list text)) : list text * option (list text) * option exn :=
  match algos with
  | [] => (d, personal, None)
  | a :: t =>
      let d := if shared then d else drop a d in
      match personal with
      | None => (d, None, Some TypeError)
      | Some l => disable shared t d (Some (drop a l))
      end
  end.
(** 14-66 __init__. [d] is the content of the module's DEFAULT_CIPHERS. Results: its content afterwards, the caller's list afterwards, the object. *)
Definition new_helper (d : list text) (a : aargs) : list text * option (list text) * res helper :=
  let shared := match g_personal a with Some (_ :: _) => true | _ => false end in
  match g_disabled a with
  | None => (d, g_personal a, Err TypeError)
  | Some algos =>
      let '(d, personal, e) := disable shared algos d (g_personal a) in
      (d, personal,
       match e with
       | Some e => Err e
       | None =>
           match g_disabled_pub a with
           | None => Err TypeError
           | Some _ =>
               let preferred := if shared then match personal with Some l => l | None => [] end else d in
               do c <- (match g_cipher a with Some c => Ok c | None => get preferred 0 end);;
               do g <- (match g_digest a with Some g => Ok g | None => get (or_list (g_personal_digest a) DEFAULT_DIGESTS) 0 end);;
               do z <- (match g_compress a with Some z => Ok z | None => get (or_list (g_personal_compress a) DEFAULT_COMPRESSION) 0 end);;
               let level x := match g_level a with Some l => l | None => x end in
               Ok (Helper c g z (match g_cert_digest a with Some (x :: t) => x :: t | _ => g end) personal (level (g_z a)) (level (g_bz a)))
           end
       end)
  end.
(** the module's list after a history of constructions *)
Definition default_after (d : list text) (l : list aargs) : list text := fold_left (fun d a => fst (fst (new_helper d a))) l d.
Definition is_name (t : text) (s : string) : bool := zlist_eqb t (str s).
(** 74-97 *)
Definition cipher_code (v : text) : Z :=
  if is_name v "idea" then 1 else if is_name v "3des" then 2 else if is_name v "cast5" then 3 else if is_name v "blowfish" then 4
  else if is_name v "aes" then 7 else if is_name v "aes192" then 8 else if is_name v "aes256" then 9 else if is_name v "twofish" then 10
  else if is_name v "camellia128" then 11 else if is_name v "camellia192" then 12 else if is_name v "camellia256" then 13 else 0.
(** 99-113; None for other names *)
Definition digest_code (v : text) : option Z :=
  if is_name v "md5" then Some 1 else if is_name v "sha1" then Some 2 else if is_name v "ripemd160" then Some 3 else if is_name v "sha256" then Some 8
  else if is_name v "sha384" then Some 9 else if is_name v "sha512" then Some 10 else if is_name v "sha224" then Some 11 else None.
(** 115-122 *)
Definition compression_code (v : text) : Z := if is_name v "zip" then 1 else if is_name v "zlib" then 2 else if is_name v "bz2" then 3 else 0.
(** 124-128 *)
Definition get_preferred_ciphers_for_encryption (h : helper) : res (list Z) :=
  match h_cipher h with
  | _ :: _ => Ok [cipher_code (h_cipher h)]
  | [] => match h_personal h with Some l => Ok (map cipher_code l) | None => Err TypeError end
  end.
(** 136-143 *)
Definition get_compression_level (h : helper) : Z :=
  let algo := compression_code (h_compress h) in
  if algo =? 0 then 0 else if (algo =? 1) || (algo =? 2) then h_z h else if algo =? 3 then h_bz h else 0.

(** ** recipient_helper.py *)
(** str.split() *)
Fixpoint words_acc (acc : text) (l : text) : list text :=
  match l with
  | [] => match acc with [] => [] | _ => [rev acc] end
  | c :: t => if is_space c then match acc with [] => words_acc [] t | _ => rev acc :: words_acc [] t end else words_acc (c :: acc) t
  end.
Definition words (l : text) : list text := words_acc [] l.
(** str.split('=') into two names: None if there is no =, an error if there are several *)
Definition split_group (v : text) : res (text * text) :=
  match split_once [61] v with
  | None => Err AttributeError      (* raise ArgumentError('--group', ...): a str has no option_strings *)
  | Some (n, r) => match split_once [61] r with None => Ok (n, r) | Some _ => Err ValueError end
  end.
Definition groups := list (text * list text).
Fixpoint find_group (g : groups) (n : text) : option (list text) := match g with [] => None | (m, l) :: t => if zlist_eqb m n then Some l else find_group t n end.
Fixpoint extend_group (g : groups) (n : text) (l : list text) : groups :=
  match g with [] => [(n, l)] | (m, k) :: t => if zlist_eqb m n then (m, k ++ l) :: t else (m, k) :: extend_group t n l end.
(** 16-24: the loop also assigns the variable recipients *)
Fixpoint read_groups (vals : list text) (g : groups) (recipients : list text) : res (groups * list text) :=
  match vals with
  | [] => Ok (g, recipients)
  | v :: t => do (n, r) <- split_group v;; read_groups t (extend_group g n (words r)) (words r)
  end.
Record rhelper := RHelper { e_groups : groups; e_recipients : list text; e_hidden : list text; e_to : list text; e_hidden_to : list text }.
(** 7-38 *)
Definition new_recipients (recipients hidden encrypt_to hidden_encrypt_to : list text) (no_encrypt_to : bool) (grps ungroups : list text) (no_groups : bool) : res rhelper :=
  do (g, recipients) <- read_groups (if no_groups then [] else grps) [] recipients;;
  let g := filter (fun x => negb (is_in (fst x) ungroups)) g in
  Ok (RHelper g recipients hidden (if no_encrypt_to then [] else encrypt_to) (if no_encrypt_to then [] else hidden_encrypt_to)).
(** list has no method expand *)
Fixpoint expand_all (g : groups) (l : list text) : res (list text) :=
  match l with
  | [] => Ok []
  | r :: t => match find_group g r with Some _ => Err AttributeError | None => do x <- expand_all g t;; Ok (r :: x) end
  end.
Section Recipients.
(** trustdb_helper.check; keyring_helper.find_recipient *)
Variable check : text -> res unit.
Fixpoint check_all (l : list text) : res unit := match l with [] => Ok tt | r :: t => do _ <- check r;; check_all t end.
(** 40-68: the two functions differ in the fields only *)
Definition get_list (g : groups) (rs tos : list text) : res (list text) :=
  do a <- expand_all g rs;; do _ <- check_all a;; do b <- expand_all g tos;; Ok (a ++ b).
Definition get_recipients (h : rhelper) : res (list text) := get_list (e_groups h) (e_recipients h) (e_to h).
Definition get_hidden_recipients (h : rhelper) : res (list text) := get_list (e_groups h) (e_hidden h) (e_hidden_to h).
End Recipients.
(** pgp/commands/gpg/trustdb_helper.py has no method check *)
Definition shipped_check (r : text) : res unit := Err AttributeError.

(** a key or subkey, with what is read of it; exceptions.py:1-4: constructing FatalException reads an attribute that is not set *)
Definition fatal {A} : res A := Err AttributeError.
Record ekey := EKey { k_revoked : bool; k_comms : bool; k_prefs : list Z; k_mdc : bool }.
(** recipient_helper.py:70-94 find_recipient_public_key: a key with its subkeys, found or not; the result may be None *)
Definition find_recipient_public_key (found : option (ekey * list ekey)) : res (option ekey) :=
  match found with
  | None => fatal
  | Some (k, subs) =>
      if k_revoked k then fatal else
      match find (fun s => negb (k_revoked s) && k_comms s) subs with
      | Some s => Ok (Some s)
      | None => Ok (if k_comms k then Some k else None)
      end
  end.
(** encrypt.py:28-66: the cipher, the two lists of recipients, and integrity_protect. With no candidate, [acceptable] is never assigned. *)
Fixpoint first_acceptable (cs : list Z) (ks : list ekey) : option Z :=
  match cs with [] => None | c :: t => if forallb (fun k => existsb (Z.eqb c) (k_prefs k)) ks then Some c else first_acceptable t ks end.
Definition choose_encryption (preferred : list Z) (forced disabled throw_keys : bool) (rs hs : list ekey) : res (Z * list ekey * list ekey * bool) :=
  let hidden := if throw_keys then hs ++ rs else hs in
  let named := if throw_keys then [] else rs in
  let all := named ++ hidden in
  match preferred with
  | [] => Err UnboundLocalError
  | _ =>
      match first_acceptable preferred all with
      | None => fatal
      | Some c => Ok (c, named, hidden, if forced then true else if disabled then false else forallb k_mdc all)
      end
  end.

(** ** io_helper.py:265-284 write_output to a binary file: what is written, and the outcome. Reading gives up to 1024 octets, and the empty string at
    the end. [limit] is unbound if max_output is None or 0. *)
Fixpoint write_loop (fuel : nat) (limit : option Z) (data : bytes) (total : Z) : bytes * res Z :=
  match fuel with
  | O => ([], Err OutOfFuel)
  | S f =>
      let chunk := slice data 0 1024 in
      let total := total + zlen chunk in
      match limit with
      | None => (chunk, Err UnboundLocalError)
      | Some l =>
          if l <? total then (chunk, fatal)
          else if zlen chunk =? 0 then (chunk, Ok total)
          else let '(w, r) := write_loop f limit (slice_from data 1024) total in (chunk ++ w, r)
      end
  end.
Definition write_output (max_output : option Z) (data : bytes) : bytes * res Z :=
  write_loop (S (List.length data)) (match max_output with Some n => if n =? 0 then None else Some n | None => None end) data 0.
