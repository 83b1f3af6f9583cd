(** Model of the command line: pgp/commands/gpg/main.py (make_it_so, main), arguments.py:220-349 (ArgumentParser) and the option strings of
    make_argparser, sign.py, clearsign.py, detach_sign.py, formatter.py:38-45, multifile.py, combinations.py. Definitions only.
    Simplified: the argparse base class and the helper classes are parameters; exit and the error method of a parser do not return. *)
From Coq Require Import String.
From Verif Require Import Base Text DumpKeys IoHelper.
Open Scope Z_scope.

(** ** arguments.py *)
(** 352-553: the option strings of the calls of add_argument in make_argparser, in order, up to the second one for --options at 547 *)
Definition OPTION_STRINGS : list (list text) := map (map str) [
   ["--homedir"]; ["--options"]; ["--default-key"]; ["--default-recipient"]; ["--default-recipient-self"]; ["--no-default-recipient"];
   ["--verbose, -v"]; ["--no-verbose"]; ["--quiet, -q"]; ["--batch"]; ["--no-batch"]; ["--no-tty"];
   ["--yes"]; ["--no"]; ["--list-options"]; ["--verify-options"]; ["--enable-dsa2"]; ["--disable-dsa2"];
   ["--photo-viewer"]; ["--exec-path"]; ["--keyring"]; ["--secret-keyring"]; ["--primary-keyring"]; ["--trustdb-name"];
   ["--display-charset"]; ["--utf8-strings"]; ["--no-utf8-strings"]; ["--options"]]%string.
(** argparse, _check_conflict with conflict_handler error (arguments.py:237): an option string that is known is an ArgumentError (numbered 92) *)
Fixpoint add_arguments (known : list text) (l : list (list text)) : res (list text) :=
  match l with
  | [] => Ok known
  | os :: l => if existsb (fun o => existsb (zlist_eqb o) known) os then Err (PgpError 92) else add_arguments (known ++ os) l
  end.
(** 352-2336; the calls after 552 are left out, they are not reached *)
Definition make_argparser : res (list text) := add_arguments [] OPTION_STRINGS.

(** An argument is a text or octets. 263-275 decode_arg_strings; [decode] is bytes.decode, [use_default] the attribute use_default_arg_encoding *)
Inductive arg := AText (t : text) | ABytes (b : bytes).
Definition decode_arg_strings (decode : text -> bytes -> res text) (use_default : bool) (default : text) (l : list arg) : res (list text) :=
  do r <- mapM (fun a => match a with AText _ => Ok [] | ABytes b => do t <- decode (if use_default then default else str "utf8") b;; Ok [t] end) l;;
  Ok (concat r).
(** 281-314 parse_known_args: the base class returns a pair, which has no attribute options_file *)
Definition parse_known_args {N} (base : list arg -> res (N * list arg)) (args : list arg) : res (N * list arg) :=
  do _ <- base args;; Err AttributeError.
(** 325-349 error: the usage is written to standard error, then the name _ is looked up, a NameError (numbered 93). The result: what is written to
    standard error, and the outcome; exit is not reached. *)
Definition parser_error (usage : text) (message : text) : text * res unit := (usage, Err (PgpError 93)).

(** ** main.py *)
(** the constants of arguments.py:39-88 that stand for commands *)
Inductive cmd := Name (t : text) | Num (n : Z).
Definition COMMANDS : list cmd := [
   Name (str "sign"); Name (str "clearsign"); Name (str "detach_sign"); Name (str "encrypt"); Name (str "symmetric"); Name (str "store"); Name (str "encrypt"); Name (str "decrypt"); Name (str "verify"); Name (str "list_keys"); Name (str "list_secret_keys"); Name (str "list_sigs"); Name (str "check_sigs"); Name (str "fingerprint"); Name (str "list_packets"); Num 19; Num 20; Num 21; Name (str "delete_key"); Name (str "delete_secret_key"); Name (str "delete_secret_and_public_key"); Name (str "export"); Name (str "send_keys"); Name (str "export_secret_keys"); Name (str "export_secret_subkeys"); Name (str "import_keys"); Name (str "recv_keys"); Name (str "refresh_keys"); Name (str "search_keys"); Name (str "fetch_keys"); Name (str "update_trustdb"); Name (str "check_trustdb"); Name (str "export_ownertrust"); Name (str "import_ownertrust"); Num 38; Num 39; Num 40; Num 41; Num 42; Name (str "enarmor"); Name (str "dearmor"); Name (str "gen_key"); Name (str "gen_revoke"); Name (str "desig_revoke"); Name (str "edit_key"); Name (str "sign_key"); Num 50; Name (str "show_session_key")].
(** what the parser stored as command: a list, nothing, or (the actions of arguments.py:167-169) a text, of which main takes the characters *)
Inductive stored := SList (l : list cmd) | SNone | SText (t : text).
Definition commands_of (s : stored) : list cmd := match s with SList l => l | SNone => [] | SText t => map (fun c => Name [c]) t end.
Definition cmd_eqb (a b : cmd) : bool := match a, b with Name x, Name y => zlist_eqb x y | Num x, Num y => x =? y | _, _ => false end.
(** set, and sorted over texts *)
Fixpoint cmd_set (l : list cmd) : list cmd := match l with [] => [] | c :: l => if existsb (cmd_eqb c) l then cmd_set l else c :: cmd_set l end.
Fixpoint insert (x : text) (l : list text) : list text := match l with [] => [x] | y :: l => if lex x y <=? 0 then x :: y :: l else y :: insert x l end.
Definition sort_texts (l : list text) : list text := fold_right insert [] l.
Definition names (l : list cmd) : option (list text) := fold_right (fun c r => match c, r with Name t, Some r => Some (t :: r) | _, _ => None end) (Some []) l.
(** 114 sorted(set(..)): a text and a number are not comparable; numbers alone never make a key of the table, so only texts are kept *)
Definition sorted_set (l : list cmd) : res (option (list text)) :=
  match names (cmd_set l) with
  | Some t => Ok (Some (sort_texts t))
  | None => if existsb (fun c => match c with Name _ => true | Num _ => false end) l then Err TypeError else Ok None
  end.
(** 36-47 *)
Inductive combination := EncryptSymmetricAndSign | EncryptAndSign | SymmetricAndSign | FingerprintCheckSigs | FingerprintListSigs.
Definition COMMAND_COMBINATIONS : list (list text * combination) := map (fun x => (sort_texts (map str (fst x)), snd x)) [
   (["encrypt"; "symmetric"; "sign"], EncryptSymmetricAndSign); (["encrypt"; "sign"], EncryptAndSign); (["symmetric"; "sign"], SymmetricAndSign);
   (["fingerprint"; "check_sigs"], FingerprintCheckSigs); (["fingerprint"; "list_sigs"], FingerprintListSigs)]%string.
Definition find_combination (k : list text) : option combination :=
  match find (fun x => (zlen (fst x) =? zlen k) && forallb (fun p => zlist_eqb (fst p) (snd p)) (combine (fst x) k)) COMMAND_COMBINATIONS with Some x => Some (snd x) | None => None end.
(** the files of pgp/commands/gpg *)
Definition MODULES : list text := map str ["pgp.commands.gpg"; "pgp.commands.gpg.algorithm_helper"; "pgp.commands.gpg.arguments"; "pgp.commands.gpg.check_sigs"; "pgp.commands.gpg.check_trustdb"; "pgp.commands.gpg.clearsign"; "pgp.commands.gpg.combinations"; "pgp.commands.gpg.dearmor"; "pgp.commands.gpg.decrypt"; "pgp.commands.gpg.delete_key"; "pgp.commands.gpg.delete_secret_and_public_key"; "pgp.commands.gpg.delete_secret_key"; "pgp.commands.gpg.desig_revoke"; "pgp.commands.gpg.detach_sign"; "pgp.commands.gpg.edit_key"; "pgp.commands.gpg.enarmor"; "pgp.commands.gpg.encrypt"; "pgp.commands.gpg.exceptions"; "pgp.commands.gpg.export"; "pgp.commands.gpg.export_ownertrust"; "pgp.commands.gpg.export_secret_keys"; "pgp.commands.gpg.export_secret_subkeys"; "pgp.commands.gpg.fetch_keys"; "pgp.commands.gpg.fingerprint"; "pgp.commands.gpg.formatter"; "pgp.commands.gpg.gen_key"; "pgp.commands.gpg.gen_revoke"; "pgp.commands.gpg.import_keys"; "pgp.commands.gpg.import_ownertrust"; "pgp.commands.gpg.io_helper"; "pgp.commands.gpg.keyring_helper"; "pgp.commands.gpg.keyserver_helper"; "pgp.commands.gpg.list_"; "pgp.commands.gpg.list_keys"; "pgp.commands.gpg.list_packets"; "pgp.commands.gpg.list_secret_keys"; "pgp.commands.gpg.list_sigs"; "pgp.commands.gpg.lsign_key"; "pgp.commands.gpg.main"; "pgp.commands.gpg.message_"; "pgp.commands.gpg.multifile"; "pgp.commands.gpg.recipient_helper"; "pgp.commands.gpg.recv_keys"; "pgp.commands.gpg.refresh_keys"; "pgp.commands.gpg.search_keys"; "pgp.commands.gpg.send_keys"; "pgp.commands.gpg.show_session_key"; "pgp.commands.gpg.sign"; "pgp.commands.gpg.sign_"; "pgp.commands.gpg.sign_key"; "pgp.commands.gpg.store"; "pgp.commands.gpg.symmetric"; "pgp.commands.gpg.trustdb_helper"; "pgp.commands.gpg.update_trustdb"; "pgp.commands.gpg.verification_helper"; "pgp.commands.gpg.verify"]%string.
(** 119-122: __package__ of main.py is pgp.commands.gpg, so rsplit leaves pgp.commands. [shown] is str of a number. A missing module is an ImportError
    (numbered 94); the module pgp.commands.gpg has no attribute Command. Names that start with a dot are not modelled. *)
Definition package : text := str "pgp.commands".
Definition import_command (shown : Z -> text) (c : cmd) : res text :=
  let name := package ++ 46 :: match c with Name t => t | Num n => shown n end in
  if existsb (zlist_eqb name) MODULES then if zlist_eqb name (str "pgp.commands.gpg") then Err AttributeError else Ok name else Err (PgpError 94).
(** 105-122: the class that is to run *)
Inductive class := Module (name : text) | Combined (c : combination).
Inductive choice := Chosen (c : class) | UsageError | Failed (e : exn).
Definition choose (shown : Z -> text) (l : list cmd) : choice :=
  match l with
  | [] => UsageError
  | [c] => match import_command shown c with Ok n => Chosen (Module n) | Err e => Failed e end
  | _ => match sorted_set l with
         | Err e => Failed e
         | Ok k => match k with Some k => match find_combination k with Some c => Chosen (Combined c) | None => UsageError end | None => UsageError end
         end
  end.
(** 103, 109-111 *)
Definition show_fingerprints (l : list cmd) : Z := zlen (filter (cmd_eqb (Name (str "fingerprint"))) l).

(** A class with its constructor's signature: the names after self, those with a default last. *)
Record csig := CSig { g_names : list text; g_defaults : Z; g_varargs : bool; g_keywords : bool }.
Definition mem (k : text) (l : list text) : bool := existsb (zlist_eqb k) l.
(** Python's binding of a call with [n] positional arguments and the keywords [kw] *)
Definition binds (s : csig) (n : Z) (kw : list text) : bool :=
  (g_varargs s || (n <=? zlen (g_names s)))
  && negb (existsb (fun k => mem k kw) (firstn (Z.to_nat n) (g_names s)))
  && (g_keywords s || forallb (fun k => mem k (g_names s)) kw)
  && forallb (fun k => mem k kw) (skipn (Z.to_nat n) (firstn (List.length (g_names s) - Z.to_nat (g_defaults s)) (g_names s))).
Section Values.
Context {V : Type}.
(** 21-33 make_it_so: the arguments the constructor is called with. [args] is params['args']; the name self never is a parameter. *)
Definition make_it_so (s : csig) (args : list V) (params : list (text * V)) : res (list V * list (text * V)) :=
  let a := if g_varargs s then args else [] in
  let kw := if g_keywords s then params else filter (fun x => mem (fst x) (g_names s)) params in
  if binds s (zlen a) (map fst kw) then Ok (a, kw) else Err TypeError.
(** params[k] = v *)
Definition put (k : text) (v : V) (p : list (text * V)) : list (text * V) := filter (fun x => negb (zlist_eqb (fst x) k)) p ++ [(k, v)].

(** combinations.py: the constructors. 36-46: the last two pass everything else on to check_sigs.py:3-4, which takes show_fingerprints only. *)
Definition combination_sig (c : combination) : csig :=
  match c with FingerprintCheckSigs | FingerprintListSigs => CSig [str "show_fingerprints"] 0 true true | _ => CSig [] 0 false false end.
Definition combination_new (c : combination) (args : list V) (params : list (text * V)) : res unit :=
  do x <- make_it_so (combination_sig c) args params;;
  match c with
  | FingerprintCheckSigs | FingerprintListSigs =>
      let extra := filter (fun k => negb (zlist_eqb k (str "show_fingerprints"))) (map fst (snd x)) in
      if binds (CSig [str "show_fingerprints"] 1 false false) (zlen (fst x) - 1) (str "show_fingerprints" :: extra) then Ok tt else Err TypeError
  | _ => Ok tt
  end.
(** the attribute multifile of the object, getattr(command, 'multifile', False) *)
Definition combination_multifile (c : combination) : bool := match c with EncryptSymmetricAndSign | EncryptAndSign => true | _ => false end.

(** What the parser returns, besides the other parameters *)
Record parsed := Parsed { q_command : stored; q_args : list V; q_multifile : bool; q_params : list (text * V) }.
(** How main ends: with an exception, in the parser's error method (107, 116 and 131), or in exit; and the object that was run before, if any *)
Inductive ending := Raised (e : exn) | Usage | Exit (code : Z).
(** 50-142 main. [parse]: 79-83, the factory and parse_args; [helpers]: 88-100, the six helpers; [module_new], [module_run]: constructor and run of the
    Command of a module, with its attribute multifile. 132, multifile.py:6-8: run reads the attribute args, which a MultifileCommand has not. combinations.py: run does nothing. exceptions.py:3-4: a FatalException cannot be made,
    so the handler at 140-141 is not reached. *)
Definition main (shown : Z -> text) (num : Z -> V) (parse : res parsed) (helpers : parsed -> res (V * V * V * V * V * V))
    (module_new : text -> list V -> list (text * V) -> res bool) (module_run : text -> list V -> res unit) : option class * ending :=
  match parse with
  | Err e => (None, Raised e)
  | Ok a =>
      match helpers a with
      | Err e => (None, Raised e)
      | Ok (h1, h2, h3, h4, h5, h6) =>
          let l := commands_of (q_command a) in
          let params := put (str "show_fingerprints") (num (show_fingerprints l)) (put (str "trustdb_helper") h6 (put (str "keyring_helper") h5
            (put (str "keyserver_helper") h4 (put (str "io_helper") h3 (put (str "formatter") h2 (put (str "algorithm_helper") h1 (q_params a))))))) in
          match choose shown l with
          | Failed e => (None, Raised e)
          | UsageError => (None, Usage)
          | Chosen c =>
              match (match c with Module n => module_new n (q_args a) params | Combined k => do _ <- combination_new k (q_args a) params;; Ok (combination_multifile k) end) with
              | Err e => (None, Raised e)
              | Ok multi =>
                  if q_multifile a then (None, if multi then Usage else Raised AttributeError)
                  else match (match c with Module n => module_run n (q_args a) | Combined _ => Ok tt end) with
                       | Ok _ => (Some c, Exit 0)
                       | Err e => (Some c, Raised e)
                       end
              end
          end
      end
  end.
End Values.

(** ** The sign commands *)
Inductive sign_kind := Sign | Clearsign | DetachSign.
(** formatter.py:38-45 *)
Definition make_output_filename (armor : bool) (filename : option text) : option text :=
  match filename with None => None | Some f => Some (f ++ 46 :: (if armor then str "asc" else str "gpg")) end.
(** the files: contents and time of modification *)
Definition files := text -> option (bytes * Z).
(** sign.py:48-52 run, with sign.py:27-46, clearsign.py, detach_sign.py: the files afterwards and the outcome. [key] is what keyring_helper.get_secret_key
    returns (always None: keyring_helper.py:18-19), [sign] the signing of C98, [compression] the compression algorithm, [output_file] the option --output,
    [can_write] says which files can be opened for writing, [now] is the time. sign_message returns nothing, so the signed message is lost: compress and
    signatures are looked up on None; formatter.py:56-59 format_message returns None as well, and write_output (io_helper.py:265-284) opens the output before it
    looks up read on it. *)
Definition sign_command {K S} (decode : text -> bytes -> res text) (sign : K -> literal -> res S) (can_write : text -> bool) (now : Z)
    (kind : sign_kind) (fs : files) (key : option K) (compression : Z) (armor : bool) (message_filename : option text) (eyes_only : bool)
    (output_file : option text) (filename : option text) : files * res unit :=
  match file_to_literal_message decode fs message_filename eyes_only false filename true None with
  | Err e => (fs, Err e)
  | Ok m =>
      match key with
      | None => (fs, Err AttributeError)
      | Some k =>
          match sign k m with
          | Err e => (fs, Err e)
          | Ok _ =>
              match kind, compression with
              | DetachSign, _ => (fs, Err AttributeError)
              | Clearsign, _ | Sign, 0 =>
                  let out := match make_output_filename armor filename with Some o => Some o | None => output_file end in
                  if truthy out then
                    match out with
                    | Some o => if can_write o then (fun f => if zlist_eqb f o then Some ([], now) else fs f, Err AttributeError) else (fs, Err (PgpError 91))
                    | None => (fs, Err AttributeError)
                    end
                  else (fs, Err AttributeError)
              | Sign, _ => (fs, Err AttributeError)
              end
          end
      end
  end.
