(** Model of pgp/commands/gpg/io_helper.py:156-262 (photo viewer, status, log and attribute output) and of
    pgp/commands/gpg/message_.py:10-41 (reading a file as a literal message). Definitions only. *)
From Coq Require Import String.
From Verif Require Import Base Text Utf8.
Open Scope Z_scope.

(** [if x] for a text or None *)
Definition truthy (t : option text) : bool := match t with Some (_ :: _) => true | _ => false end.

(** ** 156-208 view_photo *)
(** 156-158: what the escapes stand for *)
Record photo_args := PArgs { a_key_id : text; a_long_key_id : text; a_fingerprint : text; a_extension : text; a_mime_type : text;
                             a_validity : text; a_full_validity : text; a_user_id : text }.
(** 166-175: one replace after the other *)
Definition photo_command (viewer : text) (a : photo_args) : text :=
  let c := replace (str "%k") (a_key_id a) viewer in
  let c := replace (str "%K") (a_long_key_id a) c in
  let c := replace (str "%f") (a_fingerprint a) c in
  let c := replace (str "%t") (a_extension a) c in
  let c := replace (str "%T") (a_mime_type a) c in
  let c := replace (str "%v") (a_validity a) c in
  let c := replace (str "%V") (a_full_validity a) c in
  let c := replace (str "%U") (a_user_id a) c in
  replace (str "%%") (str "%") c.
(** sub in s *)
Definition contains (sub l : text) : bool := match split_once sub l with Some _ => true | None => false end.
(** the process that is started: its arguments, what it can read from its standard input, and the value its PATH is set to (None: left alone); or the
    exception, with the number of temporary files that stay behind *)
Inductive viewing := Started (argv : list text) (stdin : option bytes) (path : option text) (files_left : Z) | Raised (e : exn) (files_left : Z).
(** 176-208. [split] is shlex.split. 184-187: the temporary file is opened for reading text, so writing to it is a TypeError (photo_data is a BytesIO
    here), after mkstemp has made the file. The fault of Popen for an empty list of arguments is not modelled. *)
Definition view_photo (split : text -> res (list text)) (viewer : text) (exec_path : option text) (photo : bytes) (a : photo_args) : viewing :=
  let command := photo_command viewer a in
  let use_file := if contains (str "%I") command then true else if contains (str "%i") command then true else false in
  if use_file then Raised TypeError 1
  else match split command with
       | Err e => Raised e 0
       | Ok argv => Started argv None (if truthy exec_path then exec_path else None) 0
       end.

(** ** 210-262 write_status, write_log, write_attribute *)
(** a descriptor number is tested for truth: 0 is like None *)
Record channels := Channels { c_status_fd : option Z; c_status_file : option text; c_logger_fd : option Z; c_logger_file : option text;
                              c_attribute_fd : option Z; c_attribute_file : option text; c_exit_on_error : bool }.
Inductive sink := Stdout | Fd (n : Z) | File (name : text).
Inductive written := Wrote (s : sink) (b : bytes) | Lost | Exited.
Definition on (n : option Z) : bool := match n with Some n => negb (n =? 0) | None => false end.
(** the common body: [fd] and [file] are what the function opens; what it tests are status_fd and status_file. [opens] says whether fdopen or open
    succeeds (OSError if not), [takes] whether the stream takes octets (TypeError if not, as sys.stdout). 217: [enc] is status.encode(display_charset).
    fdopen(None) and open(None) are TypeErrors. The exceptions 218 catches end in a silent loss or in exit(1). An encoding that does not exist is a
    LookupError, which is not caught; here [enc] is None only for a UnicodeEncodeError, a ValueError. *)
Definition write_channel (opens takes : sink -> bool) (c : channels) (fd : option Z) (file : option text) (enc : option bytes) : written :=
  let failed := if c_exit_on_error c then Exited else Lost in
  let use s := if (takes s : bool) then match enc with Some b => Wrote s b | None => failed end else failed in
  let open_file s := if truthy (c_status_file c) then match file with Some f => if opens (File f) then use (File f) else failed | None => failed end else use s in
  if on (c_status_fd c) then match fd with Some n => if opens (Fd n) then open_file (Fd n) else failed | None => failed end
  else open_file Stdout.
Definition write_status opens takes c enc := write_channel opens takes c (c_status_fd c) (c_status_file c) enc.
Definition write_log opens takes c enc := write_channel opens takes c (c_logger_fd c) (c_logger_file c) enc.
Definition write_attribute opens takes c enc := write_channel opens takes c (c_attribute_fd c) (c_attribute_file c) enc.

(** ** message_.py:20-41 file_to_literal_message *)
Inductive literal := LitBinary (d : bytes) (name : option text) (time : Z) | LitText (d : text) (name : option text) (time : Z).
(** the replacement at 38: without re.MULTILINE the expression matches at the start of the text only *)
Definition escape_from (t : text) : text := match strip_prefix (str "From ") t with Some r => str "- From " ++ r | None => t end.
(** [file] is the file with its time of modification, None if it does not exist (FileNotFoundError, numbered 91). io_helper.py:110-123: without file name the object's attribute self is
    read, an AttributeError. 28-29: the name in the packet is message_filename if there is one; message_.py:13-14 sets it for for_your_eyes_only.
    31-36: [encoding] is the encoding asked for; what chardet finds is not used, the octets are decoded as UTF-8. [decode] is bytes.decode. *)
Definition file_to_literal_message (decode : text -> bytes -> res text) (files : text -> option (bytes * Z)) (message_filename : option text) (eyes_only escape : bool)
    (filename : option text) (binary : bool) (encoding : option text) : res literal :=
  match filename with
  | None => Err AttributeError
  | Some f =>
      match files f with
      | None => Err (PgpError 91)
      | Some (data, mtime) =>
          let own := if eyes_only then Some (str "_CONSOLE") else message_filename in
          let name := if truthy own then own else Some f in
          if binary then Ok (LitBinary data name mtime)
          else do t <- decode (if truthy encoding then match encoding with Some e => e | None => [] end else str "utf8") data;;
               Ok (LitText (if escape then escape_from t else t) name mtime)
      end
  end.
