(** Model of pgp/armor.py, with CPython's base64 module. Definitions only. *)
From Verif Require Import Base Text Crc24.

(** pgp/armor.py:27-30 *)
Definition PGP_MESSAGE := 1.
Definition PGP_PUBLIC_KEY_BLOCK := 2.
Definition PGP_PRIVATE_KEY_BLOCK := 3.
Definition PGP_SIGNATURE := 4.
(** pgp/armor.py:33-38 data_types *)
Definition data_types (t : Z) : option text :=
  if t =? 1 then Some (str "PGP MESSAGE") else
  if t =? 2 then Some (str "PGP PUBLIC KEY BLOCK") else
  if t =? 3 then Some (str "PGP PRIVATE KEY BLOCK") else
  if t =? 4 then Some (str "PGP SIGNATURE") else None.
(** pgp/armor.py:41 *)
Definition DASHES : text := str "-----".

(** [1-9][0-9]* at the start of [l]: the digits and what follows *)
Definition match_number (l : text) : option (text * text) :=
  match span_digits l with
  | (c :: a, b) => if c =? 48 then None else Some (c :: a, b)
  | _ => None
  end.
(** pgp/armor.py:42-58 header_line_expr.match(line): (data_type, part, total_parts). The number is
    followed by '/' or '-', so the greedy match never has to backtrack; [int] is applied here
    (lines 94-99) instead of after the match. *)
Definition header_match (line : text) : option (Z * option Z * option Z) :=
  match strip_prefix (DASHES ++ str "BEGIN ") line with
  | None => None
  | Some r =>
      match strip_prefix (str "PGP MESSAGE") r with
      | Some r1 =>
          match strip_prefix (str ", PART ") r1 with
          | Some r2 =>
              match match_number r2 with
              | Some (p, r3) =>
                  match strip_prefix (str "/") r3 with
                  | Some r4 =>
                      match match_number r4 with
                      | Some (q, r5) => if zlist_eqb r5 DASHES
                                        then Some (PGP_MESSAGE, Some (dec_val p), Some (dec_val q)) else None
                      | None => None
                      end
                  | None => if zlist_eqb r3 DASHES then Some (PGP_MESSAGE, Some (dec_val p), None) else None
                  end
              | None => None
              end
          | None => if zlist_eqb r1 DASHES then Some (PGP_MESSAGE, None, None) else None
          end
      | None =>
          if zlist_eqb r (str "PGP PUBLIC KEY BLOCK" ++ DASHES) then Some (PGP_PUBLIC_KEY_BLOCK, None, None)
          else if zlist_eqb r (str "PGP PRIVATE KEY BLOCK" ++ DASHES) then Some (PGP_PRIVATE_KEY_BLOCK, None, None)
          else if zlist_eqb r (str "PGP SIGNATURE" ++ DASHES) then Some (PGP_SIGNATURE, None, None)
          else None
      end
  end.

(** pgp/armor.py:61-68 is_armor, on bytes: the canary is decoded as us-ascii *)
Definition is_armor (data : bytes) : bool :=
  let canary := slice data 0 (zlen DASHES) in
  if forallb (fun c => c <? 128) canary then zlist_eqb canary DASHES else false.

(** base64.b64encode (RFC 4648 table) *)
Definition b64char (i : Z) : Z :=
  if i <? 26 then 65 + i else if i <? 52 then 71 + i else if i <? 62 then i - 4 else if i =? 62 then 43 else 47.
Fixpoint b64encode (l : bytes) : text :=
  match l with
  | [] => []
  | [a] => [b64char (a / 4); b64char (a mod 4 * 16); 61; 61]
  | [a; b] => [b64char (a / 4); b64char (a mod 4 * 16 + b / 16); b64char (b mod 16 * 4); 61]
  | a :: b :: c :: t =>
      b64char (a / 4) :: b64char (a mod 4 * 16 + b / 16) :: b64char (b mod 16 * 4 + c / 64) :: b64char (c mod 64) :: b64encode t
  end.
(** value of a base64 character *)
Definition b64val (c : Z) : option Z :=
  if (65 <=? c) && (c <=? 90) then Some (c - 65) else
  if (97 <=? c) && (c <=? 122) then Some (c - 71) else
  if (48 <=? c) && (c <=? 57) then Some (c + 4) else
  if c =? 43 then Some 62 else if c =? 47 then Some 63 else None.
(** binascii.a2b_base64, non-strict (CPython Modules/binascii.c): characters outside the alphabet are
    skipped, '=' ends the data once two or three characters of a quantum were read and enough pads were
    seen; an incomplete quantum raises binascii.Error, a ValueError. *)
Fixpoint a2b (l : text) (quad left pads : Z) : res bytes :=
  match l with
  | [] => if quad =? 0 then Ok [] else Err ValueError
  | c :: t =>
      if c =? 61 then
        if 2 <=? quad then
          if 4 <=? quad + (pads + 1) then Ok [] else a2b t quad left (pads + 1)
        else a2b t quad left pads
      else match b64val c with
      | None => a2b t quad left pads
      | Some v =>
          if quad =? 0 then a2b t 1 v 0
          else if quad =? 1 then do r <- a2b t 2 (v mod 16) 0;; Ok (left * 4 + v / 16 :: r)
          else if quad =? 2 then do r <- a2b t 3 (v mod 4) 0;; Ok (left * 16 + v / 4 :: r)
          else do r <- a2b t 0 0 0;; Ok (left * 64 + v :: r)
      end
  end.
(** base64.b64decode of a str: non-ASCII raises ValueError *)
Definition b64decode (s : text) : res bytes :=
  if forallb (fun c => c <? 128) s then a2b s 0 0 0 else Err ValueError.

(** pgp/armor.py:173-185 ASCIIArmor.__init__. [extra_headers] is a dict, in insertion order. *)
Record armor := Armor {
  data_type : Z; adata : bytes; part : option Z; total_parts : option Z;
  version : option text; comment : option text; message_id : option text;
  hash_algorithms : option text; charset : option text;
  extra_headers : option (list (text * text)) }.

(** pgp/armor.py:75-83, 89: the header line and the lines after it ([line_no] is represented by the
    remaining lines; running off the list is IndexError) *)
Fixpoint skip_blank (lines : list text) : res (text * list text) :=
  match lines with
  | [] => Err IndexError
  | l :: rest => if is_blank l then skip_blank rest else Ok (l, rest)
  end.

(** pgp/armor.py:110-115: the local variables set by the header loop *)
Record hdrs := Hdrs {
  h_version : option text; h_comment : option text; h_message_id : option text;
  h_hash : option text; h_charset : option text; h_extra : list (text * text) }.
Definition no_hdrs := Hdrs None None None None None [].
(** pgp/armor.py:118-134, one header line. Assigning an existing dict key keeps its place; here the
    pair is appended, since extra_headers is never used afterwards. warnings.warn has no effect. *)
Definition set_header (h : hdrs) (k v : text) : hdrs :=
  if zlist_eqb k (str "Version") then Hdrs (Some v) (h_comment h) (h_message_id h) (h_hash h) (h_charset h) (h_extra h)
  else if zlist_eqb k (str "Comment") then Hdrs (h_version h) (Some v) (h_message_id h) (h_hash h) (h_charset h) (h_extra h)
  else if zlist_eqb k (str "MessageID") then Hdrs (h_version h) (h_comment h) (Some v) (h_hash h) (h_charset h) (h_extra h)
  else if zlist_eqb k (str "Hash") then Hdrs (h_version h) (h_comment h) (h_message_id h) (Some v) (h_charset h) (h_extra h)
  else if zlist_eqb k (str "Charset") then Hdrs (h_version h) (h_comment h) (h_message_id h) (h_hash h) (Some v) (h_extra h)
  else Hdrs (h_version h) (h_comment h) (h_message_id h) (h_hash h) (h_charset h) (h_extra h ++ [(k, v)]).
(** pgp/armor.py:117-138: header lines up to and including the blank line *)
Fixpoint parse_headers (h : hdrs) (lines : list text) : res (hdrs * list text) :=
  match lines with
  | [] => Err IndexError
  | l :: rest =>
      if is_blank l then Ok (h, rest) else
      match split_once (str ": ") l with
      | None => Err ValueError
      | Some (k, v) => parse_headers (set_header h k v) rest
      end
  end.
(** pgp/armor.py:140-144: lines up to one starting with '=' *)
Fixpoint take_data (lines : list text) : res (list text * text * list text) :=
  match lines with
  | [] => Err IndexError
  | l :: rest =>
      if zlist_eqb (slice l 0 1) (str "=") then Ok ([], l, rest)
      else do (dl, s, r) <- take_data rest;; Ok (l :: dl, s, r)
  end.

(** pgp/armor.py:73-171 ASCIIArmor.from_ascii *)
Definition from_ascii (txt : text) : res armor :=
  do (header_line, rest) <- skip_blank (splitlines txt);;
  match header_match header_line with
  | None => Err ValueError
  | Some (ty, p, tp) =>
      do (h, rest) <- parse_headers no_hdrs rest;;
      do (data_lines, sum_line, rest) <- take_data rest;;
      do data <- b64decode (concat data_lines);;
      do checksum_data <- b64decode (slice_from sum_line 1);;
      do c0 <- get checksum_data 0;;
      do c1 <- get checksum_data 1;;
      do c2 <- get checksum_data 2;;
      let expected_checksum := Z.shiftl c0 16 + Z.shiftl c1 8 + c2 in
      if negb (crc24 data =? expected_checksum) then Err ValueError else
      do tail_line <- get rest 0;;
      if negb (zlist_eqb tail_line (replace (str "BEGIN") (str "END") header_line)) then Err ValueError else
      Ok (Armor ty data p tp (h_version h) (h_comment h) (h_message_id h) (h_hash h) (h_charset h) None)
  end.

(** pgp/armor.py:188-218, first line *)
Definition header_text (a : armor) : res text :=
  match data_types (data_type a) with
  | None => Err KeyError
  | Some name =>
      Ok (DASHES ++ str "BEGIN " ++ name ++
          (if data_type a =? PGP_MESSAGE then
             match part a, total_parts a with
             | Some p, Some t => str ", PART " ++ dec_of p ++ str "/" ++ dec_of t
             | Some p, None => str ", PART " ++ dec_of p
             | None, _ => []
             end
           else []) ++ DASHES)
  end.
Definition opt_line (k : text) (v : option text) : list text :=
  match v with Some v => [k ++ str ": " ++ v] | None => [] end.
(** pgp/armor.py:234-236: [for k, v in self.extra_headers] iterates over the KEYS of the dict and
    unpacks each key, a str, into two characters: ValueError unless the key has exactly two. *)
Definition extra_lines (e : option (list (text * text))) : res (list text) :=
  match e with
  | None => Ok []
  | Some d => mapM (fun kv : text * text => match fst kv with
                           | [c1; c2] => Ok ([c1] ++ str ": " ++ [c2])
                           | _ => Err ValueError
                           end) d
  end.
(** pgp/armor.py:242-243: range(ceil(len / 72.0)) slices of 72 characters *)
Fixpoint chunks72 (n : nat) (i : Z) (s : text) : list text :=
  match n with
  | O => []
  | S n' => slice s (i * 72) (i * 72 + 72) :: chunks72 n' (i + 1) s
  end.
(** pgp/armor.py:187-255 ASCIIArmor.__str__ *)
Definition armor_str (a : armor) : res text :=
  do first <- header_text a;;
  do extra <- extra_lines (extra_headers a);;
  let encoded_data := b64encode (adata a) in
  let data_lines := chunks72 (Z.to_nat ((zlen encoded_data + 71) / 72)) 0 encoded_data in
  let v := crc24 (adata a) in
  let checksum := b64encode [Z.land (Z.shiftr v 16) 255; Z.land (Z.shiftr v 8) 255; Z.land v 255] in
  let result_lines := [first] ++ opt_line (str "Version") (version a) ++ opt_line (str "Comment") (comment a)
       ++ opt_line (str "MessageID") (message_id a) ++ opt_line (str "Hash") (hash_algorithms a)
       ++ opt_line (str "Charset") (charset a) ++ extra ++ [[]] ++ data_lines ++ [str "=" ++ checksum]
       ++ [replace (str "BEGIN") (str "END") first] in
  Ok (join NL result_lines ++ NL).
