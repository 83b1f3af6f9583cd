(** Model of pgp/pinentry/gpg_agent.py:21-100 (GPGAgentPinentry), and of the parts of urllib.parse it calls. Definitions only. *)
From Coq Require Import String.
From Verif Require Import Base Text Utf8 Utils.
Open Scope Z_scope.

(** ** urllib.parse.quote and unquote (CPython, not /repo code) *)
(** letters, digits, and _.-~ / *)
Definition always_safe (b : Z) : bool := ((65 <=? b) && (b <=? 90)) || ((97 <=? b) && (b <=? 122)) || ((48 <=? b) && (b <=? 57)) || existsb (Z.eqb b) [95; 46; 45; 126; 47].
Definition quote_byte (b : Z) : text := if always_safe b then [b] else [37; hexdigit (b / 16); hexdigit (b mod 16)].
Definition quote (t : text) : res text := do b <- utf8_encode t;; Ok (flat_map quote_byte b).
Definition hex_val (c : Z) : option Z :=
  if (48 <=? c) && (c <=? 57) then Some (c - 48) else if (65 <=? c) && (c <=? 70) then Some (c - 55) else if (97 <=? c) && (c <=? 102) then Some (c - 87) else None.
(** unquote_to_bytes of an ASCII text: a percent sign that two hexadecimal digits do not follow stays *)
Fixpoint unquote_to_bytes (t : text) : bytes :=
  match t with
  | [] => []
  | c :: t1 =>
      match t1 with
      | a :: b :: t2 => match (if c =? 37 then hex_val a else None), hex_val b with Some x, Some y => (16 * x + y) :: unquote_to_bytes t2 | _, _ => c :: unquote_to_bytes t1 end
      | _ => c :: unquote_to_bytes t1
      end
  end.
(** the maximal ASCII stretches are unquoted, other characters stay *)
Fixpoint unquote_runs (run : text) (t : text) : text :=
  match t with
  | [] => utf8_decode_replace (unquote_to_bytes (rev run))
  | c :: t => if c <? 128 then unquote_runs (c :: run) t else utf8_decode_replace (unquote_to_bytes (rev run)) ++ c :: unquote_runs [] t
  end.
Definition unquote (t : text) : text := if existsb (Z.eqb 37) t then unquote_runs [] t else t.

(** ** gpg_agent.py *)
(** 45-60 get_response: [s] is what the agent sends from now on. Reading on at the end of it, the loop goes on for ever (recv gives the empty string once
    the connection is closed, and blocks before). *)
Inductive answer := Lines (ls : list bytes) (rest : bytes) | Refused (e : text) (rest : bytes) | Waits.
Fixpoint get_response (buf : bytes) (lines : list bytes) (s : bytes) : answer :=
  match s with
  | [] => Waits
  | b :: s =>
      if b =? 10 then
        if zlist_eqb (slice buf 0 2) (str "OK") then Lines (lines ++ [buf]) s
        else if zlist_eqb (slice buf 0 3) (str "ERR") then Refused (latin1_decode (slice_from buf 4)) s
        else get_response [] (lines ++ [buf]) s
      else get_response (buf ++ [b]) lines s
  end.
Record agent_request := ARequest { a_prompt : option text; a_error : option text; a_description : option text; a_cache_id : option text; a_use_cache : bool; a_no_ask : bool; a_qualitybar : bool; a_repeat : Z }.
(** 75-90: an argument, or X *)
Definition argument (t : option text) : res text :=
  match t with None => Ok (str " X") | Some x => if zlen x =? 0 then Ok (str " X") else do q <- quote x;; Ok (str " " ++ q) end.
(** 66-91: the line that is sent; 39-42 send (taken to send all of it: socket.send may send less, which the code does not check) *)
Definition request_line (q : agent_request) : res bytes :=
  do c <- argument (a_cache_id q);; do e <- argument (a_error q);; do p <- argument (a_prompt q);; do d <- argument (a_description q);;
  Ok (str "GET_PASSPHRASE --data" ++ (if a_no_ask q then str " --no-ask" else []) ++ (if a_qualitybar q then str " --qualitybar" else [])
      ++ (if a_repeat q =? 1 then str " --repeat" else if 1 <? a_repeat q then str " --repeat=" ++ dec_of (a_repeat q) else []) ++ c ++ e ++ p ++ d ++ [10]).
(** the outcome of a call *)
Inductive outcome := Got (p : text) | Raised (e : exn) (msg : text) | Never.
(** 62-95 get_passphrase, with what the agent sends on this connection: what is sent, and the outcome *)
Definition agent_get_passphrase (q : agent_request) (s : bytes) : bytes * outcome :=
  match get_response [] [] s with
  | Waits => ([], Never)
  | Refused e _ => ([], Raised ValueError e)
  | Lines _ s =>
      match request_line q with
      | Err e => ([], Raised e [])
      | Ok line =>
          match get_response [] [] s with
          | Waits => (line, Never)
          | Refused e _ => (line, Raised ValueError e)
          | Lines ls _ => (line, match ls with [] => Raised IndexError [] | l :: _ => Got (unquote (latin1_decode (slice_from l 2))) end)
          end
      end
  end.
(** 97-100 clear_passphrase: the answer is not read *)
Definition agent_clear_passphrase (id : text) (s : bytes) : bytes * outcome :=
  match get_response [] [] s with
  | Waits => ([], Never)
  | Refused e _ => ([], Raised ValueError e)
  | Lines _ _ => match quote id with Err e => ([], Raised e []) | Ok q => (str "CLEAR_PASSPHRASE " ++ q ++ [10], Got []) end
  end.
