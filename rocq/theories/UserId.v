(** Model of pgp/user_id.py:25-323. Definitions only. A str is a list of code points; self.pos and self.commentlist are
    threaded through. [self.field[self.pos]] is [get], which is an IndexError outside the field.
    Loops have fuel one more than the length of the field. The interpreter's recursion limit is modelled by two numbers:
    how deep comments ([cd]) and groups ([gd]) may be nested before a RecursionError (a RuntimeError) is raised. *)
From Verif Require Import Base Text.

(** 39-50: parentheses, angle brackets, at, comma, colon, semicolon, dot, double quote, square brackets *)
Definition specials : text := [40; 41; 60; 62; 64; 44; 58; 59; 46; 34; 91; 93].
Definition LWS : text := [32; 9].
Definition CRLF : text := [13; 10].
Definition FWS : text := LWS ++ CRLF.
Definition atomends : text := specials ++ LWS ++ CRLF.
Definition phraseends : text := filter (fun c => negb (c =? 46)) atomends.
Definition in_set (c : Z) (l : text) : bool := existsb (Z.eqb c) l.
Section U.
(** urllib.parse.quote (17) *)
Variable quote : text -> text.
Variable field : text.
Notation L := (zlen field).
Definition loop_fuel : nat := S (length field).

(** 224-262 getdelimited; the comment of 251-253 is a nested call. [slist] is the joined text so far. *)
Section Delim.
Variable nested : Z -> res (text * Z).         (* getcomment at a position *)
Variables (endchars : text) (allowcomments : bool).
Fixpoint delim_loop (fuel : nat) (slist : text) (quoted : bool) (pos : Z) : res (text * Z) :=
  match fuel with
  | O => Err OutOfFuel
  | S fuel =>
      if pos <? L then
        do c <- get field pos;;
        if quoted then delim_loop fuel (slist ++ [c]) false (pos + 1)
        else if in_set c endchars then Ok (slist, pos + 1)
        else if allowcomments && (c =? 40) then do (t, pos') <- nested pos;; delim_loop fuel (slist ++ t) false pos'
        else if c =? 92 then delim_loop fuel slist true (pos + 1)
        else delim_loop fuel (slist ++ [c]) false (pos + 1)
      else Ok (slist, pos)
  end.
Definition getdelimited (beginchar : Z) (pos : Z) : res (text * Z) :=
  do c <- get field pos;;
  if negb (c =? beginchar) then Ok ([], pos) else delim_loop loop_fuel [] false (pos + 1).
End Delim.
(** 268-270 getcomment *)
Fixpoint getcomment (cd : nat) (pos : Z) : res (text * Z) :=
  match cd with
  | O => Err RuntimeError
  | S cd' => getdelimited (getcomment cd') [41; 13] true 40 pos
  end.
Definition no_comment (_ : Z) : res (text * Z) := Err RuntimeError.
(** 264-266 getquote, 272-274 getdomainliteral *)
Definition getquote (pos : Z) : res (text * Z) := getdelimited no_comment [34; 13] false 34 pos.
Definition getdomainliteral (pos : Z) : res (text * Z) :=
  do (t, pos') <- getdelimited no_comment [93; 13] false 91 pos;; Ok ([91] ++ t ++ [93], pos').
(** 276-295 getatom *)
Fixpoint atom_loop (fuel : nat) (ends : text) (acc : text) (pos : Z) : res (text * Z) :=
  match fuel with
  | O => Err OutOfFuel
  | S fuel =>
      if pos <? L then
        do c <- get field pos;;
        if in_set c ends then Ok (acc, pos) else atom_loop fuel ends (acc ++ [c]) (pos + 1)
      else Ok (acc, pos)
  end.
Definition getatom (ends : text) (pos : Z) : res (text * Z) := atom_loop loop_fuel ends [] pos.

Variable cd : nat.
(** 53-65 gotonext *)
Fixpoint next_loop (fuel : nat) (ws : text) (cl : list text) (pos : Z) : res (text * list text * Z) :=
  match fuel with
  | O => Err OutOfFuel
  | S fuel =>
      if pos <? L then
        do c <- get field pos;;
        if in_set c FWS then next_loop fuel (if in_set c CRLF then ws else ws ++ [c]) cl (pos + 1)
        else if c =? 40 then do (t, pos') <- getcomment cd pos;; next_loop fuel ws (cl ++ [t]) pos'
        else Ok (ws, cl, pos)
      else Ok (ws, cl, pos)
  end.
Definition gotonext (cl : list text) (pos : Z) : res (text * list text * Z) := next_loop loop_fuel [] cl pos.
(** 297-319 getphraselist *)
Fixpoint phrase_loop (fuel : nat) (plist : list text) (cl : list text) (pos : Z) : res (list text * list text * Z) :=
  match fuel with
  | O => Err OutOfFuel
  | S fuel =>
      if pos <? L then
        do c <- get field pos;;
        if in_set c FWS then phrase_loop fuel plist cl (pos + 1)
        else if c =? 34 then do (t, pos') <- getquote pos;; phrase_loop fuel (plist ++ [t]) cl pos'
        else if c =? 40 then do (t, pos') <- getcomment cd pos;; phrase_loop fuel plist (cl ++ [t]) pos'
        else if in_set c phraseends then Ok (plist, cl, pos)
        else do (t, pos') <- getatom phraseends pos;; phrase_loop fuel (plist ++ [t]) cl pos'
      else Ok (plist, cl, pos)
  end.
Definition getphraselist (cl : list text) (pos : Z) := phrase_loop loop_fuel [] cl pos.
(** 203-222 getdomain *)
Fixpoint domain_loop (fuel : nat) (sd : text) (cl : list text) (pos : Z) : res (text * list text * Z) :=
  match fuel with
  | O => Err OutOfFuel
  | S fuel =>
      if pos <? L then
        do c <- get field pos;;
        if in_set c LWS then domain_loop fuel sd cl (pos + 1)
        else if c =? 40 then do (t, pos') <- getcomment cd pos;; domain_loop fuel sd (cl ++ [t]) pos'
        else if c =? 91 then do (t, pos') <- getdomainliteral pos;; domain_loop fuel (sd ++ t) cl pos'
        else if c =? 46 then domain_loop fuel (sd ++ [46]) cl (pos + 1)
        else if in_set c atomends then Ok (sd, cl, pos)
        else do (t, pos') <- getatom atomends pos;; domain_loop fuel (sd ++ t) cl pos'
      else Ok (sd, cl, pos)
  end.
Definition getdomain (cl : list text) (pos : Z) := domain_loop loop_fuel [] cl pos.
(** aslist.pop() if the last item is blank (181-182, 189-190); the list is kept reversed *)
Definition pop_blank (aslist : list text) : list text :=
  match aslist with t :: r => if is_blank t then r else aslist | [] => [] end.
(** 171-201 getaddrspec *)
Fixpoint spec_loop (fuel : nat) (aslist : list text) (cl : list text) (pos : Z) : res (list text * list text * Z) :=
  match fuel with
  | O => Err OutOfFuel
  | S fuel =>
      if pos <? L then
        do c <- get field pos;;
        if c =? 46 then
          do (_, cl, pos) <- gotonext cl (pos + 1);;
          spec_loop fuel ([46] :: pop_blank aslist) cl pos
        else if c =? 34 then
          do (t, pos') <- getquote pos;; do (ws, cl, pos) <- gotonext cl pos';;
          spec_loop fuel (match ws with [] => [] | _ => [ws] end ++ ([34] ++ quote t ++ [34]) :: aslist) cl pos
        else if in_set c atomends then Ok (pop_blank aslist, cl, pos)
        else
          do (t, pos') <- getatom atomends pos;; do (ws, cl, pos) <- gotonext cl pos';;
          spec_loop fuel (match ws with [] => [] | _ => [ws] end ++ t :: aslist) cl pos
      else Ok (aslist, cl, pos)
  end.
Definition getaddrspec (cl : list text) (pos : Z) : res (text * list text * Z) :=
  do (_, cl, pos) <- gotonext cl pos;;
  do (aslist, cl, pos) <- spec_loop loop_fuel [] cl pos;;
  let joined := concat (rev aslist) in
  if L <=? pos then Ok (joined, cl, pos)
  else do c <- get field pos;;
       if negb (c =? 64) then Ok (joined, cl, pos)
       else do (_, cl, pos) <- gotonext cl (pos + 1);;
            do (d, cl, pos) <- getdomain cl pos;;
            Ok (joined ++ [64] ++ d, cl, pos).
(** 138-169 getrouteaddr; only called where the character is '<' *)
Fixpoint route_loop (fuel : nat) (expectroute : bool) (cl : list text) (pos : Z) : res (text * list text * Z) :=
  match fuel with
  | O => Err OutOfFuel
  | S fuel =>
      if pos <? L then
        if expectroute then
          do (_, cl, pos) <- getdomain cl pos;; do (_, cl, pos) <- gotonext cl pos;; route_loop fuel false cl pos
        else
          do c <- get field pos;;
          if c =? 62 then Ok ([], cl, pos + 1)
          else if c =? 64 then do (_, cl, pos) <- gotonext cl (pos + 1);; route_loop fuel true cl pos
          else if c =? 58 then do (_, cl, pos) <- gotonext cl (pos + 1);; route_loop fuel false cl pos
          else do (a, cl, pos) <- getaddrspec cl pos;; Ok (a, cl, pos + 1)
      else Ok ([], cl, pos)
  end.
Definition getrouteaddr (cl : list text) (pos : Z) : res (text * list text * Z) :=
  do (_, cl, pos) <- gotonext cl (pos + 1);;
  route_loop (2 * loop_fuel) false cl pos.

Definition addr := (text * text)%type.
(** 83-136 getaddress. 92: oldcl is the same list object, so putting it back at 105 undoes nothing. *)
Fixpoint getaddress (gd : nat) (pos : Z) : res (list addr * list text * Z) :=
  match gd with
  | O => Err RuntimeError
  | S gd' =>
      do (_, cl, oldpos) <- gotonext [] pos;;
      do (plist, cl, pos) <- getphraselist cl oldpos;;
      do (_, cl, pos) <- gotonext cl pos;;
      let first := match plist with p :: _ => [(join [32] cl, p)] | [] => [] end in
      do (r, cl, pos) <-
        (if L <=? pos then Ok (first, cl, pos)
         else
           do c <- get field pos;;
           if (c =? 46) || (c =? 64) then
             do (a, cl, pos) <- getaddrspec cl oldpos;; Ok ([(join [32] cl, a)], cl, pos)
           else if c =? 58 then
             (fix group (fuel : nat) (rl : list addr) (cl : list text) (pos : Z) : res (list addr * list text * Z) :=
                match fuel with
                | O => Err OutOfFuel
                | S fuel =>
                    if pos <? L then
                      do (_, cl, pos) <- gotonext cl pos;;
                      do semi <- (if pos <? L then do c <- get field pos;; Ok (c =? 59) else Ok false);;
                      if semi then Ok (rl, cl, pos + 1)
                      else do (l, cl, pos) <- getaddress gd' pos;; group fuel (rl ++ l) cl pos
                    else Ok (rl, cl, pos)
                end) loop_fuel [] cl (pos + 1)
           else if c =? 60 then
             do (a, cl, pos) <- getrouteaddr cl pos;;
             Ok ([(join [32] plist ++ match cl with [] => [] | _ => [32; 40] ++ join [32] cl ++ [41] end, a)], cl, pos)
           else match plist with
                | [] => Ok ([], cl, if in_set c specials then pos + 1 else pos)
                | _ => Ok (first, cl, pos)
                end);;
      do (_, cl, pos) <- gotonext cl pos;;
      do pos <- (if pos <? L then do c <- get field pos;; Ok (if c =? 44 then pos + 1 else pos) else Ok pos);;
      Ok (r, cl, pos)
  end.
(** 69-81 getaddrlist *)
Fixpoint addrlist_loop (fuel gd : nat) (result : list addr) (pos : Z) : res (list addr) :=
  match fuel with
  | O => Err OutOfFuel
  | S fuel =>
      if pos <? L then
        do (ad, _, pos) <- getaddress gd pos;;
        addrlist_loop fuel gd (result ++ match ad with [] => [([], [])] | _ => ad end) pos
      else Ok result
  end.
Definition getaddrlist (gd : nat) : res (list addr) := addrlist_loop loop_fuel gd [] 0.
End U.
(** 318-323 parse_user_id; s.replace('', '') is s *)
Definition parse_user_id (quote : text -> text) (cd gd : nat) (user_id : text) : res (text * text * text) :=
  do (ads, cl, _) <- getaddress quote user_id cd gd 0;;
  do (name, email) <- get ads 0;;
  let comment := join [32] cl in
  Ok (strip (match comment with [] => name | _ => replace comment [] name end), email, comment).
