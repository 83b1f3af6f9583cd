(** C99-C101: the photo viewer, status and log output, reading files as messages (pgp/commands/gpg/io_helper.py and message_.py). *)
From Coq Require Import String.
From Verif Require Import Base BaseProofs Text Utf8 IoHelper SpecIo IoProofs.
Open Scope Z_scope.

(** C99: what the escapes of the photo viewer command mean *)
Definition photo_value (a : photo_args) (c : Z) : option text :=
  if c =? 107 then Some (a_key_id a) else if c =? 75 then Some (a_long_key_id a) else if c =? 102 then Some (a_fingerprint a) else if c =? 116 then Some (a_extension a) else
  if c =? 84 then Some (a_mime_type a) else if c =? 118 then Some (a_validity a) else if c =? 86 then Some (a_full_validity a) else if c =? 85 then Some (a_user_id a) else None.
(** C99. If no value holds a percent sign, and no %% is followed by an escape letter or a further percent sign, the command is the configured one with
    every escape replaced by its value and every %% by %. *)
Theorem c99_command_partial viewer a : plain_percents (str "kKftTvVU") viewer ->
  Forall (fun v => ~ In 37 v) [a_key_id a; a_long_key_id a; a_fingerprint a; a_extension a; a_mime_type a; a_validity a; a_full_validity a; a_user_id a] ->
  photo_command viewer a = expand (photo_value a) viewer.
Proof.
  intros H F. set (tbl := [(107, a_key_id a); (75, a_long_key_id a); (102, a_fingerprint a); (116, a_extension a); (84, a_mime_type a); (118, a_validity a); (86, a_full_validity a); (85, a_user_id a)]).
  transitivity (replace [37; 37] [37] (replace_all tbl viewer)); [reflexivity|]. rewrite (replace_all_expand (str "kKftTvVU") tbl); [reflexivity| |exact H].
  unfold tbl. repeat match goal with |- Forall _ (_ :: _) => apply Forall_cons; [split; [cbn; tauto|split; [cbn; lia|exact (Forall_inv F)]]|apply Forall_inv_tail in F] end. constructor.
Qed.
Print Assumptions c99_command_partial.
Definition ex_photo : photo_args := PArgs (str "89ABCDEF") (str "0123456789ABCDEF") (str "AA") (str "jpg") (str "image/jpeg") (str "f") (str "full") (str "XY").
Example c99_command_used : plain_percents (str "kKftTvVU") (str "show -t %T -n '%k %z 100%% sure' -") /\
  photo_command (str "show -t %T -n '%k %z 100%% sure' -") ex_photo = str "show -t image/jpeg -n '89ABCDEF %z 100% sure' -".
Proof. split; [|vm_compute; reflexivity]. cbn. repeat split. lia. Qed.
(** refuted without the conditions: %%k gives a percent sign and the key id, not %k; an escape in a value is expanded again *)
Theorem c99_percent_refuted : photo_command (str "%%k") ex_photo = str "%89ABCDEF" /\ expand (photo_value ex_photo) (str "%%k") = str "%k" /\
  photo_command (str "%k") (PArgs (str "%f") [] (str "AA") [] [] [] [] []) = str "AA" /\ photo_command (str "%%i") ex_photo = str "%i".
Proof. repeat split; vm_compute; reflexivity. Qed.
Print Assumptions c99_percent_refuted.
(** Refuted: the viewer never gets the photo. What happens is the same for every photo: with %i or %I in the command a TypeError, and the empty temporary
    file stays; otherwise the viewer is started without any input. *)
Theorem c99_never_shown_refuted split viewer path a :
  (forall photo photo', view_photo split viewer path photo a = view_photo split viewer path photo' a) /\
  (forall photo argv stdin p n, view_photo split viewer path photo a = Started argv stdin p n -> stdin = None /\ contains (str "%i") (photo_command viewer a) = false /\ contains (str "%I") (photo_command viewer a) = false) /\
  (forall photo, contains (str "%i") (photo_command viewer a) = true \/ contains (str "%I") (photo_command viewer a) = true -> view_photo split viewer path photo a = Raised TypeError 1).
Proof.
  unfold view_photo. cbv zeta. split; [reflexivity|]. destruct (contains (str "%I") (photo_command viewer a)), (contains (str "%i") (photo_command viewer a)); split; try (intros; discriminate); try (intros; reflexivity).
  - intros photo argv stdin p n. destruct (split (photo_command viewer a)); [|discriminate]. intros [= _ <- _ _]. auto.
  - intros photo [X|X]; discriminate X.
Qed.
Print Assumptions c99_never_shown_refuted.
Example c99_shown : view_photo (fun t => Ok [t]) (str "xloadimage -fork -quiet -title 'KeyID 0x%k' stdin") None [1; 2] ex_photo = Started [str "xloadimage -fork -quiet -title 'KeyID 0x89ABCDEF' stdin"] None None 0 /\
  view_photo (fun t => Ok [t]) (str "eog %i") None [1; 2] ex_photo = Raised TypeError 1.
Proof. split; vm_compute; reflexivity. Qed.
(** what runs otherwise: the words of the command, with PATH set if an exec path is configured *)
Theorem c99_started split viewer path photo a argv : contains (str "%i") (photo_command viewer a) = false -> contains (str "%I") (photo_command viewer a) = false -> split (photo_command viewer a) = Ok argv ->
  view_photo split viewer path photo a = Started argv None (match path with Some (_ :: _) => path | _ => None end) 0.
Proof. intros H1 H2 S. unfold view_photo. cbv zeta. rewrite H1, H2, S. destruct path as [[|]|]; reflexivity. Qed.
Print Assumptions c99_started.

(** C100. Status lines go to the status file if there is one, else to the status descriptor, else to standard output. *)
Theorem c100_status opens takes c b : (forall s, opens s = true) -> (forall s, takes s = true) ->
  write_status opens takes c (Some b) = Wrote (match c_status_file c with Some (x :: t) => File (x :: t) | _ => match c_status_fd c with Some n => if n =? 0 then Stdout else Fd n | None => Stdout end end) b.
Proof.
  intros O K. unfold write_status, write_channel. cbv zeta. destruct (c_status_fd c) as [n|]; [cbn [on]; destruct (n =? 0); cbn [negb]|cbn [on]]; destruct (c_status_file c) as [[|x t]|]; cbn [truthy]; rewrite ?O, ?K; reflexivity.
Qed.
Print Assumptions c100_status.
(** whatever fails, nothing is written anywhere else, and a failure ends the program exactly if that was asked for *)
Theorem c100_faults opens takes c enc :
  match write_status opens takes c enc with
  | Wrote s b => enc = Some b /\ takes s = true /\ (s <> Stdout -> opens s = true) /\
                 match s with Stdout => on (c_status_fd c) = false /\ truthy (c_status_file c) = false | Fd n => c_status_fd c = Some n /\ n <> 0 /\ truthy (c_status_file c) = false | File f => c_status_file c = Some f /\ f <> [] end
  | Lost => c_exit_on_error c = false
  | Exited => c_exit_on_error c = true
  end.
Proof.
  unfold write_status, write_channel. cbv zeta. destruct (c_status_fd c) as [n|]; [cbn [on]; destruct (n =? 0) eqn:N; cbn [negb]|cbn [on]]; destruct (c_status_file c) as [[|x t]|]; cbn [truthy];
  repeat match goal with |- context [if ?b then _ else _] => destruct b eqn:? | |- context [match enc with Some _ => _ | None => _ end] => destruct enc end; try reflexivity; try discriminate; repeat split; auto; try congruence; try lia.
Qed.
Print Assumptions c100_faults.
Example c100_status_used : write_status (fun _ => true) (fun _ => true) (Channels (Some 5) None None None None None false) (Some [65]) = Wrote (Fd 5) [65] /\
  write_status (fun _ => false) (fun _ => true) (Channels (Some 5) None None None None None true) (Some [65]) = Exited.
Proof. split; reflexivity. Qed.
(** Refuted for the log and for attributes: their options are used only if the status options are given, and then they must be given too. *)
Theorem c100_log_refuted opens takes c enc s b : write_log opens takes c enc = Wrote s b ->
  (on (c_status_fd c) = false -> truthy (c_status_file c) = false -> s = Stdout) /\
  (on (c_status_fd c) = true -> exists n, c_logger_fd c = Some n) /\ (truthy (c_status_file c) = true -> c_logger_file c <> None).
Proof.
  unfold write_log, write_channel. cbv zeta. destruct (on (c_status_fd c)), (truthy (c_status_file c)), (c_logger_fd c), (c_logger_file c);
  repeat match goal with |- context [if ?b then _ else _] => destruct b eqn:? | |- context [match enc with Some _ => _ | None => _ end] => destruct enc end; try discriminate; intros [= <- <-]; repeat split; try discriminate; eauto.
Qed.
Print Assumptions c100_log_refuted.
Theorem c100_attribute_refuted opens takes c enc s b : write_attribute opens takes c enc = Wrote s b ->
  (on (c_status_fd c) = false -> truthy (c_status_file c) = false -> s = Stdout) /\
  (on (c_status_fd c) = true -> exists n, c_attribute_fd c = Some n) /\ (truthy (c_status_file c) = true -> c_attribute_file c <> None).
Proof.
  unfold write_attribute, write_channel. cbv zeta. destruct (on (c_status_fd c)), (truthy (c_status_file c)), (c_attribute_fd c), (c_attribute_file c);
  repeat match goal with |- context [if ?b then _ else _] => destruct b eqn:? | |- context [match enc with Some _ => _ | None => _ end] => destruct enc end; try discriminate; intros [= <- <-]; repeat split; try discriminate; eauto.
Qed.
Print Assumptions c100_attribute_refuted.
(** it goes where it was sent if the log options are given exactly where the status options are *)
Theorem c100_log_partial opens takes c b : (forall s, opens s = true) -> (forall s, takes s = true) -> on (c_logger_fd c) = on (c_status_fd c) -> truthy (c_logger_file c) = truthy (c_status_file c) ->
  write_log opens takes c (Some b) = Wrote (match c_logger_file c with Some (x :: t) => File (x :: t) | _ => match c_logger_fd c with Some n => if n =? 0 then Stdout else Fd n | None => Stdout end end) b.
Proof.
  intros O K E1 E2. unfold write_log, write_channel. cbv zeta. rewrite <- E1, <- E2. destruct (c_logger_fd c) as [n|]; [cbn [on]; destruct (n =? 0); cbn [negb]|cbn [on]]; destruct (c_logger_file c) as [[|x t]|]; cbn [truthy]; rewrite ?O, ?K; reflexivity.
Qed.
Print Assumptions c100_log_partial.
Theorem c100_attribute_partial opens takes c b : (forall s, opens s = true) -> (forall s, takes s = true) -> on (c_attribute_fd c) = on (c_status_fd c) -> truthy (c_attribute_file c) = truthy (c_status_file c) ->
  write_attribute opens takes c (Some b) = Wrote (match c_attribute_file c with Some (x :: t) => File (x :: t) | _ => match c_attribute_fd c with Some n => if n =? 0 then Stdout else Fd n | None => Stdout end end) b.
Proof.
  intros O K E1 E2. unfold write_attribute, write_channel. cbv zeta. rewrite <- E1, <- E2. destruct (c_attribute_fd c) as [n|]; [cbn [on]; destruct (n =? 0); cbn [negb]|cbn [on]]; destruct (c_attribute_file c) as [[|x t]|]; cbn [truthy]; rewrite ?O, ?K; reflexivity.
Qed.
Print Assumptions c100_attribute_partial.
Example c100_log_used : write_log (fun _ => true) (fun _ => true) (Channels (Some 5) None (Some 6) None None None false) (Some [65]) = Wrote (Fd 6) [65] /\
  write_log (fun _ => true) (fun _ => true) (Channels None None (Some 6) None None None false) (Some [65]) = Wrote Stdout [65].
Proof. split; reflexivity. Qed.
(** Refuted: without options and with a text stream as standard output (the default, sys.stdout) every line is lost. *)
Theorem c100_text_stdout_refuted opens takes c enc : takes Stdout = false -> on (c_status_fd c) = false -> truthy (c_status_file c) = false ->
  let r := if c_exit_on_error c then Exited else Lost in
  write_status opens takes c enc = r /\ write_log opens takes c enc = r /\ write_attribute opens takes c enc = r.
Proof. intros K H1 H2. unfold write_status, write_log, write_attribute, write_channel. cbv zeta. rewrite H1, H2, K. auto. Qed.
Print Assumptions c100_text_stdout_refuted.

(** C101. A file read as binary data keeps its octets and its time; its name in the packet is the configured one, _CONSOLE for the reader's eyes only. *)
Theorem c101_binary decode files mf eyes esc f d t enc : files f = Some (d, t) ->
  file_to_literal_message decode files mf eyes esc (Some f) true enc = Ok (LitBinary d (if eyes then Some (str "_CONSOLE") else match mf with Some (_ :: _) => mf | _ => Some f end) t).
Proof. intros H. unfold file_to_literal_message. rewrite H. destruct eyes; [reflexivity|]. destruct mf as [[|]|]; reflexivity. Qed.
Print Assumptions c101_binary.
Lemma join_lines t : join [10] (lines_of t) = t.
Proof.
  induction t as [|c t IH]; [reflexivity|]. cbn [lines_of]. destruct (lines_of t) as [|l ls] eqn:X; [destruct t; cbn [lines_of] in X; [discriminate X|]; destruct (_ =? 10); [discriminate X|destruct (lines_of t); discriminate X]|].
  destruct (c =? 10) eqn:C; [apply Z.eqb_eq in C; subst c; cbn [join app] in *; now rewrite IH|]. destruct ls; cbn [join app] in *; now rewrite <- IH.
Qed.
Lemma lines_ne t : lines_of t <> [].
Proof. destruct t as [|c t]; cbn [lines_of]; [discriminate|]. destruct (c =? 10); [discriminate|]. destruct (lines_of t); discriminate. Qed.
Lemma first_line p t : ~ In 10 p -> forall r, strip_prefix p t = Some r -> exists l ls, lines_of t = (p ++ l) :: ls /\ lines_of r = l :: ls.
Proof.
  revert t. induction p as [|a p IH]; intros t N r H; cbn [strip_prefix] in H; [injection H as <-; destruct (lines_of t) as [|l ls] eqn:X; [now apply lines_ne in X|]; exists l, ls; auto|].
  destruct t as [|c t]; [discriminate H|]. destruct (a =? c) eqn:A; [|discriminate H]. apply Z.eqb_eq in A. subst c. destruct (IH t (fun I => N (or_intror I)) r H) as (l & ls & E1 & E2). exists l, ls. split; [|exact E2]. cbn [lines_of]. replace (a =? 10) with false by (symmetry; apply Z.eqb_neq; intros ->; apply N; now left). rewrite E1. reflexivity.
Qed.
Lemma first_line_none p t : ~ In 10 p -> strip_prefix p t = None -> forall l ls, lines_of t = l :: ls -> strip_prefix p l = None.
Proof.
  revert t. induction p as [|a p IH]; intros t N H l ls E; cbn [strip_prefix] in *; [discriminate|]. destruct l as [|c l]; [reflexivity|]. destruct t as [|c' t]; [discriminate E|]. cbn [lines_of] in E. destruct (c' =? 10) eqn:C; [discriminate E|]. destruct (lines_of t) as [|l0 ls0] eqn:X; [now apply lines_ne in X|]. injection E as -> -> ->.
  destruct (a =? c); [|reflexivity]. exact (IH t (fun I => N (or_intror I)) H l ls X).
Qed.
Lemma escape_first t : exists l ls, lines_of t = l :: ls /\ escape_from t = join [10] (escaped_line l :: ls).
Proof.
  assert (N : ~ In 10 (str "From ")) by (cbn; lia). unfold escape_from, escaped_line, starts_with. destruct (strip_prefix (str "From ") t) as [r|] eqn:S.
  - destruct (first_line _ t N r S) as (l & ls & E1 & E2). exists (str "From " ++ l), ls. split; [exact E1|]. assert (Q : strip_prefix (str "From ") (str "From " ++ l) = Some l) by reflexivity. rewrite Q. rewrite <- (join_lines r), E2. destruct ls; reflexivity.
  - destruct (lines_of t) as [|l ls] eqn:X; [now apply lines_ne in X|]. exists l, ls. split; [reflexivity|]. rewrite (first_line_none _ t N S l ls X). rewrite <- (join_lines t), X. reflexivity.
Qed.
Lemma join_cons_len l ls : List.length (join [10] (l :: ls)) = (List.length l + fold_right (fun x n => S (List.length x) + n) 0 ls)%nat.
Proof. revert l. induction ls as [|x ls IH]; intros l; [cbn [join fold_right]; lia|]. change (join [10] (l :: x :: ls)) with (l ++ [10] ++ join [10] (x :: ls)). rewrite !app_length, IH. cbn [List.length fold_right]. lia. Qed.
Lemma escaped_len l : (List.length (escaped_line l) = List.length l + if starts_with (str "From ") l then 2 else 0)%nat.
Proof. unfold escaped_line. destruct (starts_with (str "From ") l); [rewrite app_length; cbn [List.length str]|]; cbn; lia. Qed.
(** the whole claim holds exactly if only the first line may start with From *)
Theorem c101_from_partial t : escape_from t = from_escaped t <-> Forall (fun l => starts_with (str "From ") l = false) (tl (lines_of t)).
Proof.
  destruct (escape_first t) as (l & ls & E1 & E2). rewrite E2. unfold from_escaped. rewrite E1. cbn [tl map]. split.
  - intros H. apply (f_equal (@List.length Z)) in H. rewrite !join_cons_len in H. clear E1 E2. assert (K : fold_right (fun x n => S (List.length x) + n)%nat 0%nat ls = fold_right (fun x n => S (List.length x) + n)%nat 0%nat (map escaped_line ls)) by lia. clear H.
    assert (LE : forall q, (fold_right (fun x n => S (List.length x) + n) 0 q <= fold_right (fun x n => S (List.length x) + n) 0 (map escaped_line q))%nat) by (induction q as [|y q IHq]; cbn [map fold_right]; [lia|pose proof (escaped_len y); destruct (starts_with (str "From ") y); lia]).
    induction ls as [|x ls IH]; constructor; cbn [map fold_right] in K; pose proof (escaped_len x) as X; pose proof (LE ls) as Y; destruct (starts_with (str "From ") x); try reflexivity; try lia; apply IH; lia.
  - intros F. f_equal. f_equal. clear E1 E2. induction F as [|x ls H _ IH]; [reflexivity|]. cbn [map]. unfold escaped_line at 1. rewrite H. now rewrite <- IH.
Qed.
Print Assumptions c101_from_partial.
Example c101_from_used : escape_from (str "From here on" ++ [10] ++ str "it goes") = str "- From here on" ++ [10] ++ str "it goes" /\
  Forall (fun l => starts_with (str "From ") l = false) (tl (lines_of (str "From here on" ++ [10] ++ str "it goes"))).
Proof. split; [vm_compute; reflexivity|]. vm_compute. repeat constructor. Qed.
(** refuted: From at the start of a later line is left as it is *)
Theorem c101_from_refuted : exists t, escape_from t <> from_escaped t /\ escape_from t = t.
Proof. exists (str "a" ++ [10] ++ str "From b"). split; [vm_compute; discriminate|vm_compute; reflexivity]. Qed.
Print Assumptions c101_from_refuted.
(** A text file gives its decoded text in the encoding asked for. *)
Theorem c101_text decode files mf eyes esc f d t e c s : files f = Some (d, t) -> decode (c :: e) d = Ok s ->
  file_to_literal_message decode files mf eyes esc (Some f) false (Some (c :: e)) = Ok (LitText (if esc then escape_from s else s) (if eyes then Some (str "_CONSOLE") else match mf with Some (_ :: _) => mf | _ => Some f end) t).
Proof. intros H D. unfold file_to_literal_message. rewrite H. cbn [truthy]. rewrite D. destruct eyes; [reflexivity|]. destruct mf as [[|]|]; reflexivity. Qed.
Print Assumptions c101_text.
(** refuted: without an encoding the one that chardet finds is not used; anything that is not UTF-8 is an error. And standard input is never read. *)
Theorem c101_encoding_refuted decode files mf eyes esc f d t e : files f = Some (d, t) -> decode (str "utf8") d = Err e ->
  file_to_literal_message decode files mf eyes esc (Some f) false None = Err e.
Proof. intros H D. unfold file_to_literal_message. rewrite H. cbn [truthy]. rewrite D. reflexivity. Qed.
Print Assumptions c101_encoding_refuted.
Theorem c101_stdin_refuted decode files mf eyes esc binary enc : file_to_literal_message decode files mf eyes esc None binary enc = Err AttributeError.
Proof. reflexivity. Qed.
Print Assumptions c101_stdin_refuted.
Example c101_used : file_to_literal_message (fun e d => if zlist_eqb e (str "latin1") then Ok d else Err UnicodeError) (fun f => if zlist_eqb f (str "x") then Some ([70; 228], 7) else None) None false true (Some (str "x")) false (Some (str "latin1")) = Ok (LitText [70; 228] (Some (str "x")) 7) /\
  file_to_literal_message (fun e d => if zlist_eqb e (str "latin1") then Ok d else Err UnicodeError) (fun f => if zlist_eqb f (str "x") then Some ([70; 228], 7) else None) None false true (Some (str "x")) false None = Err UnicodeError.
Proof. split; vm_compute; reflexivity. Qed.
