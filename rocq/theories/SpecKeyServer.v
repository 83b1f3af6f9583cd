(** What a key server URL names, in terms of texts only. *)
From Verif Require Import Base Text.

(** scheme://host/dir/dir... with or without a slash at the end *)
Definition path_of (dirs : list text) : text := concat (map (fun d => str "/" ++ d) dirs).
Definition server_url (word host : text) (dirs : list text) (slash : bool) : text := word ++ str "://" ++ host ++ path_of dirs ++ (if slash then str "/" else []).
(** a host part, perhaps with user and port; and a directory name *)
Definition host_ok (h : text) : Prop := h <> [] /\ Forall (fun c => 32 < c /\ ~ In c (str "/?#")) h.
Definition dir_ok (d : text) : Prop := d <> [] /\ d <> str "." /\ d <> str ".." /\ Forall (fun c => 32 < c /\ ~ In c (str "/?#;")) d.
(** [word] written in capital or small letters is [name] *)
Definition letter_of (c n : Z) : Prop := c = n \/ (97 <= n <= 122 /\ c = n - 32).
Definition spelled (word name : text) : Prop := Forall2 letter_of word name.
(** the same lines of text, perhaps with other line ends: what a server that keeps texts sends back *)
From Verif Require Import SpecArmor.
Definition resent (t t' : text) : Prop := t' = t \/ exists lines e, Forall no_break lines /\ line_end e /\ t = with_ends [10] lines /\ t' = with_ends e lines.
