(** Property theorems C16-C20: CRC-24 and ASCII armor. *)
From Verif Require Import Base BaseProofs Spec Text Crc24 SpecCrc Crc24Proofs Armor SpecArmor TextProofs ArmorProofs ArmorProps.

(** C16 *)
Theorem c16_crc24_is_rfc : forall data, wf data -> crc24 data = rfc_crc24 data /\ 0 <= crc24 data < 2 ^ 24.
Proof. exact crc24_is_rfc. Qed.
Print Assumptions c16_crc24_is_rfc.
(* check value of the CRC-24/OPENPGP catalogue entry: "123456789" -> 0x21CF02 *)
Example c16_example : crc24 [49; 50; 51; 52; 53; 54; 55; 56; 57] = 2215682 /\ rfc_crc24 [49; 50; 51; 52; 53; 54; 55; 56; 57] = 2215682.
Proof. vm_compute. auto. Qed.

(** C17 *)
Theorem c17_crc24_detects_window : forall p x y s, wf p -> wf x -> wf y -> wf s ->
  zlen x = zlen y -> zlen x <= 3 -> x <> y -> crc24 (p ++ x ++ s) <> crc24 (p ++ y ++ s).
Proof. exact crc_window. Qed.
Print Assumptions c17_crc24_detects_window.
Example c17_example : crc24 ([1; 2] ++ [3; 4; 5] ++ [6]) <> crc24 ([1; 2] ++ [3; 4; 6] ++ [6]).
Proof. vm_compute. discriminate. Qed.

(** C18. base64: any text whose base64 characters are those of the encoding decodes to the data. *)
Theorem c18_base64 : forall data s, wf data -> Forall (fun c => c < 128) s ->
  filter b64keep s = b64encode data -> b64decode s = Ok data.
Proof. exact b64_round. Qed.
Print Assumptions c18_base64.
Theorem c18_armor_round_trip : forall a, armor_ok a -> extra_headers a = None ->
  exists t, armor_str a = Ok t /\ from_ascii t = Ok a.
Proof. exact c18_round. Qed.
Print Assumptions c18_armor_round_trip.
(** the shape of what is written: header line, headers, blank line, lines of at most 72 characters
    holding the base64 of the data, checksum line, tail line *)
Theorem c18_armor_layout : forall a, armor_ok a -> extra_headers a = None ->
  exists hdr tail dlines crcb,
    let lines := hdr :: hlines_of a ++ [] :: dlines ++ [61 :: b64encode crcb; tail] in
    armor_str a = Ok (join NL lines ++ NL) /\ Forall no_break lines /\
    header_denotes hdr (data_type a) (part a) (total_parts a) /\ tail_of hdr tail /\
    Forall data_line dlines /\ concat dlines = b64encode (adata a) /\ Forall (fun l => zlen l <= 72) dlines /\
    (exists c0 c1 c2, crcb = [c0; c1; c2] /\ rfc_crc24 (adata a) = c0 * 65536 + c1 * 256 + c2) /\ wf crcb.
Proof. exact armor_str_lines. Qed.
Print Assumptions c18_armor_layout.
(** The line ends of the text do not matter: the armored text of an object with CR LF or CR line ends is read back as the same object,
    and more generally any lines are read the same way under each of the three conventions. *)
Lemma split_line acc l e rest : no_break l -> line_end e -> (e = [13] -> forall r, rest <> 10 :: r) ->
  splitlines_acc acc (l ++ e ++ rest) = (rev acc ++ l) :: splitlines_acc [] rest.
Proof.
  intros Hl He Hr. revert acc. induction Hl as [|c l Hc Hl IH]; intros acc.
  - cbn [app]. rewrite app_nil_r. destruct He as [ -> |[ -> | -> ] ].
    + cbn [app splitlines_acc]. change (is_linebreak 10) with true. cbv iota. destruct rest as [|d t]; reflexivity.
    + reflexivity.
    + cbn [app splitlines_acc]. change (is_linebreak 13) with true. cbv iota. destruct rest as [|d t]; [reflexivity|]. replace (d =? 10) with false; [reflexivity|].
      symmetry. apply Z.eqb_neq. intros ->. exact (Hr eq_refl t eq_refl).
  - cbn [app splitlines_acc]. cbn beta in Hc. rewrite Hc, IH. cbn [rev]. now rewrite <- app_assoc.
Qed.
Lemma split_with_ends e lines : line_end e -> Forall no_break lines -> splitlines (with_ends e lines) = lines.
Proof.
  intros He F. unfold splitlines, with_ends. induction F as [|l ls Hl F IH]; [reflexivity|]. cbn [map concat]. rewrite <- app_assoc. rewrite split_line; [now rewrite IH|exact Hl|exact He|].
  intros -> r E. destruct ls as [|l2 ls]; [discriminate E|]. cbn [map concat] in E. pose proof (Forall_inv F) as H2. destruct l2 as [|c l2]; [discriminate E|]. pose proof (Forall_inv H2) as H3. injection E as -> _. discriminate H3.
Qed.
Theorem c18_line_ends : forall (lines : list text) e, Forall no_break lines -> line_end e -> from_ascii (with_ends e lines) = from_ascii (with_ends [10] lines).
Proof.
  intros lines e F He. unfold from_ascii. rewrite (split_with_ends e lines He F), (split_with_ends [10] lines (or_introl eq_refl) F). reflexivity.
Qed.
Print Assumptions c18_line_ends.
Theorem c18_round_trip_line_ends : forall a e, armor_ok a -> extra_headers a = None -> line_end e ->
  exists lines, armor_str a = Ok (with_ends [10] lines) /\ from_ascii (with_ends e lines) = Ok a.
Proof.
  intros a e Ha Hx He. destruct (c18_armor_layout a Ha Hx) as (hdr & tail & dl & cb & H). cbv zeta in H. destruct H as (H1 & H2 & _).
  set (lines := hdr :: hlines_of a ++ [] :: dl ++ [61 :: b64encode cb; tail]) in *. assert (N : lines <> []) by discriminate. clearbody lines.
  assert (J : join NL lines ++ NL = with_ends [10] lines).
  { clear - N. unfold with_ends. induction lines as [|l ls IH]; [easy|]. destruct ls as [|l2 ls]; [cbn [join map concat]; now rewrite app_nil_r|].
    rewrite join_cons by easy. rewrite <- !app_assoc. cbn [map concat]. rewrite IH by easy. cbn [map concat]. rewrite <- !app_assoc. reflexivity. }
  exists lines. rewrite <- J. split; [exact H1|]. rewrite (c18_line_ends lines e H2 He), <- J. destruct (c18_armor_round_trip a Ha Hx) as (t & T1 & T2). rewrite H1 in T1. assert (t = join NL lines ++ NL) by congruence. now subst t.
Qed.
Print Assumptions c18_round_trip_line_ends.
(** a number of parts without a part number is dropped *)
Theorem c18_total_without_part_refuted : exists a t a',
  data_type a = 1 /\ total_parts a = Some 3 /\ armor_str a = Ok t /\ from_ascii t = Ok a' /\ total_parts a' = None.
Proof.
  exists (Armor 1 [1; 2] None (Some 3) None None None None None None).
  eexists _, _. repeat split; vm_compute; reflexivity.
Qed.
Print Assumptions c18_total_without_part_refuted.
(** a header value containing a line break is not preserved: here the text cannot even be read back *)
Theorem c18_line_break_refuted : exists a t,
  comment a = Some (str "a" ++ NL ++ str "b") /\ armor_str a = Ok t /\ from_ascii t = Err ValueError.
Proof.
  exists (Armor 1 [1; 2] None None None (Some (str "a" ++ NL ++ str "b")) None None None None).
  eexists. repeat split; vm_compute; reflexivity.
Qed.
Print Assumptions c18_line_break_refuted.
(** The characters that a header value must not have are exactly these: line feed, carriage return, vertical tab, form feed, the separators 28 to 30,
    NEL and the line and paragraph separators of Unicode. *)
Definition line_breaks : list Z := [10; 13; 11; 12; 28; 29; 30; 133; 8232; 8233].
Lemma breaks_spec c : is_linebreak c = true <-> In c line_breaks.
Proof. unfold is_linebreak. rewrite existsb_exists. split; [intros (x & I & Q); apply Z.eqb_eq in Q; subst x; exact I|intros I; exists c; split; [exact I|apply Z.eqb_refl]]. Qed.
Theorem c18_line_breaks : forall l, no_break l <-> forall c, In c l -> ~ In c line_breaks.
Proof.
  intros l. unfold no_break. rewrite Forall_forall. split; intros F c I.
  - intros J. apply breaks_spec in J. rewrite (F c I) in J. discriminate J.
  - destruct (is_linebreak c) eqn:Q; [|reflexivity]. apply breaks_spec in Q. destruct (F c I Q).
Qed.
Print Assumptions c18_line_breaks.
Theorem c18_comment_characters : forall c, let a := Armor 1 [1; 2] None None None (Some [97; c; 98]) None None None None in
  exists t, armor_str a = Ok t /\ (In c line_breaks -> from_ascii t = Err ValueError) /\ (~ In c line_breaks -> from_ascii t = Ok a).
Proof.
  intros c a. destruct (in_dec Z.eq_dec c line_breaks) as [I|N].
  - assert (X : exists t, armor_str a = Ok t /\ from_ascii t = Err ValueError).
    { subst a. unfold line_breaks in I. repeat (destruct I as [<-|I]; [eexists; split; [vm_compute; reflexivity|vm_compute; reflexivity]|]). destruct I. }
    destruct X as (t & W & R). exists t. split; [exact W|]. split; [intros _; exact R|intros J; contradiction].
  - destruct (c18_armor_round_trip a) as (t & W & R).
    + split; cbn; try exact Logic.I; [lia|repeat (apply Forall_cons; [unfold byte; lia|]); apply Forall_nil|].
      apply c18_line_breaks. intros x [<-|[<-|[<-|[]]]]; [|exact N|]; intros J; unfold line_breaks in J; repeat (destruct J as [J|J]; [discriminate J|]); destruct J.
    + reflexivity.
    + exists t. split; [exact W|]. split; [intros J; contradiction|intros _; exact R].
Qed.
Print Assumptions c18_comment_characters.
Definition c18_a := Armor 1 [1; 2; 255; 7] (Some 12) (Some 30) (Some (str "x: y")) None None (Some (str "SHA1")) None None.
Example c18_example : armor_ok c18_a /\ match armor_str c18_a with Ok t => from_ascii t = Ok c18_a | Err _ => False end.
Proof. split; [|vm_compute; reflexivity]. split; cbn; try lia; repeat constructor; unfold byte; lia. Qed.

Example c18_line_ends_used : exists a, from_ascii (with_ends [13; 10] [str "-----BEGIN PGP SIGNATURE-----"; []; str "=twTO"; str "-----END PGP SIGNATURE-----"]) = Ok a /\ adata a = [] /\
  Forall no_break [str "-----BEGIN PGP SIGNATURE-----"; []; str "=twTO"; str "-----END PGP SIGNATURE-----"].
Proof. eexists. split; [vm_compute; reflexivity|]. split; [reflexivity|]. repeat constructor. Qed.

(** C19. from_ascii accepts a text exactly when it has this shape. *)
Theorem c19_accepts_exactly : forall txt a, from_ascii txt = Ok a <->
  exists blanks hdr heads kvs blank dlines s c0 c1 c2 more tail rest,
    splitlines txt = blanks ++ hdr :: heads ++ blank :: dlines ++ (61 :: s) :: tail :: rest /\
    Forall (fun l => is_blank l = true) blanks /\
    header_denotes hdr (data_type a) (part a) (total_parts a) /\
    Forall2 kv_ok heads kvs /\ is_blank blank = true /\ Forall data_line dlines /\
    b64decode (concat dlines) = Ok (adata a) /\
    b64decode s = Ok (c0 :: c1 :: c2 :: more) /\
    rfc_crc24 (adata a) = c0 * 65536 + c1 * 256 + c2 /\
    tail_of hdr tail /\ std_headers a kvs /\ extra_headers a = None.
Proof. exact c19_iff. Qed.
Print Assumptions c19_accepts_exactly.
Theorem c19_corrupted_data_rejected : forall txt blanks hdr heads kvs blank dlines s rest ty p t pre x y suf c0 c1 c2 more,
  splitlines txt = blanks ++ hdr :: heads ++ blank :: dlines ++ (61 :: s) :: rest ->
  Forall (fun l => is_blank l = true) blanks -> header_denotes hdr ty p t -> Forall2 kv_ok heads kvs -> is_blank blank = true ->
  Forall data_line dlines -> b64decode (concat dlines) = Ok (pre ++ y ++ suf) -> b64decode s = Ok (c0 :: c1 :: c2 :: more) ->
  rfc_crc24 (pre ++ x ++ suf) = c0 * 65536 + c1 * 256 + c2 ->      (* the checksum line is that of pre ++ x ++ suf *)
  wf x -> zlen x = zlen y -> zlen x <= 3 -> x <> y ->
  from_ascii txt = Err ValueError.
Proof. exact c19_corrupt. Qed.
Print Assumptions c19_corrupted_data_rejected.
Theorem c19_wrong_checksum_rejected : forall txt blanks hdr heads kvs blank dlines s rest ty p t data c0 c1 c2 more,
  splitlines txt = blanks ++ hdr :: heads ++ blank :: dlines ++ (61 :: s) :: rest ->
  Forall (fun l => is_blank l = true) blanks -> header_denotes hdr ty p t -> Forall2 kv_ok heads kvs -> is_blank blank = true ->
  Forall data_line dlines -> b64decode (concat dlines) = Ok data -> b64decode s = Ok (c0 :: c1 :: c2 :: more) ->
  rfc_crc24 data <> c0 * 65536 + c1 * 256 + c2 ->
  from_ascii txt = Err ValueError.
Proof. exact c19_bad_crc. Qed.
Print Assumptions c19_wrong_checksum_rejected.
Theorem c19_wrong_tail_rejected : forall txt blanks hdr heads kvs blank dlines s rest ty p t data c0 c1 c2 more tail,
  splitlines txt = blanks ++ hdr :: heads ++ blank :: dlines ++ (61 :: s) :: tail :: rest ->
  Forall (fun l => is_blank l = true) blanks -> header_denotes hdr ty p t -> Forall2 kv_ok heads kvs -> is_blank blank = true ->
  Forall data_line dlines -> b64decode (concat dlines) = Ok data -> b64decode s = Ok (c0 :: c1 :: c2 :: more) ->
  ~ tail_of hdr tail ->
  from_ascii txt = Err ValueError.
Proof. exact c19_tail. Qed.
Print Assumptions c19_wrong_tail_rejected.
Definition c19_text (body : text) (tail : text) : text :=
  join NL [str "-----BEGIN PGP SIGNATURE-----"; str "Version: 1"; []; body; str "=JMqv"; tail] ++ NL.
Example c19_example :
  from_ascii (c19_text (str "AQL/Bw==") (str "-----END PGP SIGNATURE-----")) = Err ValueError /\
  (exists a, from_ascii (join NL [str "-----BEGIN PGP SIGNATURE-----"; []; str "=twTO"; str "-----END PGP SIGNATURE-----"] ++ NL) = Ok a /\ adata a = []) /\
  from_ascii (join NL [str "-----BEGIN PGP SIGNATURE-----"; []; str "=twTO"; str "-----END PGP MESSAGE-----"] ++ NL) = Err ValueError.
Proof. split; [vm_compute; reflexivity|]. split; [eexists; split; vm_compute; reflexivity|vm_compute; reflexivity]. Qed.

(** C20. Unknown headers are accepted but lost: no parsed armor ever carries one ... *)
Theorem c20_extra_headers_refuted : exists txt a kv,
  from_ascii txt = Ok a /\ In (fst kv ++ str ": " ++ snd kv) (splitlines txt) /\ fst kv = str "X-Key" /\ extra_headers a = None.
Proof.
  exists (join NL [str "-----BEGIN PGP SIGNATURE-----"; str "X-Key: v"; []; str "=twTO"; str "-----END PGP SIGNATURE-----"] ++ NL).
  eexists _, (str "X-Key", str "v"). split; [vm_compute; reflexivity|]. split; [right; left; reflexivity|]. split; reflexivity.
Qed.
Print Assumptions c20_extra_headers_refuted.
Theorem c20_extra_headers_never_kept : forall txt a, from_ascii txt = Ok a -> extra_headers a = None.
Proof. exact c20_never. Qed.
Print Assumptions c20_extra_headers_never_kept.
(** ... and an armor object holding one cannot be written unless every key has exactly two characters,
    in which case the written header is not the one given. *)
Theorem c20_extra_headers_write_refuted : forall a d k v, extra_headers a = Some d -> In (k, v) d -> zlen k <> 2 ->
  1 <= data_type a <= 4 -> armor_str a = Err ValueError.
Proof. exact c20_write. Qed.
Print Assumptions c20_extra_headers_write_refuted.
Example c20_example : armor_str (Armor 1 [] None None None None None None None (Some [(str "X-Key", str "v")])) = Err ValueError.
Proof. vm_compute. reflexivity. Qed.
