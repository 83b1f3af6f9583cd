(** Theorems added after edits of the model that no theorem noticed (seeded/LOG.jsonl, survey 1): each fixes what such an edit changed. *)
From Coq Require Import String.
From Verif Require Import Base BaseProofs Spec Utils UtilsProofs Text HexProofs Armor Merge Shortcuts SpecShort TransKey Validate CommandLine.
From Verif Require Compression SignMessage Message DataPackets DumpSig P_DumpSig.
Open Scope Z_scope.

(** C102. Options can be added to the parser exactly as long as no option string is used twice. *)
Theorem c102_options_partial l : forall known, (add_arguments known l = Ok (known ++ concat l) <-> forall a os b, l = a ++ os :: b -> forall o, In o os -> ~ In o (known ++ concat a)) /\
  (forall e, add_arguments known l = Err e -> e = PgpError 92).
Proof.
  induction l as [|os l IH]; intros known; cbn [add_arguments concat].
  - split; [|discriminate]. rewrite app_nil_r. split; [|reflexivity]. intros _ [|x a] os b E; discriminate E.
  - destruct (existsb (fun o => existsb (zlist_eqb o) known) os) eqn:X.
    + split; [|intros e E; congruence]. split; [discriminate|]. intros H. exfalso. apply existsb_exists in X as (o & Io & X). apply existsb_exists in X as (k & Ik & X). apply zlist_eqb_spec in X. subst k.
      apply (H [] os l eq_refl o Io). cbn [concat]. now rewrite app_nil_r.
    + destruct (IH (known ++ os)) as [A B]. split; [|exact B]. rewrite <- app_assoc in A. rewrite A. split.
      * intros H [|x a] y b E.
        -- injection E as <- <-. intros o Io J. cbn [concat] in J. rewrite app_nil_r in J. apply not_true_iff_false in X. apply X. apply existsb_exists. exists o. split; [exact Io|]. apply existsb_exists. exists o. split; [exact J|apply zlist_eqb_refl].
        -- injection E as <- ->. cbn [concat]. rewrite app_assoc. exact (H a y b eq_refl).
      * intros H a y b ->. rewrite <- app_assoc. exact (H (os :: a) y b eq_refl).
Qed.
Print Assumptions c102_options_partial.
Example c102_options_ex : add_arguments [] [[str "--a"; str "-a"]; [str "--b"]] = Ok [str "--a"; str "-a"; str "--b"] /\ add_arguments [] [[str "--a"; str "-a"]; [str "--b"; str "-a"]] = Err (PgpError 92).
Proof. split; vm_compute; reflexivity. Qed.
(** ... a single command is looked up as a module of the package above the one it is in: what is found are names with "gpg." before them. *)
Theorem c102_module_partial shown t n : import_command shown (Name t) = Ok n <-> n = str "pgp.commands." ++ t /\ exists m, t = str "gpg." ++ m /\ In n MODULES.
Proof.
  unfold import_command. assert (Pk : forall x, package ++ 46 :: x = str "pgp.commands." ++ x) by reflexivity. rewrite Pk.
  destruct (existsb (zlist_eqb (str "pgp.commands." ++ t)) MODULES) eqn:X.
  - assert (I : In (str "pgp.commands." ++ t) MODULES). { apply existsb_exists in X as (y & I & X). apply zlist_eqb_spec in X. now subst y. }
    destruct (zlist_eqb (str "pgp.commands." ++ t) (str "pgp.commands.gpg")) eqn:Y.
    + split; [discriminate|]. intros (-> & m & -> & _). apply zlist_eqb_spec in Y. cbn in Y. discriminate Y.
    + split; [|intros (-> & _); reflexivity]. intros E. assert (n = str "pgp.commands." ++ t) by congruence. subst n. split; [reflexivity|]. clear E.
      assert (Sh : forall y, In y MODULES -> y = str "pgp.commands.gpg" \/ exists m, y = str "pgp.commands." ++ str "gpg." ++ m).
      { intros y Hy. unfold MODULES in Hy. cbn [map In] in Hy. destruct Hy as [<-|Hy]; [left; reflexivity|right]. repeat (destruct Hy as [<-|Hy]; [eexists; reflexivity|]). destruct Hy. }
      destruct (Sh _ I) as [Q|(m & Q)]; [rewrite Q in Y; rewrite zlist_eqb_refl in Y; discriminate Y|]. apply app_inv_head in Q. exists m. split; [exact Q|exact I].
  - split; [discriminate|]. intros (-> & _ & _ & I). exfalso. apply not_true_iff_false in X. apply X. apply existsb_exists. exists (str "pgp.commands." ++ t). split; [exact I|apply zlist_eqb_refl].
Qed.
Print Assumptions c102_module_partial.
Theorem c102_module_missing_refuted shown t : ~ In 46 t -> import_command shown (Name t) = Err (if zlist_eqb t (str "gpg") then AttributeError else PgpError 94).
Proof.
  intros D. destruct (import_command shown (Name t)) as [n|e] eqn:E.
  - exfalso. apply (c102_module_partial shown t n) in E as (_ & m & -> & _). apply D. cbn. auto.
  - unfold import_command in E. assert (Pk : forall x, package ++ 46 :: x = str "pgp.commands." ++ x) by reflexivity. rewrite Pk in E. destruct (zlist_eqb t (str "gpg")) eqn:G.
    + apply zlist_eqb_spec in G. subst t. vm_compute in E. congruence.
    + destruct (existsb _ MODULES); [|congruence]. destruct (zlist_eqb (str "pgp.commands." ++ t) (str "pgp.commands.gpg")) eqn:Y; [|discriminate E]. exfalso. apply zlist_eqb_spec in Y. change (str "pgp.commands.gpg") with (str "pgp.commands." ++ str "gpg") in Y. apply app_inv_head in Y. subst t. rewrite zlist_eqb_refl in G. discriminate G.
Qed.
Print Assumptions c102_module_missing_refuted.
(** Commands that have names and commands that have numbers cannot be combined: they cannot even be compared. *)
Theorem c102_mixed_refuted shown l t n : In (Name t) l -> In (Num n) l -> choose shown l = Failed TypeError.
Proof.
  intros A B. destruct l as [|a [|b l]]; [destruct A|exfalso; destruct A as [->|[]], B as [B|[]]; discriminate B|].
  unfold choose. set (L := a :: b :: l) in *. clearbody L. clear a b l. unfold sorted_set.
  assert (N : names (cmd_set L) = None).
  { assert (I : In (Num n) (cmd_set L)).
    { clear A. induction L as [|c L IH]; [destruct B|]. cbn [cmd_set]. destruct (existsb (cmd_eqb c) L) eqn:X; [|destruct B as [->|B]; [now left|right; auto]].
      apply IH. destruct B as [->|B]; [|exact B]. apply existsb_exists in X as (y & I & X). destruct y as [y|y]; [discriminate X|]. cbn in X. replace n with y by lia. exact I. }
    induction (cmd_set L) as [|c s IH]; [destruct I|]. unfold names in *. cbn [fold_right]. destruct I as [->|I]; [reflexivity|]. rewrite (IH I). now destruct c. }
  rewrite N. replace (existsb (fun c => match c with Name _ => true | Num _ => false end) L) with true; [reflexivity|]. symmetry. apply existsb_exists. exists (Name t). auto.
Qed.
Print Assumptions c102_mixed_refuted.
(** With --multifile no combination of commands runs: two of them end with the usage message, the others with an AttributeError. *)
Theorem c102_multifile_combination_refuted {V : Type} shown (num : Z -> V) a hs module_new module_run k : q_multifile a = true -> choose shown (commands_of (q_command a)) = Chosen (Combined k) ->
  let '(ran, e) := main shown num (Ok a) (fun _ => Ok hs) module_new module_run in
  ran = None /\ (e = Raised TypeError \/ e = if match k with EncryptSymmetricAndSign | EncryptAndSign => true | _ => false end then Usage else Raised AttributeError).
Proof.
  intros M C. unfold main. destruct hs as [[[[[h1 h2] h3] h4] h5] h6]. rewrite C, M. set (ps := put _ _ _). destruct (combination_new k (q_args a) ps) as [u|e] eqn:E; cbn [bind].
  - destruct k; cbn [combination_multifile]; auto.
  - split; [reflexivity|]. left. unfold combination_new in E. destruct (make_it_so _ _ _) as [x|e'] eqn:Ex; cbn [bind] in E.
    + destruct k; try discriminate E; destruct (binds _ _ _); congruence.
    + unfold make_it_so in Ex. destruct (binds _ _ _); [discriminate Ex|]. congruence.
Qed.
Print Assumptions c102_multifile_combination_refuted.

(** C72. Octets marked as armor that is not armor: only white space is an IndexError, anything else a TypeError (c72_armored_octets_refuted). *)
Theorem c72_blank_octets_refuted b : (forall c, In c b -> c = 32 \/ 9 <= c <= 13) -> read_message (InBytes b) true = Err IndexError.
Proof.
  intros W. unfold read_message, read_packets. assert (A : input_armor (InBytes b) = false).
  { cbn [input_armor]. unfold is_armor. destruct (forallb _ _); [|reflexivity]. apply zlist_eqb_neq. intros S. destruct b as [|c b]; [discriminate S|]. pose proof (W c (or_introl eq_refl)) as Hc.
    apply (f_equal (fun l => hd 0 l)) in S. assert (Hd : hd 0 (slice (c :: b) 0 (zlen DASHES)) = c). { rewrite slice_firstn_skipn by (change (zlen DASHES) with 5; lia). reflexivity. } rewrite Hd in S. cbn in S. lia. }
  rewrite A. cbn [bind]. replace (forallb octet_space b) with true; [reflexivity|]. symmetry. apply forallb_forall. intros c I. unfold octet_space. specialize (W c I). lia.
Qed.
Print Assumptions c72_blank_octets_refuted.

(** C70. The public copy of a key is a public key, and no key in it has a secret part. *)
Theorem c70_public_copy_type now_p o : tk_secret (to_public_key now_p o) = false /\ ko_sec (tk_key (to_public_key now_p o)) = None /\ Forall (fun s => ko_sec (fst s) = None) (tk_subs (to_public_key now_p o)) /\
  tk_sigs (to_public_key now_p o) = tk_sigs o /\ tk_uids (to_public_key now_p o) = tk_uids o /\ tk_attrs (to_public_key now_p o) = tk_attrs o /\
  map snd (tk_subs (to_public_key now_p o)) = map snd (tk_subs o).
Proof.
  unfold to_public_key. cbn [tk_secret tk_key tk_subs tk_sigs tk_uids tk_attrs]. split; [reflexivity|]. split; [reflexivity|]. split; [apply Forall_forall; intros s I; apply in_map_iff in I as (x & <- & I); reflexivity|].
  split; [reflexivity|]. split; [reflexivity|]. split; [reflexivity|]. rewrite map_map. reflexivity.
Qed.
Print Assumptions c70_public_copy_type.

(** C52. With a database that finds keys by hash nothing is merged at all. *)
Theorem c52_by_hash_refuted (sig skeyt : Type) (skey : option sig -> res skeyt) keq isself later found (h : @heap sig) (key : @mkey sig) :
  merge_key skey keq isself later true found h key = (h, key, Err AttributeError).
Proof. reflexivity. Qed.
Print Assumptions c52_by_hash_refuted.

(** C86. A signature made with a digest that is not supported cannot be validated: as the first one of its target it makes the whole call fail. *)
Theorem c86_unknown_digest_refuted v search pk rks s more : v_validated s = None -> v_issuers s = pk :: more -> v_hash s = Err UnsupportedDigestAlgorithm ->
  snd (validate_signatures v search pk rks [[s]]) = Some UnboundLocalError.
Proof. intros N I H. cbn [validate_signatures signatures_loop]. rewrite N, I. cbn [issuers_loop]. rewrite zlist_eqb_refl. unfold validate_signature. rewrite H. reflexivity. Qed.
Print Assumptions c86_unknown_digest_refuted.
(** any exception that is neither kind passes through, and the signatures after it are not looked at *)
Theorem c86_other_exception v search pk rks s more others rest e : v_validated s = None -> v_issuers s = pk :: more -> v_hash s = Err e -> (forall n, e <> PgpError n) ->
  validate_signatures v search pk rks ((s :: others) :: rest) = ((s :: others) :: rest, Some e).
Proof.
  intros N I H O. cbn [validate_signatures signatures_loop]. rewrite N, I. cbn [issuers_loop]. rewrite zlist_eqb_refl. unfold validate_signature. rewrite H. cbn [bind].
  assert (A : is_invalid e = false) by (destruct e; try reflexivity; exfalso; eapply O; reflexivity). assert (B : is_cannot e = false) by (destruct e; try reflexivity; exfalso; eapply O; reflexivity). rewrite A, B. reflexivity.
Qed.
Print Assumptions c86_other_exception.

(** C88. What follows a percent sign is a character of the passphrase only if it is two hexadecimal digits; otherwise the sign stays. *)
From Verif Require Import Agent.
Definition is_hex (c : Z) : Prop := 48 <= c <= 57 \/ 65 <= c <= 70 \/ 97 <= c <= 102.
Theorem c88_percent_stays a b t : ~ (is_hex a /\ is_hex b) -> unquote_to_bytes (37 :: a :: b :: t) = 37 :: unquote_to_bytes (a :: b :: t).
Proof.
  intros H. assert (G : hex_val a = None \/ hex_val b = None). { destruct (hex_val a) as [x|] eqn:A; [|now left]. destruct (hex_val b) as [y|] eqn:B; [|now right]. exfalso. apply H. split.
    - unfold hex_val in A. unfold is_hex. destruct ((48 <=? a) && _) eqn:?; [lia|]. destruct ((65 <=? a) && _) eqn:?; [lia|]. destruct ((97 <=? a) && _) eqn:?; [lia|discriminate A].
    - unfold hex_val in B. unfold is_hex. destruct ((48 <=? b) && _) eqn:?; [lia|]. destruct ((65 <=? b) && _) eqn:?; [lia|]. destruct ((97 <=? b) && _) eqn:?; [lia|discriminate B]. }
  assert (E : unquote_to_bytes (37 :: a :: b :: t) = match hex_val a, hex_val b with Some x, Some y => (16 * x + y) :: unquote_to_bytes t | _, _ => 37 :: unquote_to_bytes (a :: b :: t) end) by reflexivity.
  rewrite E. destruct G as [-> | ->]; [reflexivity|]. now destruct (hex_val a).
Qed.
Print Assumptions c88_percent_stays.
Example c88_percent_ex : unquote (str "100%, %4G%41") = str "100%, %4GA".
Proof. vm_compute. reflexivity. Qed.

(** C57. Octets compressed with an algorithm nobody knows: neither direction works, and the exception is an AttributeError both times. *)
Theorem c57_unknown_algorithm_refuted z bz2 alg level d : alg < 0 \/ 3 < alg -> Compression.compress_octets z bz2 alg level d = Err AttributeError /\ Compression.decompress_octets z alg d = Err AttributeError.
Proof.
  intros H. unfold Compression.compress_octets, Compression.decompress_octets. replace (alg =? 0) with false by lia. replace ((alg =? 1) || (alg =? 2)) with false by lia. replace (alg =? 3) with false by lia. split; reflexivity.
Qed.
Print Assumptions c57_unknown_algorithm_refuted.

(** C98. Only messages whose signatures are of version 4 can be checked; literal data of the wrong kind cannot be signed or checked. *)
Theorem c98_old_signature_refuted fl md5 sha1 H oid inv elg k sigs x b g : In g sigs -> SignMessage.sig_of_packet (Message.ms_sig g) = None -> forall r, SignMessage.verify_message fl md5 sha1 H oid inv elg k (Message.MSigned sigs (Some x) b) <> Ok r.
Proof.
  intros I N r E. unfold SignMessage.verify_message in E. revert r E. induction sigs as [|y l IH]; intros r E; [destruct I|]. cbn [mapM] in E. apply bind_ok in E as (v & Ev & E). apply bind_ok in E as (t & Et & E).
  destruct I as [->|I]; [rewrite N in Ev; discriminate Ev|]. exact (IH I t Et).
Qed.
Print Assumptions c98_old_signature_refuted.
Theorem c98_not_signed fl md5 sha1 H oid inv elg k m : (forall sigs x b, m <> Message.MSigned sigs (Some x) b) -> SignMessage.verify_message fl md5 sha1 H oid inv elg k m = Err AttributeError.
Proof. intros N. destruct m as [| | |sigs [x|] b|]; try reflexivity. exfalso. eapply N. reflexivity. Qed.
Print Assumptions c98_not_signed.
Theorem c98_wrong_data_refuted st t d f c : SignMessage.message_signable st (Message.MText (DataPackets.LBytes d) f c) = Err AttributeError /\ SignMessage.message_signable st (Message.MBinary (DataPackets.LText t) f c) = Err TypeError.
Proof. split; reflexivity. Qed.
Print Assumptions c98_wrong_data_refuted.

(** C84. The issuers that are reported are the digits of the first four octets of each issuer subpacket, in order; and text that is not ASCII reads as
    U+FFFD for each such octet. *)
Theorem c84_issuers_read_refuted utf8r b64 emb upper p pt ids sh d : 4 <= DumpSig.g_version p -> Forall (fun b => wf (DumpSig.b_data b)) (DumpSig.g_subs p) -> DumpSig.parse_signature_packet utf8r b64 emb upper p pt ids sh = Ok d ->
  DumpSig.e_ids d = map (fun b => (hex_text (firstn 4 (DumpSig.b_data b)), DumpSig.b_hashed b)) (filter (fun b => DumpSig.b_type b =? 16) (DumpSig.g_subs p)).
Proof.
  intros V W P. destruct (P_DumpSig.parse_v4 _ _ _ _ _ _ _ _ _ V P) as (is_ & s & h & base & E & _ & -> & _). unfold DumpSig.issuers in E.
  assert (Wf : Forall (fun b => wf (DumpSig.b_data b)) (filter (fun b => DumpSig.b_type b =? 16) (DumpSig.g_subs p))) by (apply Forall_forall; intros b I; apply filter_In in I as [I _]; rewrite Forall_forall in W; auto).
  revert is_ E Wf. generalize (filter (fun b => DumpSig.b_type b =? 16) (DumpSig.g_subs p)). intros l. induction l as [|b l IH]; intros is_ E Wf; cbn [mapM map] in *; [congruence|].
  apply bind_ok in E as (k & Ek & E). apply bind_ok in E as (r & Er & E). assert (is_ = k :: r) by congruence. subst is_. rewrite (IH r Er (Forall_inv_tail Wf)). f_equal. unfold DumpSig.issuer in Ek. apply bind_ok in Ek as (t & Et & Ek).
  assert (k = (t, DumpSig.b_hashed b)) by congruence. subst k. f_equal. pose proof (Forall_inv Wf) as Wb. cbn beta in Wb. clear - Et Wb. set (x := DumpSig.b_data b) in *. clearbody x.
  destruct x as [|a0 [|a1 [|a2 [|a3 x]]]]; try discriminate Et.
  unfold bytearray_to_hex in Et. change (negb (8 mod 2 =? 0)) with false in Et. cbv iota in Et. change (Z.to_nat (8 / 2)) with (List.length [a0; a1; a2; a3]) in Et.
  assert (W4 : wf [a0; a1; a2; a3]) by (change (a0 :: a1 :: a2 :: a3 :: x) with ([a0; a1; a2; a3] ++ x) in Wb; apply Forall_app in Wb; apply Wb).
  pose proof (to_hex_loop_spec [a0; a1; a2; a3] [] x W4) as T. change (zlen (@nil Z)) with 0 in T. cbn [app] in T. rewrite T in Et. cbn [bind] in Et. rewrite hex_text_len in Et. change (2 * zlen [a0; a1; a2; a3] <? 8) with false in Et. cbv iota in Et.
  rewrite slice_from_all in Et by (rewrite hex_text_len; reflexivity). cbn [firstn]. congruence.
Qed.
Print Assumptions c84_issuers_read_refuted.

Theorem c84_text_replaced d : Forall2 (fun b c => b < 128 /\ c = b \/ 128 <= b /\ c = 0xFFFD) d (DumpSig.ascii_r d).
Proof. induction d as [|b d IH]; [constructor|]. unfold DumpSig.ascii_r in *. cbn [map]. constructor; [|exact IH]. destruct (b <? 128) eqn:E; lia. Qed.
Print Assumptions c84_text_replaced.
