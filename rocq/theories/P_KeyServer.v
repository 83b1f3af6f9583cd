(** C97: the key server client. *)
From Verif Require Import Base BaseProofs Spec Utils Framing SpecFraming Text Armor SpecArmor ArmorProofs ArmorProps S2k SpecS2k SessionKeys SessionKeysProofs KeyPackets SpecKey KeyProofs SigPackets SpecSig DataPackets UserAttr SpecAttr Packets SpecPackets PacketsProofs Message TransKey SpecTrans TransRound Shortcuts SpecShort ShortProofs P_Armor P_Short Hkp Url KeyServer SpecKeyServer KeyServerProofs.

(** what urlsplit does not refuse: a host that it accepts, and the absence of one *)
Definition host_allowed (bad_host : text -> bool) (h : text) : Prop := bad_host h = false /\ bad_host [] = false.
(** the transport of a scheme, as the code has it *)
Definition transport (name : text) : text := if zlist_eqb name (str "hkps") then str "https" else str "http".

Lemma name_letters name : In name [str "hkp"; str "hkps"; str "http"; str "https"] -> Forall (fun n => 97 <= n <= 122) name /\ name <> [] /\ lower name = name.
Proof. intros I. cbn [In] in I. repeat destruct I as [<-|I]; try contradiction; (split; [cbn; repeat (apply Forall_cons; [lia|]); apply Forall_nil|split; [discriminate|reflexivity]]). Qed.
Lemma transport_in name : In (transport name) [str "http"; str "https"].
Proof. unfold transport. destruct (zlist_eqb name (str "hkps")); cbn [In]; auto. Qed.
Lemma client_base bad_host word name host dirs slash : host_allowed bad_host host -> host_ok host -> Forall dir_ok dirs ->
  In name [str "hkp"; str "hkps"; str "http"; str "https"] -> spelled word name ->
  get_keyserver bad_host (server_url word host dirs slash) = Ok (Some (transport name ++ str "://" ++ host ++ path_of dirs ++ (if slash then str "/" else []))).
Proof.
  intros [Hb Hb0] Hh Hd I S. destruct (name_letters name I) as (L & N & Lo). pose proof (urlparse_server bad_host host dirs slash Hb Hh Hd word name S L N) as P.
  unfold get_keyserver, hkp_client. rewrite P. cbn [bind scheme netloc upath params query fragment]. rewrite Lo.
  assert (M : is_in name [str "hkp"; str "hkps"; str "http"; str "https"] = true) by (cbn [In] in I; repeat destruct I as [<-|I]; try contradiction; reflexivity).
  rewrite M. fold (transport name). rewrite (unparse_server bad_host host dirs slash Hb Hh Hd (transport name)); [reflexivity|]. destruct (transport_in name) as [<-|[<-|[]]]; discriminate.
Qed.

(** C97. Which server is asked, and how: the host and directories of the URL, over TLS for hkps and over plain HTTP for the three others. A last
    directory without a slash after it is left out. *)
Theorem c97_server_partial bad_host word name host dirs slash : host_allowed bad_host host -> host_ok host -> Forall dir_ok dirs ->
  In name [str "hkp"; str "hkps"; str "http"; str "https"] -> spelled word name ->
  let there : text := host ++ path_of (if (slash : bool) then dirs else removelast dirs) in
  exists base, get_keyserver bad_host (server_url word host dirs slash) = Ok (Some base) /\
    get_url bad_host base = Ok ((if zlist_eqb name (str "hkps") then str "https" else str "http") ++ str "://" ++ there ++ str "/pks/lookup") /\
    submit_url bad_host base = Ok ((if zlist_eqb name (str "hkps") then str "https" else str "http") ++ str "://" ++ there ++ str "/pks/add").
Proof.
  intros Hb Hh Hd I S there. eexists. split; [exact (client_base bad_host word name host dirs slash Hb Hh Hd I S)|]. fold (transport name). destruct Hb as [Hb Hb0]. pose proof (transport_in name) as T. unfold there. rewrite <- !app_assoc.
  assert (D : forall a, In a [str "lookup"; str "add"] -> dir_ok a /\ ~ In 47 a /\ urlparse bad_host (str "pks/" ++ a) (transport name) = Ok (Url (transport name) [] (str "pks/" ++ a) [] [] [])).
  { intros a Ia. split; [|split].
    - cbn [In] in Ia. repeat destruct Ia as [<-|Ia]; try contradiction; (split; [discriminate|split; [discriminate|split; [discriminate|]]]); cbn; repeat (apply Forall_cons; [lia|]); apply Forall_nil.
    - cbn [In] in Ia. repeat destruct Ia as [<-|Ia]; try contradiction; cbn; lia.
    - generalize (transport name) T. intros n In_. cbn [In] in Ia. unfold urlparse, urlsplit. repeat destruct Ia as [<-|Ia]; try contradiction; destruct In_ as [<-|[<-|[]]]; cbn; rewrite Hb0; reflexivity. }
  destruct (D (str "lookup") ltac:(cbn; auto)) as (A1 & A2 & A3). destruct (D (str "add") ltac:(cbn; auto)) as (B1 & B2 & B3).
  split; [exact (join_url bad_host host dirs slash Hb Hh Hd _ _ T A2 A3 A1)|exact (join_url bad_host host dirs slash Hb Hh Hd _ _ T B2 B3 B1)].
Qed.
Print Assumptions c97_server_partial.
(** So an https URL is not asked over TLS: keys and requests of a user who wrote https travel in the clear. *)
Theorem c97_https_refuted bad_host word host dirs slash base u : host_allowed bad_host host -> host_ok host -> Forall dir_ok dirs -> spelled word (str "https") ->
  get_keyserver bad_host (server_url word host dirs slash) = Ok (Some base) -> get_url bad_host base = Ok u \/ submit_url bad_host base = Ok u ->
  exists rest, u = str "http://" ++ rest.
Proof.
  intros Hb Hh Hd S G U. destruct (c97_server_partial bad_host word (str "https") host dirs slash Hb Hh Hd ltac:(cbn [In]; auto 10) S) as (b & G' & U1 & U2). rewrite G in G'. apply ok_inj in G'. assert (base = b) by congruence. subst b. clear G'.
  change (zlist_eqb (str "https") (str "hkps")) with false in *. cbn iota in *.
  destruct U as [U|U]; [rewrite U in U1; apply ok_inj in U1; subst u|rewrite U in U2; apply ok_inj in U2; subst u]; eexists; change (str "http://") with (str "http" ++ str "://"); rewrite <- app_assoc; reflexivity.
Qed.
Print Assumptions c97_https_refuted.
(** Any other scheme is answered with None, and no client is made. *)
Theorem c97_other_scheme bad_host word name host dirs slash : host_allowed bad_host host -> host_ok host -> Forall dir_ok dirs ->
  Forall (fun n => 97 <= n <= 122) name -> name <> [] -> spelled word name -> ~ In name [str "hkp"; str "hkps"; str "http"; str "https"] ->
  get_keyserver bad_host (server_url word host dirs slash) = Ok None.
Proof.
  intros [Hb Hb0] Hh Hd L N S O. unfold get_keyserver. rewrite (urlparse_server bad_host host dirs slash Hb Hh Hd word name S L N). cbn [bind scheme].
  assert (Lo : lower name = name). { clear -L. induction L as [|c n H _ IH]; [reflexivity|]. unfold lower in *. cbn [map]. rewrite IH. f_equal. unfold lower_char. destruct ((65 <=? c) && (c <=? 90)) eqn:E; lia. }
  rewrite Lo. replace (is_in name [str "hkp"; str "hkps"; str "http"; str "https"]) with false; [reflexivity|]. symmetry. apply not_true_iff_false. intros X. apply existsb_exists in X as (x & Ix & X). apply zlist_eqb_spec in X. subst x. contradiction.
Qed.
Print Assumptions c97_other_scheme.
Example c97_server_ex : get_keyserver (fun _ => false) (str "HkpS://keys.example:443/pgp/") = Ok (Some (str "https://keys.example:443/pgp/")) /\
  get_url (fun _ => false) (str "https://keys.example:443/pgp/") = Ok (str "https://keys.example:443/pgp/pks/lookup") /\
  server_url (str "HkpS") (str "keys.example:443") [str "pgp"] true = str "HkpS://keys.example:443/pgp/" /\
  get_keyserver (fun _ => false) (str "https://keys.example") = Ok (Some (str "http://keys.example")) /\ get_keyserver (fun _ => false) (str "ldap://keys.example") = Ok None.
Proof. repeat (split; [vm_compute; reflexivity|]). vm_compute. reflexivity. Qed.
Example c97_server_ex2 : host_ok (str "keys.example:443") /\ dir_ok (str "pgp") /\ spelled (str "HkpS") (str "hkps").
Proof.
  split; [split; [discriminate|cbn; repeat (apply Forall_cons; [lia|]); apply Forall_nil]|]. split; [split; [discriminate|split; [discriminate|split; [discriminate|]]]; cbn; repeat (apply Forall_cons; [lia|]); apply Forall_nil|].
  cbn. repeat (apply Forall2_cons; [unfold letter_of; lia|]). apply Forall2_nil.
Qed.

Lemma plain_text data : wf data -> exists t rest, armor_str (Armor 2 data None None None None None None None None) = Ok t /\
  from_ascii t = Ok (Armor 2 data None None None None None None None None) /\ ascii t /\ t = str "-----BEGIN PGP PUBLIC KEY BLOCK-----" ++ [10] ++ rest.
Proof.
  intros W. set (a := Armor 2 data None None None None None None None None).
  assert (Hok : armor_ok a) by (split; cbn; auto; lia). destruct (c18_round a Hok eq_refl) as (t & T1 & T2). destruct (armor_str_lines a Hok eq_refl) as (h & tl & dl & cb & E & _ & Hd & Ht & _ & Hcc & _ & _ & Hwc). cbv zeta in E.
  rewrite T1 in E. apply ok_inj in E. exists t.
  assert (Eh : h = str "-----BEGIN PGP PUBLIC KEY BLOCK-----") by (inversion Hd; reflexivity).
  assert (Et : tl = str "-----END PGP PUBLIC KEY BLOCK-----"). { destruct Ht as (r & Er & ->). rewrite Eh in Er. change (str "-----BEGIN PGP PUBLIC KEY BLOCK-----") with (str "-----BEGIN " ++ str "PGP PUBLIC KEY BLOCK-----") in Er. apply app_inv_head in Er. now rewrite <- Er. }
  assert (Es : exists rest, t = h ++ [10] ++ rest). { rewrite E. unfold hlines_of. cbn [a version comment message_id hash_algorithms charset opt_line app]. eexists. cbn [join]. rewrite <- !app_assoc. reflexivity. }
  destruct Es as (rest & Es). exists rest. split; [exact T1|]. split; [exact T2|]. split; [|rewrite <- Eh; exact Es]. rewrite E. apply Forall_app. split; [|repeat constructor; lia].
  assert (S : forall s, forallb (fun c => (0 <=? c) && (c <? 128)) s = true -> ascii s). { intros s F. apply Forall_forall. intros c I. rewrite forallb_forall in F. specialize (F c I). cbn beta in F. lia. }
  apply join_all; [repeat constructor; lia|]. constructor; [rewrite Eh; apply S; reflexivity|]. apply Forall_app. split; [constructor|].
  constructor; [constructor|]. apply Forall_app. split; [|constructor; [constructor; [lia|now apply b64_ascii]|constructor; [rewrite Et; apply S; reflexivity|constructor]]].
  apply Forall_forall. intros l Il. apply Forall_forall. intros c Ic. pose proof (b64_ascii data W) as B. unfold ascii in B. rewrite Forall_forall in B. apply B. change data with (adata a). rewrite <- Hcc. apply in_concat. eauto.
Qed.
Lemma first_cut (a b r s : text) : ~ In 10 a -> ~ In 10 b -> a ++ 10 :: r = b ++ 10 :: s -> a = b.
Proof.
  revert b. induction a as [|x a IH]; intros [|y b] Na Nb H; [reflexivity| | |].
  - cbn in H. injection H as <- _. exfalso. apply Nb. now left.
  - cbn in H. injection H as -> _. exfalso. apply Na. now left.
  - cbn in H. injection H as -> H. f_equal. apply IH; [intros I; apply Na; now right|intros I; apply Nb; now right|exact H].
Qed.
Lemma no_break_10 l : no_break l -> ~ In 10 l.
Proof. unfold no_break. intros F I. rewrite Forall_forall in F. specialize (F 10 I). discriminate F. Qed.
Lemma resent_text t t' rest : resent t t' -> ascii t -> t = str "-----BEGIN PGP PUBLIC KEY BLOCK-----" ++ [10] ++ rest -> from_ascii t' = from_ascii t /\ ascii t' /\ exists rest', t' = str "-----BEGIN PGP PUBLIC KEY BLOCK-----" ++ rest'.
Proof.
  intros [->|(lines & e & N & He & -> & ->)] A E; [split; [reflexivity|split; [exact A|exists ([10] ++ rest); exact E]]|]. split; [exact (c18_line_ends lines e N He)|]. split.
  - assert (Ae : ascii e) by (destruct He as [->|[->| ->]]; repeat constructor; lia). unfold with_ends in *. clear E N. induction lines as [|l ls IH]; [constructor|]. cbn [map concat] in *. apply Forall_app in A as [A1 A2]. apply Forall_app in A1 as [A1 _]. apply Forall_app. split; [apply Forall_app; split; assumption|exact (IH A2)].
  - destruct lines as [|l ls]; [discriminate E|]. unfold with_ends in *. cbn [map concat] in *. rewrite <- app_assoc in E. apply first_cut in E; [|apply no_break_10; exact (Forall_inv N)|vm_compute; intuition lia]. subst l. eexists. rewrite <- app_assoc. reflexivity.
Qed.
Section Submit.
Variables (bad_host : text -> bool) (net : request -> res response) (local mktime : Z -> res Z) (magic : bytes -> text) (fl : Z -> Z) (rec : seckey -> res bytes).
Hypothesis Hfl : exact_log fl.
Lemma submit_round base u l o (secret no_modify : bool) : submit_url bad_host base = Ok u -> whole_key local mktime magic secret l o -> Forall (pkt_ok fl rec) l ->
  (forall p d, In p l -> body_content fl rec (p_body p) = Ok d -> wf d) ->
  exists t, fst (hkp_submit bad_host net mktime fl rec base o no_modify) = [Request true u [(str "keytext", t); (str "options", if no_modify then str "mr,nm" else str "mr")]] /\
    first_line (str "-----BEGIN PGP PUBLIC KEY BLOCK-----") t /\ forall t' flag, resent t t' -> read_key local magic (InBytes t') flag = Ok o.
Proof.
  intros U (V & N & K & F) P W. destruct (round_trust local mktime magic secret l [] ltac:(now rewrite app_nil_r) Logic.I N K) as (o' & F' & T). rewrite app_nil_r in F'. rewrite F in F'. apply ok_inj in F' as <-.
  destruct (pkts_round fl rec _ Hfl P) as (encs & E & E2 & _).
  assert (A : map as_read l = l). { rewrite <- (map_id l) at 2. apply map_ext_in. intros p I. rewrite Forall_forall in K. pose proof (kept_as_read local mktime secret (p_fmt p) p (K p I)) as X. destruct p as [h b]. exact X. }
  assert (We : wf (concat encs)) by (apply (encs_wf fl rec _ Hfl P); [exact W|exact E]).
  destruct (plain_text (concat encs) We) as (t & rest & T1 & T2 & T3 & T4). exists t. unfold hkp_submit. rewrite T. cbn [bind]. rewrite E. cbn [bind]. change PGP_PUBLIC_KEY_BLOCK with 2. rewrite T1. cbn [bind]. rewrite U. cbn [bind]. unfold send. split; [reflexivity|]. split; [exists rest; exact T4|].
  intros t' flag R. destruct (resent_text t t' rest R T3 T4) as (R1 & R2 & rest' & R3). apply (read_key_of local magic secret l); auto. unfold read_packets. cbn [input_armor]. unfold is_armor.
  assert (SL : slice t' 0 (zlen DASHES) = DASHES). { rewrite R3. change (str "-----BEGIN PGP PUBLIC KEY BLOCK-----") with (DASHES ++ str "BEGIN PGP PUBLIC KEY BLOCK-----"). rewrite <- app_assoc. apply (slice_app' [] DASHES); reflexivity. }
  rewrite SL. change (forallb (fun c => c <? 128) DASHES) with true. change (zlist_eqb DASHES DASHES) with true. cbn iota.
  replace (forallb (fun c => c <? 128) t') with true by (symmetry; apply forallb_forall; intros c I; unfold ascii in R2; rewrite Forall_forall in R2; specialize (R2 c I); lia).
  cbn [bind]. unfold parse_ascii_packet_data. rewrite R1, T2. cbn [bind adata]. rewrite E2. cbn [bind]. unfold Shortcuts.listed. cbn [snd fst]. now rewrite A.
Qed.
End Submit.

(** C97. Submitting a key is one POST of its armored packets; whatever key id is then asked for, a server that answers with the text it was sent, its
    line ends perhaps changed, gives back the same key. *)
Theorem c97_submit_then_get_partial bad_host net local mktime magic fl rec base us ug l o (secret no_modify : bool) : (forall i, 1024 <= i <= 65011712 -> fl i = Z.log2 i) ->
  submit_url bad_host base = Ok us -> get_url bad_host base = Ok ug -> whole_key local mktime magic secret l o -> Forall (pkt_ok fl rec) l ->
  (forall p d, In p l -> body_content fl rec (p_body p) = Ok d -> wf d) ->
  exists t, fst (hkp_submit bad_host net mktime fl rec base o no_modify) = [Request true us [(str "keytext", t); (str "options", if no_modify then str "mr,nm" else str "mr")]] /\
    forall key_id (exact : bool) r, let rq := Request false ug [(str "op", str "get"); (str "search", str "0x" ++ key_id); (str "options", str "mr"); (str "exact", if exact then str "yes" else str "no")] in
      net rq = Ok r -> rp_error r = false -> resent t (rp_content r) -> hkp_get bad_host net local magic base key_id exact = ([rq], Ok o).
Proof.
  intros Hfl U G Wk P W. destruct (submit_round bad_host net local mktime magic fl rec Hfl base us l o secret no_modify U Wk P W) as (t & A & _ & B). exists t. split; [exact A|].
  intros key_id exact r rq Hr He R. unfold hkp_get. rewrite G. cbn [bind]. unfold send. change (yes_no exact) with (if exact then str "yes" else str "no"). fold rq. rewrite Hr. cbn [bind]. rewrite He. now rewrite (B _ true R).
Qed.
Print Assumptions c97_submit_then_get_partial.
(** Nothing keeps a secret key from being sent: submit publishes its secret packets, under the label of a public key, and whoever gets the text
    reads the secret key from it. *)
Lemma from_secret local magic secret l o : from_packets local magic secret l = Ok o -> tk_secret o = secret.
Proof.
  unfold from_packets. intros H. apply bind_ok in H as (_ & _ & H). destruct l as [|p t]; [discriminate H|]. apply bind_ok in H as (k & _ & H). destruct (span_sigs t) as [s r]. apply bind_ok in H as (sg & _ & H).
  destruct (spans (length r) [13] r) as [us r1]. apply bind_ok in H as (u & _ & H). destruct (spans (length r1) [17] r1) as [ats r2]. apply bind_ok in H as (a & _ & H). destruct (spans (length r2) [14; 7] r2) as [sb r3]. apply bind_ok in H as (b & _ & H). apply ok_inj in H. subst o. reflexivity.
Qed.
Theorem c97_secret_sent_refuted bad_host net local mktime magic fl rec base us l o no_modify : (forall i, 1024 <= i <= 65011712 -> fl i = Z.log2 i) ->
  submit_url bad_host base = Ok us -> whole_key local mktime magic true l o -> Forall (pkt_ok fl rec) l -> (forall p d, In p l -> body_content fl rec (p_body p) = Ok d -> wf d) ->
  exists t options, fst (hkp_submit bad_host net mktime fl rec base o no_modify) = [Request true us [(str "keytext", t); (str "options", options)]] /\
    first_line (str "-----BEGIN PGP PUBLIC KEY BLOCK-----") t /\ tk_secret o = true /\ read_key local magic (InBytes t) true = Ok o.
Proof.
  intros Hfl U Wk P W. destruct (submit_round bad_host net local mktime magic fl rec Hfl base us l o true no_modify U Wk P W) as (t & A & B & C). exists t. eexists. split; [exact A|]. split; [exact B|]. split; [|apply C; now left].
  destruct Wk as (_ & _ & _ & F). exact (from_secret _ _ _ _ _ F).
Qed.
Print Assumptions c97_secret_sent_refuted.
Lemma own_octets fl rec qs ls : Forall2 as_octets qs ls -> mapM (pkt_bytes fl rec) qs = mapM (pkt_bytes fl rec) ls.
Proof. induction 1 as [|q q' qs ls (A1 & A2 & A3) _ IH]; [reflexivity|]. cbn [mapM]. rewrite IH. unfold pkt_bytes at 1 3. rewrite A3, A2, A1. reflexivity. Qed.
(** Sending the public copy instead is safe: what is sent depends on the public parts only. *)
Theorem c97_public_copy_sent bad_host net local mktime magic fl rec base l1 l2 o1 o2 p1 p2 no_modify : whole_key local mktime magic true l1 o1 -> whole_key local mktime magic true l2 o2 -> map public_part l1 = map public_part l2 ->
  fst (hkp_submit bad_host net mktime fl rec base (to_public_key p1 o1) no_modify) = fst (hkp_submit bad_host net mktime fl rec base (to_public_key p2 o2) no_modify).
Proof.
  intros W1 W2 E. pose proof W1 as (V1 & N1 & K1 & F1). pose proof W2 as (V2 & N2 & K2 & F2).
  assert (Q : (do ps <- to_packets mktime (to_public_key p1 o1);; mapM (pkt_bytes fl rec) ps) = (do ps <- to_packets mktime (to_public_key p2 o2);; mapM (pkt_bytes fl rec) ps)).
  { destruct (round_trust local mktime magic true l1 [] ltac:(now rewrite app_nil_r) Logic.I N1 K1) as (x1 & G1 & T1). rewrite app_nil_r in G1. rewrite F1 in G1. apply ok_inj in G1 as <-. destruct (round_trust local mktime magic true l2 [] ltac:(now rewrite app_nil_r) Logic.I N2 K2) as (x2 & G2 & T2). rewrite app_nil_r in G2. rewrite F2 in G2. apply ok_inj in G2 as <-.
    destruct (to_packets_public mktime p1 o1 l1 T1) as (q1 & Q1 & R1 & _). destruct (to_packets_public mktime p2 o2 l2 T2) as (q2 & Q2 & R2 & _). rewrite Q1, Q2. cbn [bind]. rewrite (own_octets fl rec _ _ R1), (own_octets fl rec _ _ R2), E. reflexivity. }
  unfold hkp_submit, send. assert (G : forall A B C (x : res A) (f : A -> res B) (g : B -> res C), bind x (fun y => bind (f y) g) = bind (bind x f) g) by (intros A B C [x|x] f g; reflexivity).
  rewrite (G _ _ _ (to_packets mktime (to_public_key p1 o1)) (fun ps => mapM (pkt_bytes fl rec) ps)), (G _ _ _ (to_packets mktime (to_public_key p2 o2)) (fun ps => mapM (pkt_bytes fl rec) ps)), Q. destruct (bind _ _); reflexivity.
Qed.
Print Assumptions c97_public_copy_sent.
(** What the server answers. An error status or a failing connection is an exception, never a key; and data that does not start with the dashes of
    an armor, such as an armor after an empty line or a binary key, is a TypeError. *)
Theorem c97_no_key_on_error bad_host net local magic base key_id exact rqs k : hkp_get bad_host net local magic base key_id exact = (rqs, Ok k) ->
  exists rq r, rqs = [rq] /\ net rq = Ok r /\ rp_error r = false /\ read_key local magic (InBytes (rp_content r)) true = Ok k.
Proof.
  unfold hkp_get, send. destruct (bind _ _) as [rq|e] eqn:E; [|discriminate]. intros H. exists rq. injection H as <- H. apply bind_ok in H as (r & R & H). exists r. destruct (rp_error r); [discriminate H|]. auto.
Qed.
Print Assumptions c97_no_key_on_error.
Theorem c97_leading_line_refuted bad_host net local magic base ug key_id (exact : bool) r : get_url bad_host base = Ok ug ->
  net (Request false ug [(str "op", str "get"); (str "search", str "0x" ++ key_id); (str "options", str "mr"); (str "exact", if exact then str "yes" else str "no")]) = Ok r -> rp_error r = false ->
  slice (rp_content r) 0 5 <> str "-----" -> (exists c, In c (rp_content r) /\ c <> 32 /\ ~ (9 <= c <= 13)) ->
  snd (hkp_get bad_host net local magic base key_id exact) = Err TypeError.
Proof.
  intros G N E D C. unfold hkp_get. rewrite G. cbn [bind]. unfold send. change (yes_no exact) with (if exact then str "yes" else str "no"). cbn [snd]. rewrite N. cbn [bind]. rewrite E.
  assert (A : is_armor (rp_content r) = false). { unfold is_armor. change (zlen DASHES) with 5. destruct (forallb _ _); [|reflexivity]. apply zlist_eqb_neq. exact D. }
  pose proof (c72_armored_octets_refuted _ A C) as R. unfold read_message in R. unfold read_key. destruct (read_packets (InBytes (rp_content r)) true) as [ps|e] eqn:X.
  - exfalso. revert X. unfold read_packets. cbn [input_armor]. rewrite A. cbn [bind]. discriminate.
  - cbn [bind] in *. apply (f_equal (fun z => match z with Ok _ => e | Err y => y end)) in R. cbn in R. now subst e.
Qed.
Print Assumptions c97_leading_line_refuted.

(** Demonstration: the key of C69 sent to a server that keeps it. *)
Definition echo (t : text) : request -> res response := fun _ => Ok (Response false t t).
Example c97_ex : exists o t, whole_key same same no_magic false kx_list o /\ Forall (pkt_ok Z.log2 no_rec) kx_list /\
  fst (hkp_submit (fun _ => false) (echo []) same Z.log2 no_rec (str "http://h") o true) = [Request true (str "http://h/pks/add") [(str "keytext", t); (str "options", str "mr,nm")]] /\
  snd (hkp_get (fun _ => false) (echo t) same no_magic (str "http://h") (str "01234567") false) = Ok o /\
  snd (hkp_get (fun _ => false) (echo (10 :: t)) same no_magic (str "http://h") (str "01234567") false) = Err TypeError.
Proof.
  destruct (kx_whole false) as (o & W). exists o. destruct (submit_round (fun _ => false) (echo []) same same no_magic Z.log2 no_rec (fun i _ => eq_refl) (str "http://h") (str "http://h/pks/add") kx_list o false true) as (t & A & B & C).
  - vm_compute. reflexivity.
  - exact W.
  - pose proof (kx_all NewH false) as F. exact F.
  - exact (kx_wf false).
  - exists t. split; [exact W|]. split; [exact (kx_all NewH false)|]. split; [exact A|].
    assert (G : get_url (fun _ => false) (str "http://h") = Ok (str "http://h/pks/lookup")) by (vm_compute; reflexivity). split.
    + unfold hkp_get. rewrite G. cbn [bind]. unfold send, echo. cbn [snd bind rp_error rp_content]. apply C. now left.
    + destruct B as (r & ->). apply (c97_leading_line_refuted _ _ _ _ _ _ _ false (Response false (10 :: str "-----BEGIN PGP PUBLIC KEY BLOCK-----" ++ [10] ++ r) (10 :: str "-----BEGIN PGP PUBLIC KEY BLOCK-----" ++ [10] ++ r)) G); [reflexivity|reflexivity| |]; [cbn [rp_content]; change (10 :: str "-----BEGIN PGP PUBLIC KEY BLOCK-----" ++ [10] ++ r) with ([] ++ [10; 45; 45; 45; 45] ++ str "-BEGIN PGP PUBLIC KEY BLOCK-----" ++ [10] ++ r); rewrite (slice_app' [] [10; 45; 45; 45; 45]); [discriminate|reflexivity|reflexivity]|]. exists 45. split; [cbn [rp_content]; right; left; reflexivity|lia].
Qed.
