From Verif Require Import Base BaseProofs Spec Text TextProofs Crc24 SpecCrc Crc24Proofs Armor SpecArmor ArmorProofs FramingProofs UtilsProofs.

Lemma orelse_none {A} (a : option A) : orelse a None = a. Proof. now destruct a. Qed.

Lemma from_ascii_prefix txt blanks hdr heads kvs blank dlines s rest ty p t :
  splitlines txt = blanks ++ hdr :: heads ++ blank :: dlines ++ (61 :: s) :: rest ->
  Forall (fun l => is_blank l = true) blanks -> header_denotes hdr ty p t -> Forall2 kv_ok heads kvs -> is_blank blank = true ->
  Forall data_line dlines ->
  from_ascii txt =
      do data <- b64decode (concat dlines);;
      do checksum_data <- b64decode s;;
      do c0 <- get checksum_data 0;;
      do c1 <- get checksum_data 1;;
      do c2 <- get checksum_data 2;;
      if negb (crc24 data =? c0 * 65536 + c1 * 256 + c2) then Err ValueError else
      do tail_line <- get rest 0;;
      if negb (zlist_eqb tail_line (replace (str "BEGIN") (str "END") hdr)) then Err ValueError else
      Ok (Armor ty data p t (last_value (str "Version") kvs) (last_value (str "Comment") kvs) (last_value (str "MessageID") kvs)
            (last_value (str "Hash") kvs) (last_value (str "Charset") kvs) None).
Proof.
  intros E Hb Hh Hk Hbl Hd. unfold from_ascii.
  assert (E1 : skip_blank (splitlines txt) = Ok (hdr, heads ++ blank :: dlines ++ (61 :: s) :: rest)).
  { apply skip_blank_spec. exists blanks. split; [exact E|]. split; [easy|]. now apply header_not_blank in Hh. }
  rewrite E1. cbn [bind]. rewrite (header_match_complete _ _ _ _ Hh).
  assert (E2 : parse_headers no_hdrs (heads ++ blank :: dlines ++ (61 :: s) :: rest) = Ok (set_all no_hdrs kvs, dlines ++ (61 :: s) :: rest)).
  { apply parse_headers_spec. exists heads, blank, kvs. auto. }
  rewrite E2. cbn [bind].
  assert (E3 : take_data (dlines ++ (61 :: s) :: rest) = Ok (dlines, 61 :: s, rest)) by (apply take_data_spec; eauto).
  rewrite E3. cbn [bind].
  destruct (set_all_spec kvs no_hdrs) as (-> & -> & -> & -> & ->). cbn [no_hdrs h_version h_comment h_message_id h_hash h_charset]. rewrite !orelse_none.
  destruct (b64decode (concat dlines)) as [data|]; [|reflexivity]. cbn [bind].
  change (slice_from (61 :: s) 1) with (slice_from ([61] ++ s) (zlen [61])). rewrite slice_from_app.
  destruct (b64decode s) as [cks|]; [|reflexivity]. cbn [bind].
  destruct (get cks 0) as [c0|]; [|reflexivity]. cbn [bind].
  destruct (get cks 1) as [c1|]; [|reflexivity]. cbn [bind].
  destruct (get cks 2) as [c2|]; [|reflexivity]. cbn [bind].
  rewrite sum24. reflexivity.
Qed.

Lemma get3 {A} (l : list A) c0 c1 c2 : get l 0 = Ok c0 -> get l 1 = Ok c1 -> get l 2 = Ok c2 -> exists more, l = c0 :: c1 :: c2 :: more.
Proof.
  intros H0 H1 H2. destruct l as [|a l]; [discriminate|]. rewrite get_cons_0 in H0. injection H0 as ->.
  rewrite get_cons_S in H1, H2 by lia. change (1 - 1) with 0 in H1. change (2 - 1) with 1 in H2.
  destruct l as [|b l]; [discriminate|]. rewrite get_cons_0 in H1. injection H1 as ->.
  rewrite get_cons_S in H2 by lia. change (1 - 1) with 0 in H2. 
  destruct l as [|c l]; [discriminate|]. rewrite get_cons_0 in H2. injection H2 as ->. eauto.
Qed.

Lemma get3' {A} (c0 c1 c2 : A) more : get (c0 :: c1 :: c2 :: more) 0 = Ok c0 /\ get (c0 :: c1 :: c2 :: more) 1 = Ok c1 /\ get (c0 :: c1 :: c2 :: more) 2 = Ok c2.
Proof. rewrite !get_nonneg by lia. repeat split. Qed.
Lemma c19_iff txt a : from_ascii txt = Ok a <->
  exists blanks hdr heads kvs blank dlines s c0 c1 c2 more tail rest,
    splitlines txt = blanks ++ hdr :: heads ++ blank :: dlines ++ (61 :: s) :: tail :: rest /\
    Forall (fun l => is_blank l = true) blanks /\
    header_denotes hdr (data_type a) (part a) (total_parts a) /\
    Forall2 kv_ok heads kvs /\ is_blank blank = true /\ Forall data_line dlines /\
    b64decode (concat dlines) = Ok (adata a) /\
    b64decode s = Ok (c0 :: c1 :: c2 :: more) /\
    rfc_crc24 (adata a) = c0 * 65536 + c1 * 256 + c2 /\
    tail_of hdr tail /\ std_headers a kvs /\ extra_headers a = None.
Proof.
  split.
  - intros H. unfold from_ascii in H.
    destruct (skip_blank (splitlines txt)) as [[hdr rest0]|] eqn:E1; [|discriminate]. cbn [bind] in H.
    apply skip_blank_spec in E1 as (blanks & E1 & Hb & _).
    destruct (header_match hdr) as [[[ty p] t]|] eqn:E2; [|discriminate]. apply header_match_sound in E2.
    destruct (parse_headers no_hdrs rest0) as [[h rest1]|] eqn:E3; [|discriminate]. cbn [bind] in H.
    apply parse_headers_spec in E3 as (heads & blank & kvs & -> & Hbl & Hk & ->).
    destruct (take_data rest1) as [[[dl sl] rest2]|] eqn:E4; [|discriminate]. cbn [bind] in H.
    apply take_data_spec in E4 as (-> & Hd & s & ->).
    destruct (b64decode (concat dl)) as [data|] eqn:E5; [|discriminate]. cbn [bind] in H.
    change (slice_from (61 :: s) 1) with (slice_from ([61] ++ s) (zlen [61])) in H. rewrite slice_from_app in H.
    destruct (b64decode s) as [cks|] eqn:E6; [|discriminate]. cbn [bind] in H.
    destruct (get cks 0) as [c0|] eqn:G0; [|discriminate]. cbn [bind] in H.
    destruct (get cks 1) as [c1|] eqn:G1; [|discriminate]. cbn [bind] in H.
    destruct (get cks 2) as [c2|] eqn:G2; [|discriminate]. cbn [bind] in H.
    destruct (get3 _ _ _ _ G0 G1 G2) as (more & ->). rewrite sum24 in H.
    destruct (crc24 data =? c0 * 65536 + c1 * 256 + c2) eqn:Ec; [|discriminate]. cbn [negb] in H.
    destruct rest2 as [|tail rest2]; [discriminate|]. rewrite get_cons_0 in H. cbn [bind] in H.
    destruct (zlist_eqb tail _) eqn:Et; [|discriminate]. cbn [negb] in H. apply zlist_eqb_spec in Et.
    injection H as <-. cbn [data_type adata part total_parts extra_headers].
    exists blanks, hdr, heads, kvs, blank, dl, s, c0, c1, c2, more, tail, rest2.
    repeat match goal with |- _ /\ _ => split end; try easy.
    + apply Z.eqb_eq in Ec. rewrite <- Ec. symmetry. apply crc24_is_rfc. eapply b64decode_wf; eauto.
    + subst tail. eapply tail_of_header; eauto.
    + destruct (set_all_spec kvs no_hdrs) as (A1 & A2 & A3 & A4 & A5). cbn [no_hdrs h_version h_comment h_message_id h_hash h_charset] in *.
      rewrite orelse_none in *. repeat split; easy.
  - intros (blanks & hdr & heads & kvs & blank & dl & s & c0 & c1 & c2 & more & tail & rest & E & Hb & Hh & Hk & Hbl & Hd & E5 & E6 & Ec & Ht & Hstd & Hx).
    rewrite (from_ascii_prefix _ _ _ _ _ _ _ _ _ _ _ _ E Hb Hh Hk Hbl Hd), E5, E6. cbn [bind].
    destruct (get3' c0 c1 c2 more) as (-> & -> & ->). cbn [bind].
    rewrite (proj1 (crc24_is_rfc (adata a) (b64decode_wf _ _ E5))), Ec, Z.eqb_refl. cbn [negb].
    rewrite get_cons_0. cbn [bind]. rewrite (tail_of_fun _ _ _ Ht (tail_of_header _ _ _ _ Hh)), zlist_eqb_refl. cbn [negb].
    destruct a as [ty data p t v c m hs cs ex]. unfold std_headers in Hstd. cbn [data_type adata part total_parts version comment message_id hash_algorithms charset extra_headers] in *. destruct Hstd as (<- & <- & <- & <- & <-). now subst ex.
Qed.

Lemma c19_bad_crc txt blanks hdr heads kvs blank dlines s rest ty p t data c0 c1 c2 more :
  splitlines txt = blanks ++ hdr :: heads ++ blank :: dlines ++ (61 :: s) :: rest ->
  Forall (fun l => is_blank l = true) blanks -> header_denotes hdr ty p t -> Forall2 kv_ok heads kvs -> is_blank blank = true ->
  Forall data_line dlines -> b64decode (concat dlines) = Ok data -> b64decode s = Ok (c0 :: c1 :: c2 :: more) ->
  rfc_crc24 data <> c0 * 65536 + c1 * 256 + c2 ->
  from_ascii txt = Err ValueError.
Proof.
  intros E Hb Hh Hk Hbl Hd E5 E6 Ec.
  rewrite (from_ascii_prefix _ _ _ _ _ _ _ _ _ _ _ _ E Hb Hh Hk Hbl Hd), E5, E6. cbn [bind].
  destruct (get3' c0 c1 c2 more) as (-> & -> & ->). cbn [bind].
  rewrite (proj1 (crc24_is_rfc data (b64decode_wf _ _ E5))). destruct (_ =? _) eqn:E0; [lia|reflexivity].
Qed.
Lemma c19_corrupt txt blanks hdr heads kvs blank dlines s rest ty p t pre x y suf c0 c1 c2 more :
  splitlines txt = blanks ++ hdr :: heads ++ blank :: dlines ++ (61 :: s) :: rest ->
  Forall (fun l => is_blank l = true) blanks -> header_denotes hdr ty p t -> Forall2 kv_ok heads kvs -> is_blank blank = true ->
  Forall data_line dlines -> b64decode (concat dlines) = Ok (pre ++ y ++ suf) -> b64decode s = Ok (c0 :: c1 :: c2 :: more) ->
  rfc_crc24 (pre ++ x ++ suf) = c0 * 65536 + c1 * 256 + c2 ->
  wf x -> zlen x = zlen y -> zlen x <= 3 -> x <> y ->
  from_ascii txt = Err ValueError.
Proof.
  intros E Hb Hh Hk Hbl Hd E5 E6 Ec Hx Hl H3 Hne.
  eapply c19_bad_crc; eauto. rewrite <- Ec.
  pose proof (b64decode_wf _ _ E5) as Hw. rewrite !wf_app in Hw. destruct Hw as (Hp & Hy & Hs).
  rewrite <- !(fun d H => proj1 (crc24_is_rfc d H)) by (rewrite !wf_app; auto).
  intros Heq. symmetry in Heq. revert Heq. now apply crc_window.
Qed.
Lemma c19_tail txt blanks hdr heads kvs blank dlines s rest ty p t data c0 c1 c2 more tail :
  splitlines txt = blanks ++ hdr :: heads ++ blank :: dlines ++ (61 :: s) :: tail :: rest ->
  Forall (fun l => is_blank l = true) blanks -> header_denotes hdr ty p t -> Forall2 kv_ok heads kvs -> is_blank blank = true ->
  Forall data_line dlines -> b64decode (concat dlines) = Ok data -> b64decode s = Ok (c0 :: c1 :: c2 :: more) ->
  ~ tail_of hdr tail ->
  from_ascii txt = Err ValueError.
Proof.
  intros E Hb Hh Hk Hbl Hd E5 E6 Ht.
  rewrite (from_ascii_prefix _ _ _ _ _ _ _ _ _ _ _ _ E Hb Hh Hk Hbl Hd), E5, E6. cbn [bind].
  destruct (get3' c0 c1 c2 more) as (-> & -> & ->). cbn [bind].
  destruct (negb (crc24 data =? _)); [reflexivity|]. rewrite get_cons_0. cbn [bind]. destruct (zlist_eqb tail (replace (str "BEGIN") (str "END") hdr)) eqn:Et; [|reflexivity].
  apply zlist_eqb_spec in Et. elim Ht. subst tail. eapply tail_of_header; eauto.
Qed.

(** ** C18 *)
Lemma header_text_ok a : 1 <= data_type a <= 4 -> part_ok a ->
  exists h, header_text a = Ok h /\ header_denotes h (data_type a) (part a) (total_parts a) /\ no_break h.
Proof.
  intros Ht Hp. unfold header_text, part_ok in *.
  assert (Hc : data_type a = 1 \/ data_type a = 2 \/ data_type a = 3 \/ data_type a = 4) by lia.
  assert (Hdig : forall p, 0 < p -> numeral (dec_of p) p /\ no_break (dec_of p)).
  { intros p H. pose proof (dec_of_numeral p H) as Hn. split; [easy|]. apply numeral_digits in Hn as (_ & Hd & _).
    eapply Forall_impl; [|exact Hd]. intros c Hc0. unfold is_digit in Hc0. unfold is_linebreak. cbn [existsb].
    repeat match goal with |- context [c =? ?k] => destruct (c =? k) eqn:?; [lia|] end. reflexivity. }
  destruct Hc as [E | [E | [E | E]]]; rewrite E in *; unfold data_types, PGP_MESSAGE; cbn [Z.eqb Pos.eqb].
  - destruct (part a) as [p|], (total_parts a) as [t|]; try easy; eexists; split; try reflexivity.
    + destruct Hp as (_ & Hp & Htt). destruct (Hdig p Hp) as [N1 B1]. destruct (Hdig t Htt) as [N2 B2].
      split.
      * pose proof (hd_parts _ _ _ _ N1 N2) as H. 
        replace (DASHES ++ str "BEGIN " ++ str "PGP MESSAGE" ++ (str ", PART " ++ dec_of p ++ str "/" ++ dec_of t) ++ DASHES)
           with (str "-----BEGIN PGP MESSAGE, PART " ++ dec_of p ++ str "/" ++ dec_of t ++ str "-----"); [exact H|].
        rewrite <- !app_assoc. reflexivity.
      * rewrite !no_break_app. repeat split; try assumption; repeat constructor.
    + destruct Hp as (_ & Hp). destruct (Hdig p Hp) as [N1 B1].
      split.
      * pose proof (hd_part _ _ N1) as H. 
        replace (DASHES ++ str "BEGIN " ++ str "PGP MESSAGE" ++ (str ", PART " ++ dec_of p) ++ DASHES)
           with (str "-----BEGIN PGP MESSAGE, PART " ++ dec_of p ++ str "-----"); [exact H|].
        rewrite <- !app_assoc. reflexivity.
      * rewrite !no_break_app. repeat split; try assumption; repeat constructor.
    + split; [exact hd_message|repeat constructor].
  - destruct (part a) as [p|], (total_parts a) as [t|]; try easy; try lia. eexists; split; [reflexivity|]. split; [exact hd_public|repeat constructor].
  - destruct (part a) as [p|], (total_parts a) as [t|]; try easy; try lia. eexists; split; [reflexivity|]. split; [exact hd_private|repeat constructor].
  - destruct (part a) as [p|], (total_parts a) as [t|]; try easy; try lia. eexists; split; [reflexivity|]. split; [exact hd_signature|repeat constructor].
Qed.
Definition opt_kv (k : text) (v : option text) : list (text * text) := match v with Some v => [(k, v)] | None => [] end.
Definition kvs_of (a : armor) : list (text * text) :=
  opt_kv (str "Version") (version a) ++ opt_kv (str "Comment") (comment a) ++ opt_kv (str "MessageID") (message_id a) ++
  opt_kv (str "Hash") (hash_algorithms a) ++ opt_kv (str "Charset") (charset a).
Definition hlines_of (a : armor) : list text :=
  opt_line (str "Version") (version a) ++ opt_line (str "Comment") (comment a) ++ opt_line (str "MessageID") (message_id a) ++
  opt_line (str "Hash") (hash_algorithms a) ++ opt_line (str "Charset") (charset a).
Lemma opt_line_ok k v : is_blank k = false -> forallb (fun c => negb (c =? 32)) k = true ->
  Forall2 kv_ok (opt_line k v) (opt_kv k v).
Proof.
  intros Hc Hk. destruct v as [v|]; [|constructor]. constructor; [|constructor]. split.
  - unfold is_blank in *. now rewrite forallb_app, Hc.
  - cbn [fst snd]. split; [reflexivity|]. intros (x & y & E).
    assert (Hin : In 32 (k ++ str ":")).
    { rewrite E. apply in_or_app. right. apply in_or_app. left. right. now left. }
    apply in_app_or in Hin as [Hin|[Hin|[]]]; [|discriminate]. rewrite forallb_forall in Hk. now apply Hk in Hin.
Qed.
Lemma hlines_ok a : Forall2 kv_ok (hlines_of a) (kvs_of a).
Proof.
  unfold hlines_of, kvs_of.
  repeat (apply Forall2_app; [apply opt_line_ok; reflexivity|]).
  apply opt_line_ok; reflexivity.
Qed.
Lemma last_value_app k a b : last_value k (a ++ b) = orelse (last_value k b) (last_value k a).
Proof.
  induction a as [|[k' v] a IH]; [cbn; now destruct (last_value k b)|].
  cbn [app last_value]. rewrite IH. destruct (last_value k b); reflexivity.
Qed.
Lemma last_value_opt k k' v : last_value k (opt_kv k' v) = if list_eq_dec Z.eq_dec k' k then v else None.
Proof. destruct v; cbn; now destruct (list_eq_dec _ _ _). Qed.
Lemma kvs_std a : std_headers a (kvs_of a).
Proof.
  unfold std_headers, kvs_of. rewrite !last_value_app, !last_value_opt.
  destruct (version a), (comment a), (message_id a), (hash_algorithms a), (charset a); vm_compute; repeat split.
Qed.
Lemma hlines_nb a : value_ok (version a) -> value_ok (comment a) -> value_ok (message_id a) -> value_ok (hash_algorithms a) -> value_ok (charset a) ->
  Forall no_break (hlines_of a).
Proof.
  assert (H : forall k v, no_break k -> value_ok v -> Forall no_break (opt_line k v)).
  { intros k [v|] Hk Hv; constructor; [|constructor]. rewrite !no_break_app. split; [easy|]. split; [repeat constructor|easy]. }
  intros. unfold hlines_of. rewrite !Forall_app. repeat split; apply H; trivial; repeat constructor.
Qed.
Lemma tail_no_break h t : tail_of h t -> no_break h -> no_break t.
Proof. intros (r & -> & ->). rewrite !no_break_app. intros [_ H]. split; [repeat constructor|exact H]. Qed.


(** the lines written for an armor without extra headers *)
Lemma armor_str_lines a : armor_ok a -> extra_headers a = None ->
  exists hdr tail dlines crcb,
    let lines := hdr :: hlines_of a ++ [] :: dlines ++ [61 :: b64encode crcb; tail] in
    armor_str a = Ok (join NL lines ++ NL) /\ Forall no_break lines /\
    header_denotes hdr (data_type a) (part a) (total_parts a) /\ tail_of hdr tail /\
    Forall data_line dlines /\ concat dlines = b64encode (adata a) /\ Forall (fun l => zlen l <= 72) dlines /\
    (exists c0 c1 c2, crcb = [c0; c1; c2] /\ rfc_crc24 (adata a) = c0 * 65536 + c1 * 256 + c2) /\ wf crcb.
Proof.
  intros Hok Hex. destruct Hok as [H1 H2 H3 H4 H5 H6 H7 H8].
  destruct (header_text_ok a H1 H2) as (h & Eh & Hd & Hnb).
  set (dl := chunks72 (Z.to_nat ((zlen (b64encode (adata a)) + 71) / 72)) 0 (b64encode (adata a))).
  set (v := crc24 (adata a)).
  destruct (crc24_is_rfc (adata a) H3) as [Ecrc Hcrc]. fold v in Ecrc, Hcrc.
  pose proof (tail_of_header _ _ _ _ Hd) as Htail.
  set (cb := [Z.land (Z.shiftr v 16) 255; Z.land (Z.shiftr v 8) 255; Z.land v 255]).
  assert (Hwc : wf cb) by (unfold cb; repeat (apply wf_cons; split; [apply land_byte|]); apply wf_nil).
  exists h, (replace (str "BEGIN") (str "END") h), dl, cb. cbv zeta.
  assert (Hdl : forall c, In c dl -> no_break c /\ zlist_eqb (slice c 0 1) (str "=") = false) by (intros c Hc; exact (chunks72_in _ _ _ H3 Hc)).
  repeat match goal with |- _ /\ _ => split end; auto.
  - unfold armor_str. rewrite Eh, Hex. cbn [bind extra_lines]. fold dl v cb. f_equal. f_equal. f_equal.
    unfold hlines_of. cbn [app]. f_equal. rewrite <- !app_assoc. reflexivity.
  - constructor; [easy|]. apply Forall_app. split; [now apply hlines_nb|]. constructor; [constructor|].
    apply Forall_app. split; [apply Forall_forall; intros; now apply Hdl|].
    constructor; [|constructor; [eapply tail_no_break; eauto|constructor]].
    constructor; [reflexivity|]. eapply Forall_impl; [|now apply b64encode_chars]. intros c Hc; apply Hc.
  - apply Forall_forall. intros c Hc. apply data_line_eqb. now apply Hdl.
  - apply chunks72_concat.
  - apply Forall_forall. intros c Hc. destruct (chunks72_spec (b64encode (adata a)) (Z.to_nat ((zlen (b64encode (adata a)) + 71) / 72)) 0 ltac:(lia)) as [_ F].
    destruct (F c Hc) as (k & _ & ->). unfold zlen. rewrite firstn_length. lia.
  - eexists _, _, _. split; [reflexivity|]. rewrite <- Ecrc. rewrite !land_255, !shiftr_div by lia.
    change (2 ^ 16) with 65536. change (2 ^ 8) with 256. change (2 ^ 24) with 16777216 in Hcrc. lia.
Qed.
Lemma c18_round a : armor_ok a -> extra_headers a = None -> exists t, armor_str a = Ok t /\ from_ascii t = Ok a.
Proof.
  intros Hok Hex. destruct (armor_str_lines a Hok Hex) as (h & tl & dl & cb & E & Hnb & Hd & Ht & Hdl & Hcc & _ & (c0 & c1 & c2 & -> & Hcrc) & Hwc).
  cbv zeta in *. eexists. split; [exact E|]. apply c19_iff.
  exists [], h, (hlines_of a), (kvs_of a), [], dl, (b64encode [c0; c1; c2]), c0, c1, c2, [], tl, [].
  repeat match goal with |- _ /\ _ => split end; auto.
  - rewrite splitlines_join; [reflexivity|easy|easy].
  - apply hlines_ok.
  - rewrite Hcc. apply b64_round_plain. apply Hok.
  - now apply b64_round_plain.
  - apply kvs_std.
Qed.
Lemma c20_never txt a : from_ascii txt = Ok a -> extra_headers a = None.
Proof. intros H. apply c19_iff in H as (? & ? & ? & ? & ? & ? & ? & ? & ? & ? & ? & ? & ? & H). apply H. Qed.
Lemma c20_write a d k v : extra_headers a = Some d -> In (k, v) d -> zlen k <> 2 ->
  1 <= data_type a <= 4 -> armor_str a = Err ValueError.
Proof.
  intros He Hin Hk Ht. unfold armor_str.
  assert (Hh : exists h, header_text a = Ok h).
  { unfold header_text, data_types. destruct (data_type a =? 1) eqn:?; [eauto|]. destruct (data_type a =? 2) eqn:?; [eauto|].
    destruct (data_type a =? 3) eqn:?; [eauto|]. destruct (data_type a =? 4) eqn:?; [eauto|lia]. }
  destruct Hh as [h ->]. cbn [bind]. rewrite He. cbn [extra_lines].
  assert (Hm : mapM (fun kv : text * text => match fst kv with
                           | [c1; c2] => Ok ([c1] ++ str ": " ++ [c2])
                           | _ => Err ValueError
                           end) d = Err ValueError).
  { clear He Hh || clear He. induction d as [|[k' v'] d IH]; [destruct Hin|]. cbn [mapM fst]. destruct Hin as [Hin|Hin].
    - injection Hin as -> ->. destruct k as [|x [|y [|z k]]]; try reflexivity. now elim Hk.
    - rewrite IH by easy. destruct k' as [|x [|y [|z k']]]; reflexivity. }
  now rewrite Hm.
Qed.
