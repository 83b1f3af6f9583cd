(** C53, C54, C68: keyrings. *)
From Verif Require Import Base BaseProofs Utils Framing SpecFraming FramingProofs Text Armor S2k SessionKeys KeyPackets SigPackets DataPackets UserAttr Packets Keyring SpecRing RingProofs.

(** ** example keys: the hash is the low octet of the creation time *)
Definition ex_sha (d : bytes) : bytes := repeat (nth 7 d 0) 20.
Definition ex_content (c : Z) : bytes := [4; 0; 0; 0; c; 1; 0; 2; 3; 0; 2; 3].
Definition ex_packet (c : Z) : pkt := Pkt NewH (BPub false (PubKey 4 c 1 None (Some 3) (Some 3) None None None None)).
Definition ex_octets (c : Z) : bytes := [198; 12] ++ ex_content c.
Definition ex_uid (u : Z) : pkt * bytes := (Pkt NewH (BData (PUserId [u])), [205; 1; u]).
Definition ex_id (c : Z) : text := match bytearray_to_hex (repeat c 4) 0 None with Ok t => t | Err _ => [] end.
Definition ex_entry (c u : Z) : entry := Entry (ex_id c) [(ex_packet c, ex_octets c); ex_uid u].
Definition ex_fp (c : Z) : text := match bytearray_to_hex (repeat c 20) 0 None with Ok t => t | Err _ => [] end.
Definition ex_kobj (c u : Z) : kobj := KObj (Some false) (Ok (ex_fp c)) (fun _ => Ok (e_bytes (ex_entry c u))).
Lemma ex_entry_ok c u : In c [1; 2; 3] -> In u [65; 66] -> entry_ok Z.log2 ex_sha ex_sha (ex_entry c u).
Proof.
  intros Ic Iu. split.
  - constructor; [|constructor; [|constructor]].
    + exists (Raw NewH 6 (ex_content c)). split; [|cbn in Ic; repeat destruct Ic as [<-|Ic]; try contradiction; reflexivity].
      cbn [snd]. unfold ex_octets. change 198 with (192 + 6). change ([192 + 6; 12] ++ ex_content c) with ((192 + 6) :: [12] ++ ex_content c). apply rp_new; [lia|]. change (zlen (ex_content c)) with 12. apply nl_one. lia.
    + exists (Raw NewH 13 [u]). split; [|cbn in Iu; repeat destruct Iu as [<-|Iu]; try contradiction; reflexivity]. cbn [snd ex_uid]. change [205; 1; u] with ((192 + 13) :: [1] ++ [u]). apply rp_new; [lia|]. change (zlen [u]) with 1. apply nl_one. lia.
  - exists (ex_packet c), [fst (ex_uid u)]. destruct (pkt_key_id Z.log2 ex_sha ex_sha (ex_packet c)) as [kid|] eqn:E; [|cbn in Ic; repeat destruct Ic as [<-|Ic]; try contradiction; discriminate E].
    exists kid. split; [reflexivity|]. split; [right; reflexivity|]. split; [reflexivity|]. split; [|repeat constructor; discriminate].
    cbn in Ic; repeat destruct Ic as [<-|Ic]; try contradiction; vm_compute in E; injection E as <-; reflexivity.
Qed.
Lemma ex_writes c u : In c [1; 2; 3] -> In u [65; 66] -> writes Z.log2 ex_sha ex_sha (ex_kobj c u) (ex_fp c) (fun _ => ex_entry c u).
Proof.
  intros Ic Iu. split; [reflexivity|]. split; [cbn in Ic; repeat destruct Ic as [<-|Ic]; try contradiction; vm_compute; reflexivity|]. intros h. split; [reflexivity|]. split; [apply ex_entry_ok; assumption|]. cbn in Ic; repeat destruct Ic as [<-|Ic]; try contradiction; reflexivity.
Qed.
Definition ex_ring : ring := match open_ring Z.log2 ex_sha ex_sha (file_of [ex_entry 1 65; ex_entry 2 65]) false false with Ok r => r | Err _ => Ring [] [] None true true end.
Definition seen {A} (a : bool) (l : list A) : res (bool * list A) := Ok (a, l).
Lemma ex_rep : rep Z.log2 ex_sha ex_sha ex_ring [ex_entry 1 65; ex_entry 2 65].
Proof.
  destruct (open_rep Z.log2 ex_sha ex_sha [ex_entry 1 65; ex_entry 2 65] false) as (r & E & R & _). { repeat (apply Forall_cons || apply Forall_nil); apply ex_entry_ok; cbn; auto. }
  unfold ex_ring. rewrite E. exact R.
Qed.

(** ** C53 *)
Section Ring.
Variables (fl : Z -> Z) (md5 sha1 : bytes -> bytes) (K : Type) (build : bool -> list pkt -> res K).
(** A file of keys opens as the list of these keys; a lookup finds the newest one with the same last 8 digits. *)
Theorem c53_open_and_lookup es secret : Forall (entry_ok fl md5 sha1) es -> exists r, open_ring fl md5 sha1 (file_of es) secret false = Ok r /\
  forall f, get K build r f = match newest (short f) es with Some e => make build e | None => Err KeyError end.
Proof. intros F. destruct (open_rep fl md5 sha1 es secret F) as (r & E & R & _). exists r. split; [exact E|]. intros f. exact (get_rep fl md5 sha1 K build r es f R). Qed.
(** After any history of operations the ring is exactly the list of keys of SpecRing.list_run. *)
Theorem c53_history ent ops r es : rep fl md5 sha1 r es -> all_write fl md5 sha1 ent ops ->
  r_file (run fl md5 sha1 r ops) = file_of (fst (list_run ent ops (es, r_pref r))) /\
  forall f, get K build (run fl md5 sha1 r ops) f = match newest (short f) (fst (list_run ent ops (es, r_pref r))) with Some e => make build e | None => Err KeyError end.
Proof. intros R W. pose proof (run_rep fl md5 sha1 ent ops r es R W) as R'. split; [apply R'|]. intros f. exact (get_rep fl md5 sha1 K build _ _ f R'). Qed.
(** It is a map from ids to keys as long as only new keys are added, only the last key of the file is replaced or deleted, and no two keys
    share the last 8 digits of their fingerprints. Missing: all other histories. *)
Theorem c53_map_partial ent ops r es : rep fl md5 sha1 r es -> NoDup (map e_id es) -> all_write fl md5 sha1 ent ops -> tidy ent (es, r_pref r) ops ->
  forall f, match fold_left (map_step ent) ops (initial es) (short f) with
            | Some g => exists h, get K build (run fl md5 sha1 r ops) f = make build (g h)
            | None => get K build (run fl md5 sha1 r ops) f = Err KeyError
            end.
Proof.
  intros R N W T f. destruct (c53_history ent ops r es R W) as [_ G]. rewrite G. pose proof (tidy_run fl md5 sha1 ent ops (es, r_pref r) (initial es) N (initial_agrees es) W T (short f)) as A.
  destruct (newest (short f) (fst (list_run ent ops (es, r_pref r)))) as [e|].
  - destruct A as (g & h & -> & Hg). exists h. now rewrite Hg.
  - now rewrite A.
Qed.
(** Deleting a key deletes every key stored after it. *)
Theorem c53_delete_refuted r es k f ent a e b f' : rep fl md5 sha1 r es -> writes fl md5 sha1 k f ent -> es = a ++ e :: b -> e_id e = short f -> newest (short f) b = None -> newest (short f') a = None -> short f' <> short f ->
  exists r', delete fl md5 sha1 r k = (r', Ok tt) /\ get K build r f' = match newest (short f') b with Some e' => make build e' | None => Err KeyError end /\ get K build r' f' = Err KeyError.
Proof.
  intros R W -> He Nb Na D. assert (Q : newest (short f) (a ++ e :: b) = Some e /\ before_newest (short f) (a ++ e :: b) = a).
  { rewrite newest_app, before_app. cbn [newest before_newest]. rewrite Nb, He, zlist_eqb_refl. now rewrite app_nil_r. }
  destruct Q as [Q1 Q2]. pose proof (change_rep fl md5 sha1 false r _ k f ent R W) as C. rewrite Q1, Q2, app_nil_r in C. destruct C as (r' & E & R' & _). exists r'. split; [exact E|]. rewrite !(get_rep fl md5 sha1 K build _ _ _ R), (get_rep fl md5 sha1 K build _ _ _ R'). rewrite newest_app. cbn [newest]. rewrite Na, He.
  rewrite (zlist_eqb_neq (short f) (short f')) by congruence. destruct (newest (short f') b); split; reflexivity.
Qed.
(** So does replacing it. *)
Theorem c53_update_refuted r es k f ent a e b f' : rep fl md5 sha1 r es -> writes fl md5 sha1 k f ent -> es = a ++ e :: b -> e_id e = short f -> newest (short f) b = None -> newest (short f') a = None -> short f' <> short f ->
  exists r', update fl md5 sha1 r k = (r', Ok tt) /\ get K build r f' = match newest (short f') b with Some e' => make build e' | None => Err KeyError end /\ get K build r' f' = Err KeyError.
Proof.
  intros R W -> He Nb Na D. assert (Q : newest (short f) (a ++ e :: b) = Some e /\ before_newest (short f) (a ++ e :: b) = a).
  { rewrite newest_app, before_app. cbn [newest before_newest]. rewrite Nb, He, zlist_eqb_refl. now rewrite app_nil_r. }
  destruct Q as [Q1 Q2]. pose proof (change_rep fl md5 sha1 true r _ k f ent R W) as C. rewrite Q1, Q2 in C. destruct C as (r' & E & R' & _). exists r'. split; [exact E|]. rewrite !(get_rep fl md5 sha1 K build _ _ _ R), (get_rep fl md5 sha1 K build _ _ _ R'). rewrite !newest_app. cbn [newest]. rewrite Na, He.
  assert (Hi : e_id (ent (e_fmt e)) = short f) by (destruct W as (_ & _ & W); apply W). rewrite Hi. rewrite (zlist_eqb_neq (short f) (short f')) by congruence. destruct (newest (short f') b); split; reflexivity.
Qed.
(** Adding a key that is present is not refused; deleting it afterwards brings the older version back. *)
Theorem c53_add_twice_refuted r es k1 k2 f ent1 ent2 : rep fl md5 sha1 r es -> writes fl md5 sha1 k1 f ent1 -> writes fl md5 sha1 k2 f ent2 ->
  exists r1 r2 r3 h1 h2, add fl md5 sha1 r k1 = (r1, Ok tt) /\ add fl md5 sha1 r1 k2 = (r2, Ok tt) /\ get K build r2 f = make build (ent2 h2) /\ delete fl md5 sha1 r2 k2 = (r3, Ok tt) /\ get K build r3 f = make build (ent1 h1).
Proof.
  intros R W1 W2. destruct (add_rep fl md5 sha1 r es k1 f ent1 R W1) as (r1 & E1 & R1 & _). destruct (add_rep fl md5 sha1 r1 _ k2 f ent2 R1 W2) as (r2 & E2 & R2 & _).
  pose proof (change_rep fl md5 sha1 false r2 _ k2 f ent2 R2 W2) as C. assert (I1 : e_id (ent1 (r_pref r)) = short f) by (destruct W1 as (_ & _ & W); apply W). assert (I2 : e_id (ent2 (r_pref r1)) = short f) by (destruct W2 as (_ & _ & W); apply W).
  rewrite newest_app, before_app in C. cbn [newest before_newest] in C. rewrite I2, zlist_eqb_refl, !app_nil_r in C. destruct C as (r3 & E3 & R3 & _).
  exists r1, r2, r3, (r_pref r), (r_pref r1). split; [exact E1|]. split; [exact E2|]. rewrite (get_rep fl md5 sha1 K build _ _ f R2), (get_rep fl md5 sha1 K build _ _ f R3). rewrite !newest_app. cbn [newest]. rewrite I1, I2, zlist_eqb_refl. auto.
Qed.
(** Keys with the same last 8 digits replace each other in lookups. *)
Theorem c53_short_id_refuted r es k1 k2 f1 f2 ent1 ent2 : rep fl md5 sha1 r es -> writes fl md5 sha1 k1 f1 ent1 -> writes fl md5 sha1 k2 f2 ent2 -> short f1 = short f2 ->
  exists r1 r2 h, add fl md5 sha1 r k1 = (r1, Ok tt) /\ add fl md5 sha1 r1 k2 = (r2, Ok tt) /\ get K build r2 f1 = make build (ent2 h).
Proof.
  intros R W1 W2 S. destruct (add_rep fl md5 sha1 r es k1 f1 ent1 R W1) as (r1 & E1 & R1 & _). destruct (add_rep fl md5 sha1 r1 _ k2 f2 ent2 R1 W2) as (r2 & E2 & R2 & _). exists r1, r2, (r_pref r1). split; [exact E1|]. split; [exact E2|].
  rewrite (get_rep fl md5 sha1 K build _ _ f1 R2), newest_app. cbn [newest]. assert (I2 : e_id (ent2 (r_pref r1)) = short f2) by (destruct W2 as (_ & _ & W); apply W). rewrite I2, S, zlist_eqb_refl. reflexivity.
Qed.
(** A file with a version 2 or 3 RSA or ElGamal key cannot be opened at all. *)
Lemma scan_stop a : forall o e pref t x rest err, Forall (entry_ok fl md5 sha1) a -> is_key x = true -> pkt_key_id fl md5 sha1 x = Err err ->
  snd (scan fl md5 sha1 (lay o (parts a) ++ (e, x, rest) :: []) None pref t) = Err err.
Proof.
  intros o e pref t x rest err F Kx Hx. revert o pref t. induction a as [|en a IH]; intros o pref t.
  - cbn [parts map concat lay app scan]. rewrite Kx, Hx. reflexivity.
  - destruct (Forall_inv F) as (P & k & tl & kid & E & Tk & Hk & Hid & Ft). unfold parts. cbn [map concat]. fold (parts a). rewrite lay_app. unfold e_pkts in E. destruct en as [id ps]. cbn [e_parts e_id] in *. destruct ps as [|[k' y] ps]; [discriminate E|]. cbn [map fst] in E. injection E as -> <-.
    cbn [lay app scan]. assert (Kk : is_key k = true) by (apply is_key_spec; exact Tk). rewrite Kk, Hk. rewrite <- app_assoc. rewrite (scan_tail fl md5 sha1).
    + apply IH. exact (Forall_inv_tail F).
    + rewrite Forall_map in Ft. eapply Forall_impl; [|exact Ft]. cbn beta. intros; tauto.
    + destruct pref; discriminate.
Qed.
Theorem c53_version3_refuted es p x secret read_only : Forall (entry_ok fl md5 sha1) es -> part_ok (p, x) -> (exists b k, p_body p = BPub b k /\ b = false /\ k_version k < 4 /\ (is_rsa_alg (k_alg k) || is_elg_alg (k_alg k)) = true) ->
  open_ring fl md5 sha1 (file_of es ++ x) secret read_only = Err AttributeError.
Proof.
  intros F Px (b & k & Hb & -> & V & A). unfold open_ring, update_table. cbn [r_file r_pref r_table r_read_only r_secret].
  assert (E : packets_from (file_of es ++ x) 0 = (lay 0 (parts es ++ [(p, x)]), None)).
  { assert (Q : file_of es ++ x = octets (parts es ++ [(p, x)])) by (rewrite octets_app, parts_octets; unfold octets; cbn [map concat snd]; now rewrite app_nil_r). unfold packets_from. rewrite Q. replace (slice_from (octets (parts es ++ [(p, x)])) 0) with (octets (parts es ++ [(p, x)])).
    2:{ symmetry. exact (slice_from_app [] _). }
    rewrite packets_at_lay; [|apply Forall_app; split; [exact (parts_ok fl md5 sha1 es F)|constructor; [exact Px|constructor]]|lia]. do 2 f_equal. lia. }
  rewrite E, lay_app. cbn [lay]. assert (Kx : is_key p = true) by (unfold is_key, pkt_type; rewrite Hb; reflexivity). assert (Hx : pkt_key_id fl md5 sha1 p = Err AttributeError).
  { unfold pkt_key_id. rewrite Hb. unfold key_id, fingerprint. replace (k_version k <? 4) with true by lia. now rewrite A. }
  pose proof (scan_stop es 0 (0 + zlen (octets (parts es))) None [] p (0 + zlen (octets (parts es)) + zlen x) _ F Kx Hx) as S.
  destruct (scan fl md5 sha1 _ None None []) as [pref t]. cbn [snd] in S. rewrite S. reflexivity.
Qed.

(** ** C54 *)
(** No operation on a public or secret key ever changes a secret keyring. *)
Lemma on_first_secret f d d' u : on_first false f d = (d', u) -> length d' = length d /\ forall i n r, nth_error d i = Some (n, r) -> r_secret r = true -> nth_error d' i = Some (n, r).
Proof.
  revert d' u. induction d as [|[n0 r0] d IH]; intros d' u H; cbn [on_first] in H.
  - injection H as <- _. split; [reflexivity|]. intros [|i] n r Q; discriminate Q.
  - destruct (Bool.eqb (r_secret r0) false) eqn:B.
    + destruct (f r0) as [r' x]. injection H as <- _. split; [reflexivity|]. intros [|i] n r Q S; [injection Q as -> ->; rewrite S in B; discriminate B|exact Q].
    + destruct (on_first false f d) as [t' x] eqn:E. injection H as <- _. destruct (IH _ _ eq_refl) as [L G]. split; [cbn [length]; now rewrite L|]. intros [|i] n r Q S; [exact Q|exact (G i n r Q S)].
Qed.
Theorem c54_secret_rings_untouched d k op d' u : In op [add_key fl md5 sha1; update_key fl md5 sha1; delete_key fl md5 sha1] -> op d k = (d', u) ->
  forall i n r, nth_error d i = Some (n, r) -> r_secret r = true -> nth_error d' i = Some (n, r).
Proof.
  intros I H. assert (G : forall g, dispatch g d k = (d', u) -> forall i n r, nth_error d i = Some (n, r) -> r_secret r = true -> nth_error d' i = Some (n, r)).
  { intros g Q. unfold dispatch, isinstance_public, isinstance_secret in Q. destruct (ko_class k) as [c|]; [exact (proj2 (on_first_secret _ _ _ _ Q))|]. injection Q as <- _. auto. }
  cbn [In] in I. repeat destruct I as [<-|I]; try contradiction; exact (G _ H).
Qed.
(** A secret key is written to the first public keyring. *)
Theorem c54_secret_key_refuted d n r t k es f ent : Forall (fun x => r_secret (snd x) = true) d -> r_secret r = false -> rep fl md5 sha1 r es -> ko_class k = Some true -> writes fl md5 sha1 k f ent ->
  exists r' h, add_key fl md5 sha1 (d ++ (n, r) :: t) k = (d ++ (n, r') :: t, Ok tt) /\ r_secret r' = false /\ r_file r' = r_file r ++ e_bytes (ent h).
Proof.
  intros F S R C W. destruct (add_rep fl md5 sha1 r es k f ent R W) as (r' & E & R' & _ & S'). exists r', (r_pref r). split; [|split].
  - unfold add_key, dispatch, isinstance_public. rewrite C. induction F as [|[n0 r0] d Q F IH]; cbn [app on_first].
    + rewrite S. cbn [Bool.eqb]. now rewrite E.
    + cbn [snd] in Q. rewrite Q. cbn [Bool.eqb]. now rewrite IH.
  - now rewrite S'.
  - destruct R as (Ef & _). destruct R' as (Ef' & _). rewrite Ef, Ef', file_of_app. f_equal. unfold file_of. cbn [map concat]. apply app_nil_r.
Qed.
(** Without a public keyring the key is dropped without an error. *)
Theorem c54_no_public_ring_refuted d k c : Forall (fun x => r_secret (snd x) = true) d -> ko_class k = Some c -> add_key fl md5 sha1 d k = (d, Ok tt).
Proof.
  intros F C. unfold add_key, dispatch, isinstance_public. rewrite C. induction F as [|[n0 r0] d Q F IH]; [reflexivity|]. cbn [on_first]. cbn [snd] in Q. rewrite Q. cbn [Bool.eqb]. now rewrite IH.
Qed.
End Ring.
Print Assumptions c53_open_and_lookup. Print Assumptions c53_history. Print Assumptions c53_map_partial. Print Assumptions c53_delete_refuted. Print Assumptions c53_update_refuted.
Print Assumptions c53_add_twice_refuted. Print Assumptions c53_short_id_refuted. Print Assumptions c53_version3_refuted.
Print Assumptions c54_secret_rings_untouched. Print Assumptions c54_secret_key_refuted. Print Assumptions c54_no_public_ring_refuted.
Definition ex_get := get (bool * list pkt) seen.
Definition ex_run := run Z.log2 ex_sha ex_sha ex_ring.
(** deleting the first of two keys; adding a third, replacing and deleting it *)
Example c53_delete_ex : ex_get ex_ring (ex_fp 2) = Ok (false, e_pkts (ex_entry 2 65)) /\ ex_get (ex_run [Delete (ex_kobj 1 65)]) (ex_fp 2) = Err KeyError /\
  ex_get (ex_run [Add (ex_kobj 3 65); Update (ex_kobj 3 66)]) (ex_fp 3) = Ok (false, e_pkts (ex_entry 3 66)) /\ ex_get (ex_run [Add (ex_kobj 3 65); Update (ex_kobj 3 66)]) (ex_fp 1) = Ok (false, e_pkts (ex_entry 1 65)).
Proof. repeat split; vm_compute; reflexivity. Qed.
Definition ex_ent (k : kobj) (_ : option header_format) : entry := match ko_fp k, ko_bytes k None with Ok f, Ok b => if zlist_eqb f (ex_fp 3) then (if zlist_eqb b (e_bytes (ex_entry 3 65)) then ex_entry 3 65 else ex_entry 3 66) else ex_entry 1 65 | _, _ => ex_entry 1 65 end.
Example c53_map_ex : NoDup (map e_id [ex_entry 1 65; ex_entry 2 65]) /\ all_write Z.log2 ex_sha ex_sha ex_ent [Add (ex_kobj 3 65); Update (ex_kobj 3 66); Delete (ex_kobj 3 66)] /\
  tidy ex_ent ([ex_entry 1 65; ex_entry 2 65], r_pref ex_ring) [Add (ex_kobj 3 65); Update (ex_kobj 3 66); Delete (ex_kobj 3 66)].
Proof.
  split; [|split].
  - constructor; [cbn [map In]; intros [H|[]]; vm_compute in H; discriminate H|]. constructor; [intros []|constructor].
  - assert (A : ex_ent (ex_kobj 3 65) = fun _ => ex_entry 3 65) by reflexivity. assert (B : ex_ent (ex_kobj 3 66) = fun _ => ex_entry 3 66) by reflexivity.
    repeat (apply Forall_cons || apply Forall_nil); exists (ex_fp 3); cbn [of_op]; rewrite ?A, ?B; apply ex_writes; cbn; auto.
  - cbn [tidy]. split; [vm_compute; reflexivity|]. split; [exists [ex_entry 1 65; ex_entry 2 65], (ex_entry 3 65); split; vm_compute; reflexivity|]. split; [|exact I]. exists [ex_entry 1 65; ex_entry 2 65], (ex_entry 3 66). split; vm_compute; reflexivity.
Qed.
Example c54_ex : exists r', add_key Z.log2 ex_sha ex_sha [([1], Ring [] [] None false true); ([2], ex_ring)] (KObj (Some true) (Ok (ex_fp 3)) (fun _ => Ok (e_bytes (ex_entry 3 65)))) = ([([1], Ring [] [] None false true); ([2], r')], Ok tt) /\ r_file r' = r_file ex_ring ++ e_bytes (ex_entry 3 65).
Proof. eexists. split; [vm_compute; reflexivity|reflexivity]. Qed.
Example c53_version3_ex : open_ring Z.log2 ex_sha ex_sha (file_of [ex_entry 1 65] ++ [198; 14; 3; 0; 0; 0; 9; 0; 0; 1; 0; 2; 3; 0; 2; 3]) false false = Err AttributeError.
Proof. vm_compute. reflexivity. Qed.

(** ** C68 *)
(** An existing keyring that is not taken for a database or a keybox opens. *)
Theorem c68_open_partial fl md5 sha1 abspath fs hg name force secret es : starts kr_prefix name = false -> starts kbx_prefix name = false -> fs (abspath name) = Some (file_of es) -> Forall (entry_ok fl md5 sha1) es ->
  is_sub (firstn 4 (file_of es)) gdbm_magic = false -> slice (file_of es) 8 12 <> [75; 66; 88; 102] ->
  exists r, get_resource fl md5 sha1 abspath fs hg name force secret false = Ok (abspath name, r) /\ rep fl md5 sha1 r es /\ r_secret r = secret.
Proof.
  intros P1 P2 Hf F G X. destruct (open_rep fl md5 sha1 es secret F) as (r & E & R & S). exists r. split; [|auto]. unfold get_resource. rewrite P1, P2. cbn [skipn]. rewrite Hf. unfold detect. rewrite G, (zlist_eqb_neq _ _ X), andb_false_r. rewrite E. reflexivity.
Qed.
Print Assumptions c68_open_partial.
Example c68_open_ex : is_sub (firstn 4 (file_of [ex_entry 1 65])) gdbm_magic = false /\ slice (file_of [ex_entry 1 65]) 8 12 <> [75; 66; 88; 102] /\ starts kr_prefix [97] = false.
Proof. split; [vm_compute; reflexivity|]. split; [vm_compute; discriminate|vm_compute; reflexivity]. Qed.
(** A keyring that does not exist is never created: with force, TypeError. *)
Theorem c68_create_refuted fl md5 sha1 abspath fs hg name secret read_only : starts kr_prefix name = false -> starts kbx_prefix name = false -> fs (abspath name) = None ->
  get_resource fl md5 sha1 abspath fs hg name true secret read_only = Err TypeError /\ get_resource fl md5 sha1 abspath fs hg name false secret read_only = Err RuntimeError.
Proof. intros P1 P2 Hf. unfold get_resource. rewrite P1, P2, Hf. split; reflexivity. Qed.
Print Assumptions c68_create_refuted.
(** An empty file is taken for a GDBM database, which cannot be opened. *)
Theorem c68_empty_refuted fl md5 sha1 abspath fs hg name force secret read_only : starts kr_prefix name = false -> starts kbx_prefix name = false -> fs (abspath name) = Some [] ->
  get_resource fl md5 sha1 abspath fs hg name force secret read_only = Err (if hg then AttributeError else RuntimeError).
Proof. intros P1 P2 Hf. unfold get_resource. rewrite P1, P2, Hf. change (detect (Some [])) with RGdbm. destruct hg; reflexivity. Qed.
Print Assumptions c68_empty_refuted.
(** With the prefix gnupg-keyring: another file is opened, whose name begins with g: . *)
Theorem c68_prefix_refuted fl md5 sha1 abspath fs hg name force secret read_only r n : get_resource fl md5 sha1 abspath fs hg (kr_prefix ++ name) force secret read_only = Ok (n, r) -> n = abspath ([103; 58] ++ name).
Proof.
  unfold get_resource. assert (P : starts kr_prefix (kr_prefix ++ name) = true) by (unfold starts; rewrite firstn_app, Nat.sub_diag, firstn_all, firstn_O, app_nil_r; apply zlist_eqb_refl). rewrite P. change (skipn 12 (kr_prefix ++ name)) with ([103; 58] ++ name).
  destruct (fs (abspath ([103; 58] ++ name))) as [d|]; [|destruct force; discriminate]. intros H. apply bind_ok in H as (r0 & _ & H). congruence.
Qed.
Print Assumptions c68_prefix_refuted.
Example c68_prefix_ex : exists r, get_resource Z.log2 ex_sha ex_sha (fun n => n) (fun n => if zlist_eqb n [103; 58; 97] then Some (file_of [ex_entry 1 65]) else None) true (kr_prefix ++ [97]) false false false = Ok ([103; 58; 97], r).
Proof. eexists. vm_compute. reflexivity. Qed.
