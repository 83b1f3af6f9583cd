(** C107: keys and signatures do not depend on the time zone of the machine. *)
From Verif Require Import Base BaseProofs Spec HexProofs Utils UtilsProofs Framing Text Armor S2k SessionKeys KeyPackets SpecKey KeyProofs SigPackets SpecSig SignedProofs DataPackets UserAttr Packets TransKey SpecTrans P_Trans RingKeys P_Grip SpecZone.

(** a key all of whose creation times are shown once by the local clock is read and written without change *)
Theorem c107_key_partial z mk magic secret l : resolves z mk -> validate_key secret l = Ok tt -> (forall p, In p l -> pkt_type p <> 12) ->
  Forall (kept (fun t => Ok t) (fun t => Ok t) secret) l -> (forall p t, In p l -> created p t -> shown_once z t) ->
  exists o, from_packets (local_in z) magic secret l = Ok o /\ to_packets (mktime_by mk) o = Ok l.
Proof.
  intros R V N K O. apply c39_round_trip_partial; [exact V|exact N|]. apply Forall_forall. intros p I. rewrite Forall_forall in K. specialize (K p I). pose proof (O p) as Op. specialize (fun t => Op t I).
  assert (T : forall k, kept_key (fun t => Ok t) (fun t => Ok t) k -> shown_once z (k_ctime k) -> kept_key (local_in z) (mktime_by mk) k).
  { intros k (A & B & _) S. split; [exact A|]. split; [exact B|]. exists (shown z (k_ctime k) * 1000000). split; [reflexivity|]. unfold mktime_by. rewrite Z.div_mul by lia. destruct (R (k_ctime k)) as (t' & M & E). rewrite (S t' E) in M. exact M. }
  unfold kept in *. unfold created in Op. destruct (p_body p); try exact K.
  - destruct K as (K1 & K2 & K3). split; [exact K1|]. split; [exact (T _ K2 (Op _ eq_refl))|exact K3].
  - destruct K as (K1 & K2). split; [exact K1|exact (T _ K2 (Op _ eq_refl))].
Qed.
Print Assumptions c107_key_partial.

(** which instants are shown once: all of them if the clock is never set back; if it is set back by a - b seconds at T, those that are not within
    a - b seconds of T *)
Theorem c107_shown_once T a b t : shown_once (turned T a b) t <-> (a <= b \/ t < T - (a - b) \/ T + (a - b) <= t).
Proof.
  unfold shown_once, shown, turned. split.
  - intros H. destruct (Z_le_gt_dec a b) as [L|G]; [now left|]. destruct (Z_lt_ge_dec t (T - (a - b))) as [L|L]; [right; now left|]. destruct (Z_lt_ge_dec t (T + (a - b))) as [U|U]; [|right; right; lia].
    exfalso. destruct (t <? T) eqn:E.
    + specialize (H (t + (a - b))). replace (t + (a - b) <? T) with false in H by lia. lia.
    + specialize (H (t - (a - b))). replace (t - (a - b) <? T) with true in H by lia. lia.
  - intros H t' E. destruct (t <? T) eqn:E1, (t' <? T) eqn:E2; lia.
Qed.
Print Assumptions c107_shown_once.
Theorem c107_constant o t : shown_once (fun _ => o) t.
Proof. unfold shown_once, shown. intros t' E. lia. Qed.
Print Assumptions c107_constant.

(** Whatever mktime does: of two keys made when the clock showed the same time, one is written with another creation time, so it has another fingerprint
    (unless SHA-1 collides) *)
Lemma dated_content fl k : 4 <= k_version k -> (exists t c, pub_content fl (dated k t) = Ok c) -> exists v r, forall t, pub_content fl (dated k t) = Ok (v ++ int_to_4byte t ++ r).
Proof.
  intros V (t & c & E). unfold pub_content in *. cbn [dated k_version k_exp k_alg k_ctime k_n k_e k_p k_q k_g k_y] in *. replace (is_v23 (k_version k)) with false in * by (unfold is_v23; lia).
  destruct (mk_bytes [k_version k]) as [v|]; [|discriminate E]. cbn [bind app] in *. destruct (mk_bytes [k_alg k]) as [a|]; [|discriminate E]. cbn [bind] in *. exists v.
  destruct (is_rsa_alg (k_alg k)).
  - destruct (opt_mpi fl (k_n k)) as [x1|]; [|discriminate E]. cbn [bind] in *. destruct (opt_mpi fl (k_e k)) as [x2|]; [|discriminate E]. exists (a ++ x1 ++ x2). intros t'. cbn [bind]. now rewrite <- !app_assoc.
  - destruct (is_elg_alg (k_alg k)).
    + destruct (opt_mpi fl (k_p k)) as [x1|]; [|discriminate E]. cbn [bind] in *. destruct (opt_mpi fl (k_g k)) as [x2|]; [|discriminate E]. cbn [bind] in *. destruct (opt_mpi fl (k_y k)) as [x3|]; [|discriminate E].
      exists (a ++ x1 ++ x2 ++ x3). intros t'. cbn [bind]. now rewrite <- !app_assoc.
    + destruct (k_alg k =? 17); [|discriminate E]. destruct (opt_mpi fl (k_p k)) as [x1|]; [|discriminate E]. cbn [bind] in *. destruct (opt_mpi fl (k_q k)) as [x2|]; [|discriminate E]. cbn [bind] in *.
      destruct (opt_mpi fl (k_g k)) as [x3|]; [|discriminate E]. cbn [bind] in *. destruct (opt_mpi fl (k_y k)) as [x4|]; [|discriminate E]. exists (a ++ x1 ++ x2 ++ x3 ++ x4). intros t'. cbn [bind]. now rewrite <- !app_assoc.
Qed.
Lemma four_inj a b : 0 <= a < 2 ^ 32 -> 0 <= b < 2 ^ 32 -> int_to_4byte a = int_to_4byte b -> a = b.
Proof.
  intros A B E. rewrite (int_to_4byte_be a), (int_to_4byte_be b) in E. apply (f_equal be_val) in E. rewrite (be_bytes_val 4 a), (be_bytes_val 4 b) in E. change (256 ^ Z.of_nat 4) with (2 ^ 32) in E. rewrite (Z.mod_small a), (Z.mod_small b) in E by assumption. exact E.
Qed.
Lemma key_alone z magic f k t : from_packets (local_in z) magic false [Pkt f (BPub false (dated k t))] = Ok (TKey false (KObject f (dated k t) (shown z t * 1000000) None None) [] [] [] []).
Proof.
  unfold from_packets. assert (V : validate_key false [Pkt f (BPub false (dated k t))] = Ok tt) by reflexivity. rewrite V. cbn [bind key_from p_body p_fmt]. unfold key_from_pub. cbn [dated k_ctime k_version k_exp].
  destruct (k_version k <? 4); reflexivity.
Qed.
Theorem c107_key_refuted z mk magic fl md5 sha1 f k t1 t2 : shown z t1 = shown z t2 -> t1 <> t2 -> 4 <= k_version k -> 0 <= t1 < 2 ^ 32 -> 0 <= t2 < 2 ^ 32 -> (forall d, wf (sha1 d)) ->
  (exists c, pub_content fl (dated k t1) = Ok c) -> (forall w t, mk w = Ok t -> 0 <= t < 2 ^ 32) ->
  exists t o, In t [t1; t2] /\ from_packets (local_in z) magic false [Pkt f (BPub false (dated k t))] = Ok o /\
  forall l, to_packets (mktime_by mk) o = Ok l -> exists t', t' <> t /\ l = [Pkt f (BPub false (dated k t'))] /\
  forall g, fingerprint fl md5 sha1 (dated k t) = Ok g -> key_fingerprint (mktime_by mk) fl md5 sha1 o = Ok g -> exists a b, a <> b /\ sha1 a = sha1 b.
Proof.
  intros S N V B1 B2 W C M.
  assert (X : exists t, In t [t1; t2] /\ mk (shown z t1) <> Ok t).
  { destruct (mk (shown z t1)) as [t0|e]; [|exists t1; split; [now left|discriminate]]. destruct (Z.eq_dec t0 t1) as [->|E]; [exists t2; split; [right; now left|congruence]|exists t1; split; [now left|congruence]]. }
  destruct X as (t & I & X). exists t. eexists. split; [exact I|]. split; [apply key_alone|]. intros l T.
  assert (Sh : shown z t = shown z t1) by (cbn in I; destruct I as [<-|[<-|[]]]; [reflexivity|now symmetry]).
  assert (Bt : 0 <= t < 2 ^ 32) by (cbn in I; destruct I as [<-|[<-|[]]]; assumption).
  assert (MK : mktime_by mk (shown z t * 1000000) = mk (shown z t1)) by (unfold mktime_by; rewrite Z.div_mul by lia; now rewrite Sh).
  unfold to_packets in T. cbn [tk_key tk_sigs tk_uids tk_attrs tk_subs mapM bind concat app] in T. unfold key_to in T. cbn [ko_created ko_pub ko_expires ko_sec ko_fmt dated k_version] in T.
  rewrite MK in T. destruct (mk (shown z t1)) as [t'|e] eqn:E; [|discriminate T]. cbn [bind] in T. replace (k_version k <? 4) with false in T by lia. cbn [andb bind] in T. apply ok_inj in T.
  exists t'. split; [congruence|]. split; [symmetry; exact T|]. intros g G1 G2.
  unfold key_fingerprint in G2. cbn [tk_key] in G2. unfold key_to in G2. cbn [ko_created ko_pub ko_expires ko_sec ko_fmt dated k_version] in G2. rewrite MK in G2. cbn [bind] in G2. replace (k_version k <? 4) with false in G2 by lia. cbn [andb bind p_body] in G2.
  change (fingerprint fl md5 sha1 (dated k t') = Ok g) in G2. destruct (dated_content fl k V) as (v & r & D); [destruct C as (c & C); eauto|].
  unfold fingerprint in G1, G2. rewrite D in G1, G2. cbn [dated k_version] in G1, G2. replace (k_version k <? 4) with false in * by lia. cbn [bind] in G1, G2. unfold hexdigest in G1, G2. rewrite bytearray_to_hex_all in G1, G2 by apply W. apply ok_inj in G1, G2.
  rewrite <- G1 in G2. apply hex_text_inj in G2; [|apply W|apply W]. do 2 eexists. split; [|exact G2]. intros Q. rewrite (hash_key_rfc (v ++ int_to_4byte t' ++ r)), (hash_key_rfc (v ++ int_to_4byte t ++ r)) in Q. apply rfc_hash_key_inj in Q. apply app_inv_head in Q. apply app_inv_tail in Q. apply four_inj in Q; [|exact (M _ _ E)|exact Bt]. congruence.
Qed.
Print Assumptions c107_key_refuted.

(** Central Europe, the night of 27 October 2013: the clock was set back by an hour at 01:00 UTC. The key was made at 01:10 UTC, and mktime prefers summer time. *)
Definition berlin : zone := turned 1382835600 7200 3600.
Definition berlin_mktime (w : Z) : res Z := Ok (if w <? 1382835600 + 7200 then w - 7200 else w - 3600).
Lemma berlin_resolves : resolves berlin berlin_mktime.
Proof.
  intros t. unfold berlin_mktime, shown, berlin, turned. destruct (t <? 1382835600) eqn:E.
  - exists t. replace (t + 7200 <? 1382835600 + 7200) with true by lia. split; [f_equal; lia|]. now rewrite E.
  - destruct (t + 3600 <? 1382835600 + 7200) eqn:F; eexists; (split; [reflexivity|]).
    + replace (t + 3600 - 7200 <? 1382835600) with true by lia. lia.
    + replace (t + 3600 - 3600 <? 1382835600) with false by lia. lia.
Qed.
Definition zk (t : Z) : pkt := Pkt NewH (BPub false (dated (PubKey 4 0 1 None (Some 3233) (Some 17) None None None None) t)).
Example c107_berlin_ex : (do o <- from_packets (local_in berlin) (fun _ => []) false [zk 1382836200];; to_packets (mktime_by berlin_mktime) o) = Ok [zk (1382836200 - 3600)] /\
  (do o <- from_packets (local_in berlin) (fun _ => []) false [zk 1382832600];; to_packets (mktime_by berlin_mktime) o) = Ok [zk 1382832600] /\
  (do o <- from_packets (local_in berlin) (fun _ => []) false [zk 1382839300];; to_packets (mktime_by berlin_mktime) o) = Ok [zk 1382839300].
Proof. split; [vm_compute; reflexivity|]. split; [vm_compute; reflexivity|vm_compute; reflexivity]. Qed.
Example c107_key_ex : validate_key false [zk 1382839300] = Ok tt /\ Forall (kept (fun t => Ok t) (fun t => Ok t) false) [zk 1382839300] /\ (forall p t, In p [zk 1382839300] -> created p t -> shown_once berlin t) /\
  shown berlin 1382836200 = shown berlin 1382832600 /\ exists c, pub_content Z.log2 (dated (PubKey 4 0 1 None (Some 3233) (Some 17) None None None None) 1382836200) = Ok c.
Proof.
  split; [reflexivity|]. split; [constructor; [|constructor]; split; [reflexivity|]; split; [cbn; lia|]; split; [reflexivity|]; eexists; split; reflexivity|].
  split; [intros p t [<-|[]] C; cbn in C; subst t; apply c107_shown_once; lia|]. split; [vm_compute; reflexivity|]. eexists. vm_compute. reflexivity.
Qed.
