(** Lemmas behind the theorems of [P_Framing]. *)
From Verif Require Import Base BaseProofs Spec Utils UtilsProofs Framing SpecFraming FramingProofs.

Lemma c08_round_trip (p : raw_packet) (pre suf : bytes) : representable p -> pcontent p <> [] ->
  exists enc, packet_bytes p = Ok enc /\ rfc_packet false p enc /\
    raw_from_data (pre ++ enc ++ suf) (zlen pre) = Ok (zlen (pre ++ enc), p).
Proof.
  intros Hr Hn. destruct (packet_bytes_conforms p Hr ltac:(auto)) as (enc & E & R).
  exists enc. split; [easy|]. split; [easy|]. now apply raw_from_data_rfc with false.
Qed.
Lemma c08_old_big_type : exists p enc p' o,
  hfmt p = OldH /\ ptype p = 17 /\ packet_bytes p = Ok enc /\ raw_from_data enc 0 = Ok (o, p') /\
  hfmt p' = NewH /\ ptype p' <> 17.
Proof.
  exists (Raw OldH 17 [1; 2]), [196; 2; 1; 2], (Raw NewH 4 [1; 2]), 4.
  repeat (split; [vm_compute; reflexivity|]). discriminate.
Qed.
Lemma c09_old t pre suf : 0 <= t <= 15 ->
  exists enc, packet_bytes (Raw OldH t []) = Ok enc /\
    raw_from_data (pre ++ enc ++ suf) (zlen pre) = Ok (zlen (pre ++ enc), Raw OldH t []).
Proof.
  intros Ht. destruct (packet_bytes_conforms (Raw OldH t [])) as (enc & E & R).
  - split; [exact Ht|reflexivity].
  - discriminate.
  - exists enc. split; [easy|]. now apply raw_from_data_rfc with false.
Qed.
Lemma c09_new t : 0 <= t <= 63 -> packet_bytes (Raw NewH t []) = Ok [192 + t] /\
  raw_from_data [192 + t] 0 = Err IndexError /\
  (forall enc, rfc_packet false (Raw NewH t []) enc -> enc <> [192 + t]).
Proof.
  intros Ht. split; [now apply packet_bytes_empty_new|]. split.
  - unfold raw_from_data. rewrite pfd_loop_none, get_cons_0. cbn [bind].
    rewrite land_64_byte by (unfold byte; lia). dif; [lia|]. reflexivity.
  - intros enc H E. inversion H as [t0 b0 l H0 Hl| |]; subst.
    match goal with Hq : _ :: _ ++ [] = _ |- _ => injection Hq as Eq end.
    apply app_eq_nil in Eq as [-> _]. inversion Hl.
Qed.
Lemma c09_swallows : exists ps encs,
  (forall p, In p ps -> representable p) /\ mapM packet_bytes ps = Ok encs /\
  fst (parse_binary_packet_data (fun r => Ok r) (concat encs)) <> ps.
Proof.
  exists [Raw NewH 12 []; Raw OldH 13 [65; 66]], [[204]; [180; 2; 65; 66]].
  split. { intros p [<-|[<-|[]]]; vm_compute; repeat split; congruence. }
  split; [vm_compute; reflexivity|]. vm_compute. discriminate.
Qed.
Lemma c10_concat {A} (dec : raw_packet -> res A) (ps : list raw_packet) (objs : list A) :
  (forall p, In p ps -> representable p /\ pcontent p <> []) -> mapM dec ps = Ok objs ->
  exists encs, mapM packet_bytes ps = Ok encs /\ parse_binary_packet_data dec (concat encs) = (objs, None).
Proof.
  intros H Ho. destruct (mapM_packet_bytes ps) as (encs & E & R).
  - intros p Hp. destruct (H p Hp). auto.
  - exists encs. split; [easy|]. eapply parse_rfc_packets; eauto.
Qed.
Lemma parse_stream_rfc {A} (dec : raw_packet -> res A) ps : forall encs objs fuel,
  Forall2 (rfc_packet false) ps encs -> mapM dec ps = Ok objs -> (length (concat encs) < fuel)%nat ->
  parse_stream_loop fuel dec (concat encs) = (objs, None).
Proof.
  induction ps as [|p ps IH]; intros encs objs fuel Hr Ho Hf; inversion Hr as [|? enc ? encs' Hp Hps]; subst.
  - destruct fuel; [cbn in Hf; lia|]. injection Ho as <-. reflexivity.
  - destruct fuel as [|fuel]; [lia|]. cbn [mapM] in Ho. apply bind_ok in Ho as (o & Ho & Hos).
    apply bind_ok in Hos as (os & Hos & E). injection E as <-.
    cbn [concat parse_stream_loop]. pose proof (rfc_packet_len _ _ _ Hp) as Hlen.
    destruct (enc ++ concat encs') as [|b0 s0] eqn:Es.
    { apply app_eq_nil in Es as [-> _]. change (zlen (@nil Z)) with 0 in Hlen. lia. }
    rewrite <- Es. rewrite (packet_from_stream_rfc dec p enc _ Hp), Ho. cbn [bind].
    rewrite (IH encs' os); [reflexivity|easy|easy|]. cbn [concat] in Hf. rewrite app_length in Hf. unfold zlen in Hlen. lia.
Qed.
Lemma c10_stream {A} (dec : raw_packet -> res A) (ps : list raw_packet) (objs : list A) :
  (forall p, In p ps -> representable p /\ pcontent p <> []) -> mapM dec ps = Ok objs ->
  exists encs, mapM packet_bytes ps = Ok encs /\ parse_binary_packet_stream dec (concat encs) = (objs, None).
Proof.
  intros H Ho. assert (HF : exists encs, mapM packet_bytes ps = Ok encs /\ Forall2 (rfc_packet false) ps encs).
  { clear Ho. induction ps as [|p ps IH]; [exists []; split; [reflexivity|constructor]|].
    destruct IH as (encs & E & R); [intros; apply H; now right|].
    destruct (H p (or_introl eq_refl)) as [Hr Hn].
    destruct (packet_bytes_conforms p Hr ltac:(auto)) as (enc & Ep & Rp).
    exists (enc :: encs). cbn [mapM]. rewrite Ep. cbn [bind]. rewrite E. split; [reflexivity|]. now constructor. }
  destruct HF as (encs & E & R). exists encs. split; [easy|]. unfold parse_binary_packet_stream.
  eapply parse_stream_rfc; eauto.
Qed.
Lemma c11_total {A} (dec : raw_packet -> res A) (data : bytes) : wf data -> (forall r, dec r <> Err OutOfFuel) ->
  snd (parse_binary_packet_data dec data) <> Some OutOfFuel /\
  zlen (fst (parse_binary_packet_data dec data)) <= zlen data.
Proof.
  intros Hw Hd. unfold parse_binary_packet_data.
  pose proof (parse_loop_total dec data Hw Hd (S (length data)) 0) as H.
  destruct (parse_loop _ dec data 0) as [ps e]. cbn [fst snd]. pose proof (zlen_nonneg data).
  destruct H as [H1 H2]; [lia|unfold zlen; lia|lia|]. split; [easy|lia].
Qed.
Lemma c12_refuted : exists p enc p',
  representable p /\ packet_bytes p = Ok enc /\
  parse_binary_packet_data (fun r => Ok r) (removelast enc) = ([p'], None) /\ p' <> p.
Proof.
  exists (Raw NewH 13 [65; 66; 67]), [205; 3; 65; 66; 67], (Raw NewH 13 [65; 66]).
  split; [vm_compute; repeat split; congruence|]. split; [vm_compute; reflexivity|]. split; [vm_compute; reflexivity|discriminate].
Qed.
Lemma c13_agrees {A} (dec : raw_packet -> res A) p enc suf : rfc_packet false p enc ->
  packet_from_packet_stream dec (enc ++ suf) = (do o <- dec p;; Ok (o, suf)) /\
  packet_from_packet_data dec (enc ++ suf) 0 = (do o <- dec p;; Ok (zlen enc, o)).
Proof.
  intros H. split; [now apply packet_from_stream_rfc|]. unfold packet_from_packet_data.
  pose proof (raw_from_data_rfc false p enc [] suf H) as E. cbn [app] in E. change (zlen []) with 0 in E. rewrite E.
  reflexivity.
Qed.
Lemma c13_indeterminate : exists data r,
  packet_from_packet_data (fun r => Ok r) data 0 = Ok (zlen data, r) /\
  packet_from_packet_stream (fun r => Ok r) data = Err ValueError.
Proof. exists [183; 65; 66], (Raw OldH 13 [65; 66]). split; vm_compute; reflexivity. Qed.
Lemma c14_buffer t body enc pre suf : 0 < t <= 63 -> rfc_new_body body enc ->
  raw_from_data (pre ++ (192 + t :: enc) ++ suf) (zlen pre) = Ok (zlen (pre ++ 192 + t :: enc), Raw NewH t body).
Proof. intros Ht H. apply raw_from_data_rfc with true. now constructor. Qed.
Lemma c14_stream : exists p enc,
  rfc_packet true p enc /\ packet_from_packet_data (fun r => Ok r) enc 0 = Ok (zlen enc, p) /\
  packet_from_packet_stream (fun r => Ok r) enc = Err ValueError.
Proof.
  exists (Raw NewH 11 [1; 2; 3]), [203; 225; 1; 2; 1; 3]. split; [|split; vm_compute; reflexivity].
  apply (rp_new_partial 11 [1;2;3] [225;1;2;1;3]); [lia|].
  apply (nb_part 1 [1;2] [3] [1;3]); [lia|reflexivity|]. apply (nb_last [3] [1]). apply (nl_one 1). lia.
Qed.
Lemma c15_diverges t body : is_data_type t = true -> 4294967295 < zlen body ->
  forall fuel, packet_bytes_fuel fuel (Raw NewH t body) = Err OutOfFuel.
Proof. intros. now apply packet_bytes_diverges. Qed.
