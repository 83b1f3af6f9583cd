(** C34, for any list of subpacket objects: what is written is an area of their types, criticalities and contents, and it is read back as such. *)
From Verif Require Import Base BaseProofs Spec SpecUtf8 SpecFraming SpecKey SpecSig Utils S2k SigPackets FramingProofs CodecProofs KeyProofs SigProofs P_Sig.

Lemma frame_inv ty c d b : sub_frame ty c d = Ok b -> 0 <= ty < 128 -> rfc_sub ty c d b.
Proof.
  intros H T. unfold sub_frame in H. apply bind_ok in H as ([l p] & E & H). assert (B : zlen d < 4294967295).
  { destruct (Z_lt_le_dec (zlen d) 4294967295) as [Q|Q]; [exact Q|]. rewrite (c06_rejects (zlen d + 1)) in E by lia. discriminate. }
  pose proof (zlen_nonneg d). destruct (new_length_conforms (zlen d + 1) false) as (l' & E' & W & R); [unfold MAX_PACKET_LENGTH; lia|].
  rewrite E in E'. apply ok_inj in E'. injection E' as -> _. cbn [bind] in H. rewrite mk_bytes_wf in H by (repeat constructor; unfold byte; destruct c; lia). cbn [bind] in H. apply ok_inj in H as <-.
  split; [exact T|]. exists l'. split; [exact R|reflexivity].
Qed.

(** The area written is that of RFC 4880 for the types, the criticalities and the contents of the subpackets. *)
Theorem c34_written_area : forall fl l a, Forall (fun s => 0 <= sub_type s < 128) l -> subs_bytes fl l = Ok a -> exists ts encs,
  a = concat encs /\ rfc_area ts encs /\ Forall2 (fun s t => fst t = (sub_type s, sub_critical s) /\ sub_content fl (sub_body s) = Ok (snd t)) l ts.
Proof.
  intros fl. induction l as [|[ty c b] l IH]; intros a F H; cbn [subs_bytes] in H.
  - apply ok_inj in H as <-. exists [], []. split; [reflexivity|]. split; constructor.
  - apply bind_ok in H as (x & Hx & H). apply bind_ok in H as (r & Hr & H). apply ok_inj in H as <-. pose proof (Forall_inv F) as T. apply Forall_inv_tail in F. cbn [sub_type] in T.
    destruct (IH r F Hr) as (ts & encs & -> & A & C). unfold sub_bytes in Hx. apply bind_ok in Hx as (d & Hd & Hx).
    exists ((ty, c, d) :: ts), (x :: encs). split; [reflexivity|]. split; constructor; try assumption.
    + cbn [fst snd]. exact (frame_inv ty c d x Hx T).
    + cbn [fst snd sub_type sub_critical sub_body]. split; [reflexivity|exact Hd].
Qed.
Print Assumptions c34_written_area.

(** However the area written is read, at whatever place: all of it is consumed and nothing beyond, there is one subpacket for each one written, with its type and critical bit, made from the content that one wrote; it is refused exactly when the class of one of them does not read that content. *)
Theorem c34_any_list : forall fl l a, Forall (fun s => 0 <= sub_type s < 128) l -> subs_bytes fl l = Ok a ->
  forall emb pre suf fuel, (length l < fuel)%nat ->
  exists contents, Forall2 (fun s d => sub_content fl (sub_body s) = Ok d) l contents /\
  let read := sub_loop fuel emb (pre ++ a ++ suf) (zlen pre) (zlen pre + zlen a) [] in
  (forall ss o, read = Ok (ss, o) <-> o = zlen pre + zlen a /\ map sub_type ss = map sub_type l /\ map sub_critical ss = map sub_critical l /\
     Forall2 (fun s d => subbody_from emb (sub_type s) d = Ok (sub_body s)) ss contents).
Proof.
  intros fl l a F H emb pre suf fuel N. destruct (c34_written_area fl l a F H) as (ts & encs & -> & A & C). exists (map snd ts). split; [|].
  - clear -C. induction C as [|s t l ts [_ Q] _ IH]; constructor; assumption.
  - cbv zeta. assert (L : length l = length ts) by (clear -C; induction C; cbn [length]; congruence). rewrite (c34_area_read emb ts encs pre suf fuel A ltac:(lia)). intros ss o.
    assert (M : mapM (sub_of emb) ts = Ok ss <-> map sub_type ss = map sub_type l /\ map sub_critical ss = map sub_critical l /\ Forall2 (fun s d => subbody_from emb (sub_type s) d = Ok (sub_body s)) ss (map snd ts)).
    { clear -C. revert ss. induction C as [|s t l ts [Q _] _ IH]; intros ss.
      - cbn [mapM map]. split; [intros E; apply ok_inj in E as <-; repeat split; constructor|]. intros (E & _ & _). destruct ss; [reflexivity|discriminate].
      - destruct t as [[ty c] d]. cbn [fst] in Q. cbn [mapM]. unfold sub_of at 1. cbn [fst snd map]. split.
        + intros E. apply bind_ok in E as (x & Hx & E). apply bind_ok in Hx as (b & Hb & Hx). apply ok_inj in Hx as <-. apply bind_ok in E as (r & Hr & E). apply ok_inj in E as <-.
          apply IH in Hr as (H1 & H2 & H3). cbn [map sub_type sub_critical]. injection Q as -> ->. rewrite H1, H2. split; [reflexivity|]. split; [reflexivity|]. constructor; [exact Hb|exact H3].
        + intros (H1 & H2 & H3). destruct ss as [|[ty' c' b'] ss]; [discriminate H1|]. cbn [map sub_type sub_critical] in H1, H2. injection H1 as E1 H1. injection H2 as E2 H2. inversion H3 as [|? ? ? ? Hb H4]; subst. cbn [sub_type sub_body] in Hb.
          injection Q as -> ->. rewrite Hb. cbn [bind]. rewrite (proj2 (IH ss) (conj H1 (conj H2 H4))). reflexivity. }
    split.
    + intros E. apply bind_ok in E as (x & Hx & E). apply ok_inj in E. injection E as -> <-. apply M in Hx as (H1 & H2 & H3). repeat (split; [assumption || reflexivity|]). exact H3.
    + intros (-> & H1 & H2 & H3). rewrite (proj2 M (conj H1 (conj H2 H3))). reflexivity.
Qed.
Print Assumptions c34_any_list.

(** A type above 127 is written, but read as a critical subpacket of another type; a regular expression written by its class is not read by it (no final zero), and revocation keys and targets are not written at all. *)
Theorem c34_any_list_refuted : forall fl emb,
  (exists a, subs_bytes fl [Sub 149 false (SbAlgs [8])] = Ok a /\ sub_loop 9 emb a 0 (zlen a) [] = Ok ([Sub 21 true (SbAlgs [8])], zlen a)) /\
  (exists a, subs_bytes fl [Sub 6 false (SbRegex [97])] = Ok a /\ sub_loop 9 emb a 0 (zlen a) [] = Err AssertionError) /\
  (forall ty c f k s, subs_bytes fl [Sub ty c (SbRevKey f k s)] = Err TypeError) /\ (forall ty c k h x n, subs_bytes fl [Sub ty c (SbTarget k h x n)] = Err TypeError).
Proof.
  intros fl emb. split; [exists [2; 149; 8]; split; reflexivity|]. split; [exists [2; 6; 97]; split; reflexivity|]. split; reflexivity.
Qed.
Print Assumptions c34_any_list_refuted.
(** A list of three, among them a type no class is known for. *)
Example c34_any_example : let l := [Sub 27 true (SbFlags true false false false false false false); Sub 99 false SbUnknown; Sub 24 false (SbUri [120])] in
  Forall (fun s => 0 <= sub_type s < 128) l /\ subs_bytes Z.log2 l = Ok [2; 155; 1; 1; 99; 2; 24; 120].
Proof. split; [repeat apply Forall_cons; try apply Forall_nil; cbn; lia|reflexivity]. Qed.
