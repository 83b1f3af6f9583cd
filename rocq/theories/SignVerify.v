(** Proofs: what verify accepts, and that what sign produces is accepted. *)
From Verif Require Import Base BaseProofs Spec Utils UtilsProofs Text S2k KeyPackets SigPackets KeyProofs Signable KeyOps SpecVerify VerifyProofs SpecSigned SignedProofs.

Lemma zlist_in k l : existsb (zlist_eqb k) l = true <-> In k l.
Proof.
  rewrite existsb_exists. split.
  - intros (x & Hx & E). apply zlist_eqb_spec in E. now subst.
  - intros Hx. exists k. split; [exact Hx|]. now apply zlist_eqb_spec.
Qed.
Lemma mapM_in {A B} (f : A -> res B) l r b : mapM f l = Ok r -> (In b r <-> exists a, In a l /\ f a = Ok b).
Proof.
  revert r. induction l as [|x l IH]; intros r E; cbn [mapM] in E.
  - apply ok_inj in E. subst r. cbn. split; [easy|]. now intros (a & [] & _).
  - apply bind_ok in E as (y & Y & E). apply bind_ok in E as (ys & Ys & E). apply ok_inj in E. subst r.
    specialize (IH _ Ys). cbn [In]. rewrite IH. split.
    + intros [->|(a & Ha & Fa)]; [exists x|exists a]; auto.
    + intros (a & [->|Ha] & Fa); [left; congruence|right; eauto].
Qed.
Lemma issuer_ids_names s ids kid : issuer_key_ids s = Ok ids -> (In kid ids <-> names_issuer (so_hashed s) (so_unhashed s) kid).
Proof.
  unfold issuer_key_ids. destruct (so_version s <? 4); [discriminate|]. intros E. rewrite (mapM_in _ _ _ kid E).
  unfold names_issuer, get_subpackets, sub_key_id. split.
  - intros (a & Ha & Fa). apply filter_In in Ha as [Ha T]. destruct a as [ty c b]. cbn [sub_type sub_body] in *. apply Z.eqb_eq in T. subst ty.
    destruct b; try discriminate Fa. injection Fa as ->. eauto.
  - intros (c & Hc). exists (Sub 16 c (SbIssuer kid)). split; [|reflexivity]. apply filter_In. split; [exact Hc|reflexivity].
Qed.

Lemma slice_firstn {A} (l : list A) k : 0 <= k -> slice l 0 k = firstn (Z.to_nat k) l.
Proof. intros K. rewrite slice_firstn_skipn by lia. rewrite Z.sub_0_r. reflexivity. Qed.
Section SV.
Variables (fl : Z -> Z) (md5 sha1 : bytes -> bytes) (H : Z -> bytes -> bytes) (oid : Z -> bytes) (inv : Z -> Z -> Z) (elg : Z -> bytes -> list Z -> res bool).

Lemma verify_inv k s i : verify fl md5 sha1 H oid inv elg k s i = Ok true <->
  exists kid ids d t, obj_key_id fl md5 sha1 k = Ok kid /\ issuer_key_ids s = Ok ids /\ In kid ids /\ k_alg k = so_pk s /\
    key_obj_ok k = Ok tt /\ hash_supported (so_hash s) = true /\ item_signable fl i (so_version s) = Ok d /\
    sig_signable fl (so_version s) (so_type s) (so_pk s) (so_hash s) (so_hashed s) = Ok t /\
    slice (H (so_hash s) (d ++ t)) 0 2 = so_hash2 s /\
    verify_hash fl oid inv elg k (so_pk s) (so_hash s) (H (so_hash s) (d ++ t)) (so_values s) = Ok true.
Proof.
  unfold verify. split.
  - intros E. apply bind_ok in E as (kid & K & E). apply bind_ok in E as (ids & I & E).
    destruct (existsb (zlist_eqb kid) ids) eqn:X; cbn [negb] in E; [|discriminate].
    destruct (k_alg k =? so_pk s) eqn:A; cbn [negb] in E; [|discriminate].
    apply bind_ok in E as ([] & O & E). destruct (hash_supported (so_hash s)) eqn:Hs; cbn [negb] in E; [|discriminate].
    apply bind_ok in E as (d & D & E). apply bind_ok in E as (t & T & E). cbv zeta in E.
    destruct (zlist_eqb (slice (H (so_hash s) (d ++ t)) 0 2) (so_hash2 s)) eqn:Z2; cbn [negb] in E; [|discriminate].
    apply bind_ok in E as (b & B & E). destruct b; [|discriminate].
    apply zlist_in in X. apply zlist_eqb_spec in Z2. apply Z.eqb_eq in A. exists kid, ids, d, t. repeat (split; [assumption || reflexivity|]). assumption.
  - intros (kid & ids & d & t & K & I & X & A & O & Hs & D & T & Z2 & B).
    rewrite K, I. cbn [bind]. apply zlist_in in X. rewrite X. cbn [negb]. apply Z.eqb_eq in A. rewrite A. cbn [negb].
    rewrite O, Hs, D, T. cbn [bind negb]. apply zlist_eqb_spec in Z2. rewrite Z2. cbn [negb]. rewrite B. reflexivity.
Qed.

Notation good_number k := (library_numbers fl inv k).
Hypothesis oid_wf : forall ha, wf (oid ha).
Hypothesis H_wf : forall ha d, wf (H ha d).

Lemma verify_hash_valid k ha digest values : wf digest -> good_number k -> k_alg k <> 20 -> Forall (fun v => 0 <= v) values ->
  verify_hash fl oid inv elg k (k_alg k) ha digest values = Ok true ->
  pk_valid oid k ha digest values.
Proof.
  intros Wd (Gn & Gp & Gq) A20 V E. unfold verify_hash in E.
  destruct ((k_alg k =? 1) || (k_alg k =? 3)) eqn:A.
  - apply bind_ok in E as (v & Gv & E). destruct values as [|v0 rest]; [discriminate Gv|]. rewrite get_cons_0 in Gv. apply ok_inj in Gv. subst v0.
    destruct (k_n k) as [n|] eqn:N; [|discriminate]. destruct (k_e k) as [e|] eqn:Ee; [|discriminate].
    inversion V as [|? ? Hv _]; subst. apply rsa_verify_iff in E as (_ & em & R & S); [|now apply Gn|exact Hv|apply wf_app; auto].
    eapply valid_rsa; [|exact N|exact Ee| |exact R|exact S].
    + apply orb_prop in A as [A|A]; apply Z.eqb_eq in A; rewrite A; cbn; auto.
    + apply nbytes_octets. specialize (Gn n eq_refl). lia.
  - replace (k_alg k =? 20) with false in E by lia. destruct (k_alg k =? 17) eqn:A17; [|discriminate].
    destruct (k_p k) as [p|] eqn:P; [|discriminate]. destruct (k_q k) as [q|] eqn:Q; [|discriminate].
    destruct (k_g k) as [g|] eqn:G; [|discriminate]. destruct (k_y k) as [y|] eqn:Y; [|discriminate].
    apply bind_ok in E as (d0 & _ & E). cbv zeta in E. rewrite b2i in E. cbn [bind] in E.
    destruct values as [|r [|s [|]]]; try discriminate E. apply ok_inj in E.
    destruct (Gq q eq_refl) as (Q1 & Qf & Qi). specialize (Gp p eq_refl). assert (Qp : 0 < q) by (clear - Q1; lia). apply Z.eqb_eq in A17.
    apply dsa_verify_iff in E as (Hr & Hs & w & W & Eq); [|assumption|assumption|assumption].
    eapply (valid_dsa oid k ha digest p q g y (nbytes q) w); try eassumption; [apply nbytes_octets; exact Qp|].
    unfold qbytes in Eq. rewrite Qf in Eq. change (ceil8 (Z.log2 q + 1)) with (nbytes q) in Eq.
    rewrite slice_firstn in Eq; [exact Eq|]. pose proof (nbytes_octets q Qp) as [_ K]. clear - K. lia.
Qed.
Lemma verify_hash_complete k ha digest values : wf digest -> digest <> [] -> good_number k -> Forall (fun v => 0 <= v) values ->
  pk_valid oid k ha digest values ->
  (forall n s rest, In (k_alg k) [1; 3] -> k_n k = Some n -> values = s :: rest -> 256 ^ (nbytes n - 1) <= s < 256 ^ nbytes n) ->
  verify_hash fl oid inv elg k (k_alg k) ha digest values = Ok true.
Proof.
  intros Wd Dn (Gn & Gp & Gq) V R L. unfold verify_hash. destruct R as [n e kb em s rest A N E ON R S|p q g y qb w r s A P Q G Y ON Hr Hs W Eq].
  - assert (A' : (k_alg k =? 1) || (k_alg k =? 3) = true). { cbn [In] in A. lia. } rewrite A', get_cons_0, N, E. cbn [bind].
    inversion V as [|? ? Hv _]; subst. apply rsa_verify_iff; [now apply Gn|exact Hv|apply wf_app; auto|].
    specialize (L n s rest A N eq_refl). split; [left; exact L|]. exists em. split; [|exact S].
    replace (nbytes n) with kb; [exact R|]. apply (octets_unique n); [exact ON|apply nbytes_octets]. specialize (Gn n N). lia.
  - rewrite A. change (17 =? 1) with false. change (17 =? 3) with false. change (17 =? 20) with false. change (17 =? 17) with true. cbn [orb].
    rewrite P, Q, G, Y. destruct (Gq q Q) as (Q1 & Qf & Qi). specialize (Gp p P). assert (Qp : 0 < q) by (clear - Q1; lia).
    destruct digest as [|d0 dr]; [easy|]. rewrite get_cons_0. cbn [bind]. cbv zeta. rewrite b2i. cbn [bind]. f_equal.
    apply dsa_verify_iff; [assumption|assumption|assumption|]. split; [exact Hr|]. split; [exact Hs|]. exists w. split; [exact W|].
    assert (Eb : qb = nbytes q). { apply (octets_unique q); [exact ON|apply nbytes_octets; exact Qp]. }
    unfold qbytes. rewrite Qf. change (ceil8 (Z.log2 q + 1)) with (nbytes q). rewrite slice_firstn; [rewrite <- Eb; exact Eq|].
    pose proof (nbytes_octets q Qp) as [_ K]. clear - K. lia.
Qed.

Lemma full_size_bounds k n s rest : full_size k (s :: rest) -> In (k_alg k) [1; 3] -> k_n k = Some n -> 1 < n ->
  256 ^ (nbytes n - 1) <= s < 256 ^ nbytes n.
Proof.
  unfold full_size. intros F A N N1. rewrite N in F. destruct F as [F|(kb & On & Os)].
  - rewrite F in A. cbn [In] in A. lia.
  - rewrite (octets_unique n (nbytes n) kb); [apply Os|apply nbytes_octets; lia|exact On].
Qed.
Hypothesis H_ne : forall ha d, H ha d <> [].
Lemma sign_inv locked k sec nonce now i raw st ha given s l :
  sign fl md5 sha1 H oid inv locked k sec nonce now i raw 4 st ha given = Ok (s, l) ->
  exists kid d t vs, locked = false /\ key_obj_ok k = Ok tt /\ hash_supported ha = true /\ item_signable fl i 4 = Ok d /\ obj_key_id fl md5 sha1 k = Ok kid /\
    sig_signable fl 4 st (k_alg k) ha (Sub 16 false (SbIssuer kid) :: Sub 2 false (SbTime now) :: given) = Ok t /\
    sign_hash fl oid inv k sec nonce (k_alg k) ha (H ha (d ++ t)) = Ok vs /\
    s = SigObj 4 st (k_alg k) ha (slice (H ha (d ++ t)) 0 2) vs (Sub 16 false (SbIssuer kid) :: Sub 2 false (SbTime now) :: given) [].
Proof.
  unfold sign. destruct locked; [discriminate|]. intros E. apply bind_ok in E as ([] & O & E).
  destruct (hash_supported ha) eqn:Hs; cbn [negb] in E; [|discriminate].
  apply bind_ok in E as (d & D & E). apply bind_ok in E as (kid & K & E). change (4 =? 4) with true in E. cbv iota zeta in E.
  destruct (raw && negb (zlen d =? 0)); [discriminate|].
  apply bind_ok in E as (t & T & E). apply bind_ok in E as (vs & V & E). injection E as E _.
  exists kid, d, t, vs. repeat (split; [assumption || reflexivity|]). symmetry. exact E.
Qed.
Lemma sign_hash_valid k sec nonce ha digest vs : wf digest -> good_number k -> keypair k sec ->
  sign_hash fl oid inv k sec nonce (k_alg k) ha digest = Ok vs -> Forall (fun v => 0 <= v) vs /\
  (k_alg k = 17 -> Forall (fun v => v <> 0) vs) -> pk_valid oid k ha digest vs.
Proof.
  intros Wd (Gn & Gp & Gq) KP E [NN NZ]. unfold sign_hash in E. destruct KP as [n e d A N Ee RSA|p q g x A P Q G Y Go X].
  - assert (A' : (k_alg k =? 1) || (k_alg k =? 3) = true) by (cbn [In] in A; lia). rewrite A', N in E.
    apply bind_ok in E as (s & S & E). apply ok_inj in E. subst vs. unfold rsa_sign in S. apply bind_ok in S as (em & Em & S).
    rewrite b2i in S. cbn [bind] in S. apply ok_inj in S. specialize (Gn n N). assert (N0 : n <> 0) by (clear - Gn; lia).
    rewrite Zpow_mod_correct in S by exact N0.
    assert (B : 0 <= be_val em < n). { eapply emsa_val; [clear - Gn; lia| |exact Em]. apply wf_app. auto. }
    apply emsa_rfc in Em. eapply valid_rsa; [exact A|exact N|exact Ee|apply nbytes_octets; clear - Gn; lia|exact Em|]. rewrite <- S. now apply RSA.
  - rewrite A in E. change (17 =? 1) with false in E. change (17 =? 3) with false in E. change (17 =? 17) with true in E. cbn [orb] in E.
    rewrite P, Q, G in E. cbv zeta in E. rewrite b2i in E. cbn [bind] in E.
    destruct (Gq q Q) as (Q1 & Qf & Qi). specialize (Gp p P). assert (Qp : 0 < q) by (clear - Q1; lia). assert (P0 : p <> 0) by (clear - Gp; lia).
    unfold qbytes in E. rewrite Qf in E. change (ceil8 (Z.log2 q + 1)) with (nbytes q) in E.
    pose proof (nbytes_octets q Qp) as ON. rewrite slice_firstn in E by (destruct ON as [_ K]; clear - K; lia).
    set (m := be_val (firstn (Z.to_nat (nbytes q)) digest)) in *.
    assert (M : 0 <= m). { apply be_val_nonneg. rewrite <- (firstn_skipn (Z.to_nat (nbytes q)) digest) in Wd. apply Forall_app in Wd. apply Wd. }
    unfold dsa_sign in E. destruct ((nonce <=? 1) || (q <=? nonce)) eqn:Kr; [discriminate|].
    assert (Kn : 0 < nonce < q) by (clear - Kr; lia). apply ok_inj in E. rewrite Zpow_mod_correct in E by exact P0.
    specialize (NZ A). rewrite <- E in NN, NZ. subst vs.
    inversion NN as [|? ? R0 NN']; subst. inversion NN' as [|? ? S0 _]; subst. inversion NZ as [|? ? Rz NZ']; subst. inversion NZ' as [|? ? Sz _]; subst.
    set (r := (g ^ nonce mod p) mod q) in *. set (s := (inv nonce q * (m + x * r)) mod q) in *.
    assert (Rb : 0 < r < q). { split; [clear - R0 Rz; lia|]. apply Z.mod_pos_bound. exact Qp. }
    assert (Sb : 0 < s < q). { split; [clear - S0 Sz; lia|]. apply Z.mod_pos_bound. exact Qp. }
    eapply (valid_dsa oid k ha digest p q g _ (nbytes q) (inv s q)); try eassumption; [now apply Qi|].
    apply (dsa_correct p q g x m nonce (inv s q) (inv nonce q)); try assumption; [now apply Qi|now apply Qi].
Qed.
Lemma mapM_all {A B} (f : A -> res B) l : (forall a, In a l -> exists b, f a = Ok b) -> exists r, mapM f l = Ok r.
Proof.
  induction l as [|a l IH]; intros Hl; [eexists; reflexivity|]. destruct (Hl a (or_introl eq_refl)) as (b & Eb).
  destruct IH as (r & R); [intros x Hx; apply Hl; now right|]. exists (b :: r). cbn [mapM]. rewrite Eb, R. reflexivity.
Qed.
Lemma sign_then_verify locked k sec nonce now i raw st ha given s l : good_number k -> keypair k sec ->
  (forall c b, In (Sub 16 c b) given -> exists kid, b = SbIssuer kid) ->
  sign fl md5 sha1 H oid inv locked k sec nonce now i raw 4 st ha given = Ok (s, l) ->
  Forall (fun v => 0 <= v) (so_values s) -> (k_alg k = 17 -> Forall (fun v => v <> 0) (so_values s)) -> full_size k (so_values s) ->
  verify fl md5 sha1 H oid inv elg k s i = Ok true.
Proof.
  intros G KP Iss E. apply sign_inv in E as (kid & d & t & vs & -> & O & Hs & D & K & T & V & ->). cbn [so_values]. intros NN NZ F.
  destruct (mapM_all sub_key_id (get_subpackets 16 (Sub 16 false (SbIssuer kid) :: Sub 2 false (SbTime now) :: given) [])) as (ids & Ids).
  { intros [ty c b] Ha. apply filter_In in Ha as [Ha Ty]. cbn [sub_type] in Ty. apply Z.eqb_eq in Ty. subst ty. unfold sub_key_id. cbn [sub_body].
    rewrite app_nil_r in Ha. destruct Ha as [Ha|[Ha|Ha]]; [injection Ha as _ <-; eauto|discriminate Ha|].
    destruct (Iss c b Ha) as (kid' & ->). eauto. }
  apply verify_inv. exists kid, ids, d, t. cbn [so_version so_type so_pk so_hash so_hash2 so_values so_hashed so_unhashed].
  split; [exact K|]. split; [exact Ids|]. split.
  { apply (mapM_in _ _ _ kid Ids). exists (Sub 16 false (SbIssuer kid)). split; [|reflexivity]. apply filter_In. split; [left; reflexivity|reflexivity]. }
  split; [reflexivity|]. split; [exact O|]. split; [exact Hs|]. split; [exact D|]. split; [exact T|]. split; [reflexivity|].
  apply verify_hash_complete; [apply H_wf|apply H_ne|exact G|exact NN| |].
  - eapply sign_hash_valid; [apply H_wf|exact G|exact KP|exact V|split; assumption].
  - intros n s0 rest A N ->. eapply full_size_bounds; [exact F|exact A|exact N|]. destruct G as (Gn & _). now apply Gn.
Qed.
End SV.
