(** C119: a secret key that another program protected, from its octets and the passphrase to its use. *)
From Verif Require Import Base BaseProofs Spec SpecUtf8 Utf8Proofs SpecKey SpecS2k SpecCfb SpecCert SpecVerify SpecForeign SpecUnlock Utils UtilsProofs HexProofs Text Utf8 S2k CodecProofs S2kProofs Cipher SymCipher CfbProofs KeyPackets KeyProofs P_Keys SigPackets SecretV3 P_SecretV3 KeyLock Unlock Signable KeyOps VerifyProofs SigProofs SignVerify P_Verify P_Foreign DemoRsa.

Lemma s2k_laid s sb : s2k_octets s sb -> s2k_ok s /\ s2k_bytes Z.log2 s = Ok sb.
Proof.
  intros [h sym B|h sym salt B W L|h sym salt c B W L C].
  - split; [exact B|]. cbn [s2k_bytes]. rewrite mk_bytes_wf by (apply Forall_cons; [unfold byte; lia|apply Forall_cons; [exact B|apply Forall_nil]]). reflexivity.
  - split; [split; [exact B|split; assumption]|]. cbn [s2k_bytes]. rewrite mk_bytes_wf by (apply Forall_cons; [unfold byte; lia|apply Forall_cons; [exact B|apply Forall_nil]]). reflexivity.
  - split; [split; [exact B|]; split; [exact W|]; split; [exact L|]; exists c; split; [exact C|reflexivity]|]. cbn [s2k_bytes]. rewrite mk_bytes_wf by (apply Forall_cons; [unfold byte; lia|apply Forall_cons; [exact B|apply Forall_nil]]).
    cbn [bind]. rewrite <- c04_value by exact C. rewrite (c04_round_trip Z.log2 (fun i _ => eq_refl) c C). cbn [bind]. rewrite <- app_assoc. reflexivity.
Qed.
Lemma key_size sym req bs : sym <> 0 -> sym <> 10 -> rfc_key_length sym = Some req -> rfc_block_length sym = Some bs -> 0 <= req /\ In req (cipher_key_sizes sym).
Proof.
  intros N T K B. assert (C : In sym [1; 2; 3; 4; 7; 8; 9; 11; 12; 13]).
  { destruct sym as [|p|p]; [contradiction| |discriminate K]. do 4 (destruct p as [p|p|]; try discriminate K; try discriminate B; try (cbn; tauto); try contradiction). }
  cbn [In] in C. repeat destruct C as [<-|C]; try contradiction; injection K as <-; (split; [lia|]); vm_compute; tauto.
Qed.
Lemma derived_size H s pass key hl req n : rfc_hash_length (s2k_hash s) = Some hl -> 0 <= req -> (forall d, zlen (H (s2k_hash s) d) = hl) -> req <= hl * Z.of_nat n ->
  key = rfc_key (H (s2k_hash s)) (rfc_input s pass) n req -> zlen key = req.
Proof.
  intros Hh R L N ->. unfold rfc_key. assert (Q : zlen (concat (map (fun i => H (s2k_hash s) (repeat 0 i ++ rfc_input s pass)) (seq 0 n))) = hl * Z.of_nat n).
  { rewrite (concat_map_len _ hl) by (intros; apply L). unfold zlen. rewrite seq_length. reflexivity. }
  unfold zlen in *. rewrite firstn_length. lia.
Qed.

Section Unlock.
Variables (fl : Z -> Z) (E : Z -> bytes -> bytes -> bytes) (H : Z -> bytes -> bytes) (sha1 : bytes -> bytes).
Hypothesis Pr : primitives E H sha1.

(** The octets are read as a locked key with that public part; the passphrase gives its numbers, and the object that unlock leaves holds them. *)
Theorem c119_unlock_partial : forall k kb s pass numbers body, key_body fl kb k -> Forall scalar pass -> rfc_ok s (utf8 pass) -> s2k_sym s <> 0 -> s2k_sym s <> 10 ->
  protected_body E H sha1 kb s pass numbers body ->
  exists p, sec_from_content body = Ok p /\ pub_from_content kb = Ok (s_pub p) /\ s_pub p = k /\ lk_locked (fresh_key p) = true /\
  unlock_values E H sha1 p pass = Ok numbers /\
  forall lk, holds_numbers (k_alg k) numbers lk -> (In (k_alg k) [16; 17; 20] -> lk_p lk = k_p k) -> unlock_key E H sha1 p pass (fresh_key p) = (lk, None).
Proof.
  destruct Pr as (Sh & Hh & Bl). intros k kb s pass numbers body K Sc Ro N0 N10 (sb & bs & iv & key & encs & So & B & Li & Wi & (hl & req & n & Kh & Kl & Kn & Ek) & R & ->).
  destruct (s2k_laid s sb So) as [Ok1 Ok2]. destruct (key_size _ _ _ N0 N10 Kl B) as [Rq Ks].
  assert (Zk : zlen key = req) by (eapply derived_size; try eassumption; apply Hh; exact Kh).
  pose proof K as (ct & alg & ms & mencs & Hct & Hk & Fm & Ekb & _).
  assert (Pub : pub_from_content kb = Ok k) by (exact (proj1 (key_read4 fl (fun _ => []) (fun _ => repeat 0 20) (fun x => conj (proj1 (wfb_spec (repeat 0 20)) eq_refl) eq_refl) kb k K))).
  assert (Ex : rfc_exp_ok 4 None) by (right; split; [lia|reflexivity]).
  destruct (sec_parse Z.log2 4 ct alg None ms mencs k 254 s iv bs (rfc_cfb_enc (E (s2k_sym s) key) (Z.to_nat bs) iv (concat encs ++ sha1 (concat encs))) (fun i _ => eq_refl) Hct Ex Hk (rfcs_readable _ _ Fm) (or_introl eq_refl) Ok1) as (sb' & E1 & _ & E2).
  { rewrite block_table. exact B. } { exact Li. }
  rewrite Ok2 in E1. apply ok_inj in E1. subst sb'. rewrite <- Ekb in E2. eexists. split; [exact E2|]. cbn [s_pub]. split; [exact Pub|]. split; [reflexivity|]. split; [reflexivity|].
  assert (Vk : k_version k = 4) by (unfold SpecKey.rfc_key in Hk; destruct ms as [|a [|b [|c [|d [|? ?]]]]]; try discriminate Hk; match type of Hk with (if ?x then _ else _) = _ => destruct x; [|discriminate Hk] end; injection Hk as <-; reflexivity).
  assert (U : unlock_values E H sha1 (SecKey k (Some s) (s2k_sym s) iv (rfc_cfb_enc (E (s2k_sym s) key) (Z.to_nat bs) iv (concat encs ++ sha1 (concat encs))) (254 =? 255) (254 =? 254)) pass = Ok numbers).
  { unfold unlock_values. cbn [s_s2k s_pub s_sym s_iv s_enc s_checksum s_hash]. rewrite (encode_strict_scalar _ Sc). cbn [bind].
    rewrite (to_key_rfc H s (utf8 pass) hl req n); [|rewrite hash_table; exact Kh|rewrite c23_table by exact N10; exact Kl|apply Hh; exact Kh|exact Ro|exact Kn]. rewrite <- Ek. cbn [bind]. unfold decrypt_portion. rewrite Vk. change (4 <=? 4) with true. cbv iota.
    change (254 =? 255) with false. change (254 =? 254) with true. apply (c27_values E sha1 (s2k_sym s) key bs iv numbers encs); try assumption.
    - rewrite block_table. exact B.
    - rewrite Zk. exact Ks.
    - intros x W L. destruct (Bl _ key bs x B L W) as [X1 X2]. split; [exact X2|exact X1]. }
  split; [exact U|]. intros lk Hl Hp. unfold unlock_key. rewrite U. unfold fresh_key, fresh. cbn [s_pub]. inversion Hl as [al d p q u I Ea En El|al x prime I Ea En El]; subst al lk; clear Hl.
  - unfold unlock1. cbn [lk_alg lk_d lk_p lk_q lk_u lk_x lk_locked]. assert (Q : is_rsa_alg (k_alg k) = true) by (unfold is_rsa_alg; cbn [In] in I; lia). rewrite Q. reflexivity.
  - specialize (Hp I). cbn [lk_p] in Hp. subst prime. unfold unlock1. cbn [lk_alg lk_d lk_p lk_q lk_u lk_x lk_locked]. assert (Q : is_rsa_alg (k_alg k) = false) by (unfold is_rsa_alg; cbn [In] in I; lia). rewrite Q.
    assert (Q2 : is_elg_alg (k_alg k) || (k_alg k =? 17) = true) by (unfold is_elg_alg; cbn [In] in I; lia). rewrite Q2. reflexivity.
Qed.
(** A whole key, primary and subkeys, each protected by the same passphrase: all are open afterwards. *)
Definition protected_part (pass : text) (x : (bytes * pubkey) * ((s2k * list Z) * lkey) * bytes) : Prop :=
  let '((kb, k), ((s, numbers), lk), body) := x in key_body fl kb k /\ rfc_ok s (utf8 pass) /\ s2k_sym s <> 0 /\ s2k_sym s <> 10 /\ protected_body E H sha1 kb s pass numbers body /\
  holds_numbers (k_alg k) numbers lk /\ (In (k_alg k) [16; 17; 20] -> lk_p lk = k_p k).
Theorem c119_certificate_partial : forall pass parts, Forall scalar pass -> Forall (protected_part pass) parts ->
  exists ps, Forall2 (fun x p => sec_from_content (snd x) = Ok p /\ s_pub p = snd (fst (fst x))) parts ps /\ forallb lk_locked (map fresh_key ps) = true /\
  unlock_keys E H sha1 pass ps (map fresh_key ps) = (map (fun x => snd (snd (fst x))) parts, None) /\
  forallb (fun lk => negb (lk_locked lk)) (map (fun x => snd (snd (fst x))) parts) = true.
Proof.
  intros pass parts Sc F. induction F as [|[[[kb k] [[s numbers] lk]] body] parts (K & Ro & N0 & N10 & P & Hl & Hp) _ (ps & R & L & U & O)].
  - exists []. repeat (split; [constructor|]). reflexivity.
  - destruct (c119_unlock_partial k kb s pass numbers body K Sc Ro N0 N10 P) as (p & Rd & _ & Ep & Lp & _ & Un). exists (p :: ps). split; [constructor; [split; assumption|exact R]|]. cbn [map forallb fst snd]. split; [rewrite Lp; exact L|].
    split; [cbn [unlock_keys]; rewrite (Un lk Hl Hp), U; reflexivity|]. rewrite O. assert (Q : lk_locked lk = false) by (inversion Hl; reflexivity). rewrite Q. reflexivity.
Qed.
(** Any other passphrase: the object is left as it was with an error, or the octets its key decrypts to end in the SHA-1 of the rest. *)
Theorem c119_other_passphrase : forall k kb s pass numbers body p pass', key_body fl kb k -> Forall scalar pass -> rfc_ok s (utf8 pass) -> s2k_sym s <> 0 -> s2k_sym s <> 10 ->
  protected_body E H sha1 kb s pass numbers body -> sec_from_content body = Ok p -> Forall scalar pass' -> rfc_ok s (utf8 pass') ->
  (exists e, unlock_key E H sha1 p pass' (fresh_key p) = (fresh_key p, Some e)) \/
  (exists key' m, passphrase_key H s (utf8 pass') key' /\ rfc_cfb_dec (E (s2k_sym s) key') (Z.to_nat (match rfc_block_length (s2k_sym s) with Some b => b | None => 0 end)) (s_iv p) (s_enc p) = m ++ sha1 m).
Proof.
  intros k kb s pass numbers body p pass' K Sc Ro N0 N10 P Rd Sc' Ro'. destruct P as (sb & bs & iv & key & encs & So & B & Li & Wi & (hl & req & n & Kh & Kl & Kn & Ek) & R & ->).
  destruct Pr as (Sh & Hh & Bl). destruct (s2k_laid s sb So) as [Ok1 Ok2]. destruct (key_size _ _ _ N0 N10 Kl B) as [Rq Ks].
  pose proof K as (ct & alg & ms & mencs & Hct & Hk & Fm & Ekb & _). assert (Ex : rfc_exp_ok 4 None) by (right; split; [lia|reflexivity]).
  destruct (sec_parse Z.log2 4 ct alg None ms mencs k 254 s iv bs (rfc_cfb_enc (E (s2k_sym s) key) (Z.to_nat bs) iv (concat encs ++ sha1 (concat encs))) (fun i _ => eq_refl) Hct Ex Hk (rfcs_readable _ _ Fm) (or_introl eq_refl) Ok1) as (sb' & E1 & _ & E2).
  { rewrite block_table. exact B. } { exact Li. }
  rewrite Ok2 in E1. apply ok_inj in E1. subst sb'. rewrite <- Ekb, Rd in E2. apply ok_inj in E2. clear Rd. change (254 =? 255) with false in E2. change (254 =? 254) with true in E2. rewrite B. subst p. cbn [s_iv s_enc].
  set (ctx := rfc_cfb_enc _ _ _ _). set (p := SecKey _ _ _ _ _ _ _). destruct (unlock_values E H sha1 p pass') as [vs|e] eqn:U.
  2:{ left. exists e. unfold unlock_key. rewrite U. reflexivity. }
  right. unfold unlock_values, p in U. cbn [s_s2k s_pub s_sym s_iv s_enc s_checksum s_hash] in U. rewrite (encode_strict_scalar _ Sc') in U. cbn [bind] in U.
  rewrite (to_key_rfc H s (utf8 pass') hl req n) in U; [|rewrite hash_table; exact Kh|rewrite c23_table by exact N10; exact Kl|apply Hh; exact Kh|exact Ro'|exact Kn]. cbn [bind] in U.
  assert (Vk : k_version k = 4) by (unfold SpecKey.rfc_key in Hk; destruct ms as [|a [|b [|c [|d [|? ?]]]]]; try discriminate Hk; match type of Hk with (if ?x then _ else _) = _ => destruct x; [|discriminate Hk] end; injection Hk as <-; reflexivity).
  unfold decrypt_portion in U. rewrite Vk in U. change (4 <=? 4) with true in U. cbv iota in U. set (key' := rfc_key (H (s2k_hash s)) (rfc_input s (utf8 pass')) n req) in *.
  assert (Zk : zlen key' = req) by (eapply derived_size; try eassumption; [apply Hh; exact Kh|reflexivity]).
  assert (G : forall kk, good_block (E (s2k_sym s) kk) bs) by (intros kk x W L; destruct (Bl _ kk bs x B L W) as [X1 X2]; split; [exact X2|exact X1]).
  assert (Wc : wf ctx). { unfold ctx. apply (rfc_cfb_len (E (s2k_sym s) key) bs iv); try assumption; [|apply G|].
    - unfold rfc_block_length in B. clear -B N0. destruct (s2k_sym s) as [|q|q]; [contradiction| |discriminate B]. do 4 (destruct q as [q|q|]; try discriminate B; try (injection B as <-; lia)).
    - rewrite wf_app. split; [|apply Sh]. clear -R. induction R as [|a e l es Q _ IH]; [apply Forall_nil|]. cbn [concat]. rewrite wf_app. split; [|exact IH]. destruct Q as (l1 & b1 & -> & _ & _ & _ & W). exact W. }
  destruct (c27_only_good_sha1 E sha1 (s2k_sym s) key' bs iv ctx vs) as (m & M); try assumption.
  { rewrite block_table. exact B. } { rewrite Zk. exact Ks. } { apply G. } { intros d. apply Sh. }
  exists key', m. split; [exists hl, req, n; auto|exact M].
Qed.

(** And it signs: what the open object signs is accepted for that object by the key read from the public octets (C65). *)
Theorem c119_sign_partial : forall md5 sha1k oid inv elg k kb s pass numbers body lk sec nonce now i raw st ha given g given', key_body fl kb k -> Forall scalar pass -> rfc_ok s (utf8 pass) -> s2k_sym s <> 0 -> s2k_sym s <> 10 ->
  protected_body E H sha1 kb s pass numbers body -> holds_numbers (k_alg k) numbers lk -> (In (k_alg k) [16; 17; 20] -> lk_p lk = k_p k) -> signs_with lk sec -> keypair k sec ->
  library_hashes H oid -> library_numbers fl inv k -> (forall c b, In (Sub 16 c b) given -> exists kid, b = SbIssuer kid) ->
  exists p, sec_from_content body = Ok p /\ unlock_key E H sha1 p pass (fresh_key p) = (lk, None) /\
  (sign fl md5 sha1k H oid inv (lk_locked (fresh_key p)) (s_pub p) sec nonce now i raw 4 st ha given = Err RuntimeError) /\
  (sign fl md5 sha1k H oid inv (lk_locked lk) (s_pub p) sec nonce now i raw 4 st ha given = Ok (g, given') ->
   Forall (fun v => 0 <= v) (so_values g) -> (k_alg k = 17 -> Forall (fun v => v <> 0) (so_values g)) -> full_size k (so_values g) ->
   exists pub, pub_from_content kb = Ok pub /\ verify fl md5 sha1k H oid inv elg pub g i = Ok true).
Proof.
  intros md5 sha1k oid inv elg k kb s pass numbers body lk sec nonce now i raw st ha given g given' K Sc Ro N0 N10 P Hl Hp Sw KP LH LN Is.
  destruct (c119_unlock_partial k kb s pass numbers body K Sc Ro N0 N10 P) as (p & Rd & Pb & Ep & Lp & _ & Un). exists p. split; [exact Rd|]. split; [exact (Un lk Hl Hp)|]. rewrite Lp. split; [reflexivity|].
  assert (Q : lk_locked lk = false) by (inversion Sw; reflexivity). rewrite Q, Ep. intros Sg P1 P2 P3. exists k. split; [rewrite <- Ep; exact Pb|].
  exact (c65_sign_then_verify_partial fl md5 sha1k H oid inv elg k sec nonce now i raw st ha given g given' LH LN KP Is Sg P1 P2 P3).
Qed.
End Unlock.
Print Assumptions c119_unlock_partial.
Print Assumptions c119_certificate_partial.
Print Assumptions c119_other_passphrase.
Print Assumptions c119_sign_partial.

(** Any certificate, any passphrase: unlock opens the parts in order, and at the first that raises it stops: the parts before are open, those after are untouched. *)
Theorem c119_stops : forall E H sha1 pass ps ks ks' e, length ps = length ks -> unlock_keys E H sha1 pass ps ks = (ks', e) ->
  (e = None /\ Forall2 (fun x k' => unlock_key E H sha1 (fst x) pass (snd x) = (k', None) /\ lk_locked k' = false) (combine ps ks) ks') \/
  (exists ex n p k k' opened, e = Some ex /\ nth_error ps n = Some p /\ nth_error ks n = Some k /\ unlock_key E H sha1 p pass k = (k', Some ex) /\ lk_locked k' = lk_locked k /\
   Forall2 (fun x k' => unlock_key E H sha1 (fst x) pass (snd x) = (k', None) /\ lk_locked k' = false) (firstn n (combine ps ks)) opened /\ ks' = opened ++ k' :: skipn (S n) ks).
Proof.
  intros E H sha1 pass. assert (One : forall p k k' e, unlock_key E H sha1 p pass k = (k', e) -> match e with None => lk_locked k' = false | Some _ => lk_locked k' = lk_locked k end).
  { intros p k k' e. unfold unlock_key, unlock1. destruct (unlock_values E H sha1 p pass) as [vs|ex]; [|intros Q; injection Q as <- <-; reflexivity].
    destruct (is_rsa_alg (lk_alg k)); [destruct vs as [|a [|b [|c [|d vs]]]]; intros Q; injection Q as <- <-; reflexivity|].
    destruct (is_elg_alg (lk_alg k) || (lk_alg k =? 17)); [destruct vs as [|a vs]|]; intros Q; injection Q as <- <-; reflexivity. }
  induction ps as [|p ps IH]; intros [|k ks] ks' e L U; try discriminate L.
  - injection U as <- <-. left. split; [reflexivity|constructor].
  - cbn [unlock_keys] in U. destruct (unlock_key E H sha1 p pass k) as [k' [ex|]] eqn:Q.
    + injection U as <- <-. right. exists ex, 0%nat, p, k, k', []. split; [reflexivity|]. split; [reflexivity|]. split; [reflexivity|]. split; [exact Q|]. split; [exact (One _ _ _ _ Q)|]. split; [constructor|reflexivity].
    + destruct (unlock_keys E H sha1 pass ps ks) as [kr er] eqn:R. injection U as <- <-. pose proof (One _ _ _ _ Q) as Lk. cbn beta iota in Lk. injection L as L.
      destruct (IH ks kr er L R) as [[-> F]|(ex & n & p1 & k1 & k1' & opened & -> & P1 & K1 & Q1 & L1 & F & ->)].
      * left. split; [reflexivity|]. cbn [combine]. constructor; [split; assumption|exact F].
      * right. exists ex, (S n), p1, k1, k1', (k' :: opened). split; [reflexivity|]. split; [exact P1|]. split; [exact K1|]. split; [exact Q1|]. split; [exact L1|]. split; [cbn [combine firstn]; constructor; [split; assumption|exact F]|reflexivity].
Qed.
Print Assumptions c119_stops.

(** What fails. Usage octet 255 (5.5.3: a two-octet checksum instead of SHA-1): the packet is read and is locked, and no passphrase opens it, whatever the octets after the IV are. *)
Theorem c119_checksum_refuted : forall fl E H sha1 k kb s sb bs iv enc, key_body fl kb k -> s2k_octets s sb -> rfc_block_length (s2k_sym s) = Some bs -> zlen iv = bs ->
  exists p, sec_from_content (kb ++ [255; s2k_sym s] ++ sb ++ iv ++ enc) = Ok p /\ s_pub p = k /\ lk_locked (fresh_key p) = true /\
  forall pass, exists e, unlock_key E H sha1 p pass (fresh_key p) = (fresh_key p, Some e).
Proof.
  intros fl E H sha1 k kb s sb bs iv enc K So B Li. destruct (s2k_laid s sb So) as [Ok1 Ok2]. pose proof K as (ct & alg & ms & mencs & Hct & Hk & Fm & Ekb & _). assert (Ex : rfc_exp_ok 4 None) by (right; split; [lia|reflexivity]).
  destruct (sec_parse Z.log2 4 ct alg None ms mencs k 255 s iv bs enc (fun i _ => eq_refl) Hct Ex Hk (rfcs_readable _ _ Fm) (or_intror eq_refl) Ok1) as (sb' & E1 & _ & E2).
  { rewrite block_table. exact B. } { exact Li. }
  rewrite Ok2 in E1. apply ok_inj in E1. subst sb'. rewrite <- Ekb in E2. eexists. split; [exact E2|]. split; [reflexivity|]. split; [reflexivity|]. intros pass.
  assert (Vk : k_version k = 4) by (unfold SpecKey.rfc_key in Hk; destruct ms as [|a [|b [|c [|d [|? ?]]]]]; try discriminate Hk; match type of Hk with (if ?x then _ else _) = _ => destruct x; [|discriminate Hk] end; injection Hk as <-; reflexivity).
  match goal with |- context [unlock_key E H sha1 ?q pass _] => set (p := q) end. assert (U : exists e, unlock_values E H sha1 p pass = Err e).
  { unfold unlock_values, p. cbn [s_s2k s_pub s_sym s_iv s_enc s_checksum s_hash]. destruct (utf8_encode pass) as [b|e]; cbn [bind]; [|exists e; reflexivity]. destruct (to_key H s b) as [key|e]; cbn [bind]; [|exists e; reflexivity].
    unfold decrypt_portion. rewrite Vk. change (4 <=? 4) with true. cbv iota. unfold decrypt_portion_v4. destruct (get_cfb_cipher (s2k_sym s) key iv) as [o|e]; cbn [bind]; [|exists e; reflexivity].
    match goal with |- context [bind ?x _] => destruct x as [[r c]|e] end; cbn [bind]; [|exists e; reflexivity]. exists TypeError. reflexivity. }
  destruct U as [e U]. exists e. unfold unlock_key. rewrite U. reflexivity.
Qed.
Print Assumptions c119_checksum_refuted.

(** A passphrase that continues the right one past the iterated count: RFC 4880 3.7.1.3 has it hashed whole, and so gives another key; the code cuts it (C22) and opens the key. *)
Lemma to_key_cut H h sym salt count a b : 0 < count -> zlen salt = 8 -> count <= 8 + zlen a -> to_key H (IteratedS2K h sym salt count) (a ++ b) = to_key H (IteratedS2K h sym salt count) a.
Proof.
  intros P L C. assert (Cut : forall x n, count <= 8 + zlen (a ++ x) -> s2k_pass_data salt (a ++ x) (Some count) n = repeat 0 (Z.to_nat n) ++ firstn (Z.to_nat count) (salt ++ a)).
  { intros x n Cx. unfold s2k_pass_data. pose proof (zlen_nonneg (a ++ x)) as N. pose proof (zlen_nonneg x) as Nx. set (m := zlen (a ++ x) + 8) in *.
    assert (Q : (count + m - 1) / m = 1) by (symmetry; apply (Z.div_unique_pos _ _ 1 (count - 1)); lia). rewrite Q. change (Z.to_nat 1) with 1%nat. cbn [s2k_writes]. rewrite Z.mul_0_r, Z.sub_0_r, Z.min_r by lia. rewrite app_nil_r. f_equal.
    unfold slice, clip. replace (0 <? 0) with false by reflexivity. replace (count <? 0) with false by lia. rewrite zlen_app. fold m. rewrite (Z.min_l 0) by lia. rewrite (Z.min_l count) by lia. rewrite Z.sub_0_r. cbn [Z.to_nat skipn]. rewrite app_assoc, firstn_app.
    replace (Z.to_nat count - length (salt ++ a))%nat with 0%nat by (rewrite app_length; unfold zlen in *; lia). cbn [firstn]. apply app_nil_r. }
  unfold to_key. destruct (hash_lengths (s2k_hash (IteratedS2K h sym salt count))) as [hl|]; [|reflexivity]. destruct (symmetric_cipher_key_lengths (s2k_sym (IteratedS2K h sym salt count))) as [req|]; [|reflexivity].
  cbn [s2k_salt s2k_count]. set (f := S (Z.to_nat req)). assert (G : forall f n r, s2k_loop f (H (s2k_hash (IteratedS2K h sym salt count))) (s2k_pass_data salt (a ++ b) (Some count)) hl req n r = s2k_loop f (H (s2k_hash (IteratedS2K h sym salt count))) (s2k_pass_data salt a (Some count)) hl req n r).
  { clear f. induction f as [|f IH]; intros n r; [reflexivity|]. cbn [s2k_loop]. destruct (n * hl <? req); [|reflexivity]. pose proof (zlen_nonneg b) as Nb. rewrite (Cut b n) by (rewrite zlen_app; lia). pose proof (Cut [] n) as Ca. rewrite app_nil_r in Ca. rewrite Ca by lia. apply IH. }
  rewrite G. reflexivity.
Qed.
Theorem c119_longer_passphrase_refuted : forall fl E H sha1, primitives E H sha1 -> forall k kb h sym salt count pass numbers body lk tail, key_body fl kb k -> Forall scalar pass -> zlen salt = 8 -> count = 8 + zlen (utf8 pass) -> sym <> 0 -> sym <> 10 ->
  protected_body E H sha1 kb (IteratedS2K h sym salt count) pass numbers body -> holds_numbers (k_alg k) numbers lk -> (In (k_alg k) [16; 17; 20] -> lk_p lk = k_p k) -> Forall scalar tail ->
  exists p, sec_from_content body = Ok p /\ unlock_key E H sha1 p (pass ++ tail) (fresh_key p) = (lk, None).
Proof.
  intros fl E H sha1 Pr k kb h sym salt count pass numbers body lk tail K Sc Ls Ec N0 N10 P Hl Hp St. pose proof (zlen_nonneg (utf8 pass)) as Np.
  destruct (c119_unlock_partial fl E H sha1 Pr k kb (IteratedS2K h sym salt count) pass numbers body K Sc ltac:(split; [exact Ls|lia]) N0 N10 P) as (p & Rd & _ & _ & _ & _ & Un). specialize (Un lk Hl Hp).
  exists p. split; [exact Rd|]. assert (S2 : s_s2k p = Some (IteratedS2K h sym salt count)).
  { pose proof P as (sb & bs & iv & key & encs & So & B & Li & _ & _ & _ & Eb). destruct (s2k_laid _ _ So) as [Ok1 Ok2]. pose proof K as (ct & alg & ms & mencs & Hct & Hk & Fm & Ekb & _).
    destruct (sec_parse Z.log2 4 ct alg None ms mencs k 254 _ iv bs (rfc_cfb_enc (E sym key) (Z.to_nat bs) iv (concat encs ++ sha1 (concat encs))) (fun i _ => eq_refl) Hct ltac:(right; split; [lia|reflexivity]) Hk (rfcs_readable _ _ Fm) (or_introl eq_refl) Ok1) as (sb' & E1 & _ & E2).
    { rewrite block_table. exact B. } { exact Li. }
    rewrite Ok2 in E1. apply ok_inj in E1. subst sb'. rewrite <- Ekb in E2. cbn [s2k_sym] in *. rewrite Eb in Rd. rewrite E2 in Rd. apply ok_inj in Rd. rewrite <- Rd. reflexivity. }
  rewrite <- Un. unfold unlock_key. f_equal. unfold unlock_values. rewrite S2. rewrite (encode_strict_scalar (pass ++ tail)) by (apply Forall_app; split; assumption). rewrite (encode_strict_scalar pass) by assumption. cbn [bind].
  rewrite utf8_app, to_key_cut by lia. reflexivity.
Qed.
Print Assumptions c119_longer_passphrase_refuted.

(** ** used: a DSA key protected with a salted and iterated passphrase *)
Definition u_E (sym : Z) (key x : bytes) : bytes := if Z.even (hd 0 key) then rev x else x.
Definition u_H (a : Z) (d : bytes) : bytes := repeat (fold_left Z.add d 0 mod 256) (match rfc_hash_length a with Some n => Z.to_nat n | None => 1 end).
Definition u_sha1 (d : bytes) : bytes := repeat (zlen d mod 256) 20.
Definition u_pass : text := [112; 228].
Definition u_spec := IteratedS2K 8 7 [1; 2; 3; 4; 5; 6; 7; 8] 1024.
Definition u_iv := repeat 9 16.
Definition u_key := rfc_key (u_H 8) (rfc_input u_spec (utf8 u_pass)) 1 16.
Definition u_body := f_kb ++ [254; 7] ++ [3; 8; 1; 2; 3; 4; 5; 6; 7; 8; 0] ++ u_iv ++ rfc_cfb_enc (u_E 7 u_key) 16 u_iv ([0; 2; 3] ++ u_sha1 [0; 2; 3]).
Definition u_open := LKey 17 None (Some 23) None None (Some 3) false.
Lemma u_primitives : primitives u_E u_H u_sha1.
Proof.
  assert (R : forall x n, 0 <= x < 256 -> wf (repeat x n)) by (intros x n B; induction n; cbn [repeat]; [apply Forall_nil|apply Forall_cons; [exact B|exact IHn]]).
  split; [|split].
  - intros d. split; [reflexivity|]. apply R. apply Z.mod_pos_bound. lia.
  - intros a n Q d. unfold u_H. rewrite Q. unfold zlen. rewrite repeat_length. assert (0 < n) by (clear -Q; unfold rfc_hash_length in Q; destruct a as [|p|p]; try discriminate Q; do 4 (destruct p as [p|p|]; try discriminate Q; try (injection Q as <-; lia))). lia.
  - intros sym key bs x B L W. unfold u_E. destruct (Z.even (hd 0 key)); [|split; assumption]. split; [unfold zlen in *; rewrite rev_length; exact L|]. apply Forall_rev. exact W.
Qed.
Lemma u_protected : protected_body u_E u_H u_sha1 f_kb u_spec u_pass [3] u_body.
Proof.
  exists [3; 8; 1; 2; 3; 4; 5; 6; 7; 8; 0], 16, u_iv, u_key, [[0; 2; 3]]. split; [exact (so_iterated 8 7 [1; 2; 3; 4; 5; 6; 7; 8] 0 ltac:(unfold byte; lia) ltac:(wfl) eq_refl ltac:(unfold byte; lia))|].
  split; [reflexivity|]. split; [reflexivity|]. split; [apply wfb_spec; reflexivity|]. split; [exists 32, 16, 1%nat; split; [reflexivity|]; split; [reflexivity|]; split; [lia|reflexivity]|].
  split; [constructor; [exists [0; 2], [3]; repeat (split; [reflexivity|]); wfl|constructor]|]. reflexivity.
Qed.
Lemma u_hashes : library_hashes u_H demo_oid.
Proof.
  split; [intros; apply Forall_nil|]. assert (R : forall x n, 0 <= x < 256 -> wf (repeat x n)) by (intros x n B; induction n; cbn [repeat]; [apply Forall_nil|apply Forall_cons; [exact B|exact IHn]]).
  split; [intros a d; apply R; apply Z.mod_pos_bound; lia|]. intros a d Q. apply (f_equal (@length Z)) in Q. unfold u_H in Q. rewrite repeat_length in Q. destruct (rfc_hash_length a) as [n|] eqn:Rn; [|discriminate Q]. cbn [length] in Q.
  assert (0 < n) by (clear -Rn; unfold rfc_hash_length in Rn; destruct a as [|p|p]; try discriminate Rn; do 4 (destruct p as [p|p|]; try discriminate Rn; try (injection Rn as <-; lia))). lia.
Qed.
Example c119_used : exists p g given', sec_from_content u_body = Ok p /\ unlock_key u_E u_H u_sha1 p u_pass (fresh_key p) = (u_open, None) /\
  sign Z.log2 demo_sha1 demo_sha1 u_H demo_oid demo_inv (lk_locked u_open) (s_pub p) (SDsa 3) 5 9 (IBytes [66]) false 4 0 8 [] = Ok (g, given') /\
  (exists pub, pub_from_content f_kb = Ok pub /\ verify Z.log2 demo_sha1 demo_sha1 u_H demo_oid demo_inv demo_elg pub g (IBytes [66]) = Ok true) /\
  unlock_key u_E u_H u_sha1 p [113] (fresh_key p) = (fresh_key p, Some ValueError).
Proof.
  assert (Sc : Forall scalar u_pass) by (repeat (apply Forall_cons; [unfold scalar; lia|]); apply Forall_nil).
  assert (Ro : rfc_ok u_spec (utf8 u_pass)) by (split; [reflexivity|vm_compute; discriminate]).
  destruct (c119_unlock_partial Z.log2 u_E u_H u_sha1 u_primitives demo_dsa f_kb u_spec u_pass [3] u_body f_key Sc Ro ltac:(discriminate) ltac:(discriminate) u_protected) as (p & Rd & _ & Ep & _).
  assert (Sg : exists g g', sign Z.log2 demo_sha1 demo_sha1 u_H demo_oid demo_inv false demo_dsa (SDsa 3) 5 9 (IBytes [66]) false 4 0 8 [] = Ok (g, g') /\ Forall (fun v => 0 < v) (so_values g)).
  { do 2 eexists. split; [vm_compute; reflexivity|]. cbn [so_values]. repeat (apply Forall_cons; [lia|]). apply Forall_nil. }
  destruct Sg as (g & g' & Sg & Po).
  assert (Hl : holds_numbers (k_alg demo_dsa) [3] u_open) by (apply hn_one; cbn; tauto).
  destruct (c119_sign_partial Z.log2 u_E u_H u_sha1 u_primitives demo_sha1 demo_sha1 demo_oid demo_inv demo_elg) with (k := demo_dsa) (kb := f_kb) (s := u_spec) (pass := u_pass) (numbers := [3]) (body := u_body) (lk := u_open) (sec := SDsa 3) (nonce := 5) (now := 9) (i := IBytes [66]) (raw := false) (st := 0) (ha := 8) (given := @nil subpkt) (g := g) (given' := g')
    as (p' & Rd' & Un & _ & V); [exact f_key|exact Sc|exact Ro|discriminate|discriminate|exact u_protected|exact Hl|reflexivity|apply sw_dsa|exact (proj1 c65_used_dsa)|exact u_hashes|exact demo_dsa_numbers|intros c b []|].
  rewrite Rd in Rd'. apply ok_inj in Rd'. subst p'. exists p, g, g'. split; [exact Rd|]. split; [exact Un|]. split; [rewrite Ep; exact Sg|]. split.
  - apply V; [rewrite Ep; exact Sg| | |].
    + revert Po. apply Forall_impl. lia.
    + intros _. revert Po. apply Forall_impl. lia.
    + unfold full_size. destruct (so_values g); exact Logic.I.
  - assert (Q : sec_from_content u_body = Ok p) by exact Rd. clear -Q. vm_compute in Q. apply ok_inj in Q. subst p. vm_compute. reflexivity.
Qed.
Example c119_stops_used : exists p, sec_from_content u_body = Ok p /\
  unlock_keys u_E u_H u_sha1 u_pass [p; SecKey (s_pub p) (s_s2k p) (s_sym p) (s_iv p) [1] (s_checksum p) (s_hash p); p] [fresh_key p; fresh_key p; fresh_key p] = ([u_open; fresh_key p; fresh_key p], Some ValueError).
Proof. eexists. split; [vm_compute; reflexivity|]. vm_compute. reflexivity. Qed.
Example c119_checksum_used : exists p, sec_from_content (f_kb ++ [255; 7] ++ [0; 8] ++ u_iv ++ [1; 2; 3]) = Ok p /\ s_pub p = demo_dsa /\ lk_locked (fresh_key p) = true /\ forall pass, exists e, unlock_key u_E u_H u_sha1 p pass (fresh_key p) = (fresh_key p, Some e).
Proof. exact (c119_checksum_refuted Z.log2 u_E u_H u_sha1 demo_dsa f_kb (SimpleS2K 8 7) [0; 8] 16 u_iv [1; 2; 3] f_key (so_simple 8 7 ltac:(unfold byte; lia)) eq_refl eq_refl). Qed.
(** A key protected with Twofish, whose keys have 32 octets: the code cuts them to 16 (C23), and the right passphrase is refused. *)
Definition u_tf (sym : Z) (key x : bytes) : bytes := if zlen key =? 32 then rev x else x.
Definition u_tfspec := SimpleS2K 8 10.
Definition u_tfbody := f_kb ++ [254; 10] ++ [0; 8] ++ u_iv ++ rfc_cfb_enc (u_tf 10 (rfc_key (u_H 8) (rfc_input u_tfspec (utf8 u_pass)) 1 32)) 16 u_iv ([0; 2; 3] ++ u_sha1 [0; 2; 3]).
Theorem c119_twofish_refuted : exists E H sha1 k kb s numbers pass body p e, primitives E H sha1 /\ key_body Z.log2 kb k /\ Forall scalar pass /\ rfc_ok s (utf8 pass) /\ s2k_sym s = 10 /\ protected_body E H sha1 kb s pass numbers body /\
  sec_from_content body = Ok p /\ unlock_key E H sha1 p pass (fresh_key p) = (fresh_key p, Some e).
Proof.
  destruct u_primitives as (P1 & P2 & _). exists u_tf, u_H, u_sha1, demo_dsa, f_kb, u_tfspec, [3], u_pass, u_tfbody. do 2 eexists. split; [split; [exact P1|]; split; [exact P2|]|].
  { intros sym key bs x B L W. unfold u_tf. destruct (zlen key =? 32); [|split; assumption]. split; [unfold zlen in *; rewrite rev_length; exact L|]. apply Forall_rev. exact W. }
  split; [exact f_key|]. split; [repeat (apply Forall_cons; [unfold scalar; lia|]); apply Forall_nil|]. split; [vm_compute; repeat split|]. split; [reflexivity|]. split.
  - exists [0; 8], 16, u_iv, (rfc_key (u_H 8) (rfc_input u_tfspec (utf8 u_pass)) 1 32), [[0; 2; 3]]. split; [exact (so_simple 8 10 ltac:(unfold byte; lia))|].
    split; [reflexivity|]. split; [reflexivity|]. split; [apply wfb_spec; reflexivity|]. split; [exists 32, 32, 1%nat; split; [reflexivity|]; split; [reflexivity|]; split; [lia|reflexivity]|].
    split; [constructor; [exists [0; 2], [3]; repeat (split; [reflexivity|]); wfl|constructor]|]. reflexivity.
  - split; [vm_compute; reflexivity|]. vm_compute. reflexivity.
Qed.
Print Assumptions c119_twofish_refuted.
(** 1016 octets of passphrase and 8 of salt fill the smallest count *)
Definition u_long : text := repeat 97 1016.
Definition u_lbody := f_kb ++ [254; 7] ++ [3; 8; 1; 2; 3; 4; 5; 6; 7; 8; 0] ++ u_iv ++ rfc_cfb_enc (u_E 7 (rfc_key (u_H 8) (rfc_input u_spec (utf8 u_long)) 1 16)) 16 u_iv ([0; 2; 3] ++ u_sha1 [0; 2; 3]).
Example c119_longer_used : exists p, sec_from_content u_lbody = Ok p /\ unlock_key u_E u_H u_sha1 p (u_long ++ [33]) (fresh_key p) = (u_open, None).
Proof.
  apply (c119_longer_passphrase_refuted Z.log2 u_E u_H u_sha1 u_primitives demo_dsa f_kb 8 7 [1; 2; 3; 4; 5; 6; 7; 8] 1024 u_long [3]); try reflexivity; try discriminate.
  - exact f_key.
  - unfold u_long. generalize 1016%nat. induction n as [|n IH]; [apply Forall_nil|]. apply Forall_cons; [unfold scalar; lia|exact IH].
  - exists [3; 8; 1; 2; 3; 4; 5; 6; 7; 8; 0], 16, u_iv, (rfc_key (u_H 8) (rfc_input u_spec (utf8 u_long)) 1 16), [[0; 2; 3]]. split; [exact (so_iterated 8 7 [1; 2; 3; 4; 5; 6; 7; 8] 0 ltac:(unfold byte; lia) ltac:(wfl) eq_refl ltac:(unfold byte; lia))|].
    split; [reflexivity|]. split; [reflexivity|]. split; [apply wfb_spec; reflexivity|]. split; [exists 32, 16, 1%nat; split; [reflexivity|]; split; [reflexivity|]; split; [lia|reflexivity]|].
    split; [constructor; [exists [0; 2], [3]; repeat (split; [reflexivity|]); wfl|constructor]|]. reflexivity.
  - apply hn_one. cbn. tauto.
  - apply Forall_cons; [unfold scalar; lia|apply Forall_nil].
Qed.
