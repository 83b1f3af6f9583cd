(** Theorems added after edits of the model that no theorem noticed (seeded/LOG.jsonl, surveys 2 and 3): each fixes what such an edit changed. *)
From Coq Require Import String.
From Verif Require Import Base BaseProofs Spec Utils Text SigPackets SigAttrs SpecAttrs HexProofs AttrsProofs SelfSig SpecSelf SelfProofs Keyring RingProofs P_SelfSig P_SigCheck P_BackSig.
From Verif Require IssuerProofs SignVerify DemoRsa Signable KeyPackets KeyOps Validate DumpSig BackSig TransKey KeyServer Pinentry.
Open Scope Z_scope.

(** The exceptions of the library can be told apart: different classes of exceptions.py have different tags, and a class has one tag. *)
Theorem c49_exceptions : NoDup [KeyOps.SignatureVerificationFailed; KeyOps.UnsupportedPublicKeyAlgorithm; KeyOps.UnsupportedDigestAlgorithm;
    SelfSig.SignatureCreatedBeforeContent; SelfSig.SigningKeyCreatedInTheFuture; SelfSig.SignatureCreatedInTheFuture; SelfSig.SigningKeyHasExpired; SelfSig.SignedByRevokedKey; SelfSig.SigningKeyHasBeenRevoked;
    TransKey.InvalidKeyPacketOrder; TransKey.InvalidKeyPacketType; DumpSig.CannotParseCritical; DumpSig.CannotParseCriticalNotation; DumpSig.LocalCertificationSignature; DumpSig.UnsupportedSignatureVersion;
    Validate.InvalidSubkeyBindingSignature; Validate.SignatureDigestMismatch; Validate.UnexpectedSignatureType; BackSig.MissingBackSignature; Pinentry.EOFError; KeyServer.HTTPError; PgpError 91; PgpError 92; PgpError 93; PgpError 94] /\
  Validate.SignatureVerificationFailed = KeyOps.SignatureVerificationFailed /\ Validate.UnsupportedDigestAlgorithm = KeyOps.UnsupportedDigestAlgorithm /\ Validate.SignatureCreatedBeforeContent = SelfSig.SignatureCreatedBeforeContent.
Proof. split; [|repeat split; reflexivity]. repeat (apply NoDup_cons; [cbn [In]; intros I; repeat (destruct I as [I|I]; [discriminate I|]); exact I|]). apply NoDup_nil. Qed.
Print Assumptions c49_exceptions.

(** C40. What governs a primary key is a direct-key signature, a subkey a binding signature, a user id or attribute one of the four certifications; and
    the revocations are the key, subkey and certification revocations (RFC 4880 5.2.1). *)
Theorem c40_types local v own sigs rev i k : modern local ->
  (most_recent local (Signed v (fst public_key_types) (snd public_key_types) own sigs) rev = Ok (Some i) -> nth_error sigs i = Some k -> k_type k = if rev then 32 else 31) /\
  (most_recent local (Signed v (fst subkey_types) (snd subkey_types) own sigs) rev = Ok (Some i) -> nth_error sigs i = Some k -> k_type k = if rev then 40 else 24) /\
  (most_recent local (Signed v (fst user_types) (snd user_types) own sigs) rev = Ok (Some i) -> nth_error sigs i = Some k -> if rev then k_type k = 48 else 16 <= k_type k <= 19).
Proof.
  intros M. repeat split; intros H N; destruct (proj1 (c40_last_wins local _ _ M) i H) as (k' & c & N' & (_ & T & _) & _); cbn [sd_sigs] in N'; assert (k' = k) by congruence; subst k'; cbn [sd_rev sd_self] in T;
    destruct rev; cbn in T; lia.
Qed.
Print Assumptions c40_types.
(** ... and every such signature counts: a single one by the key itself governs. *)
Theorem c40_types_all local v own ty ids c (x : sigobj) : modern local -> get_issuer_key_ids x = Ok ids -> (exists d : text, In d ids /\ In d own) -> get_creation_time local x = Ok c ->
  (forall (vals : list Z) (vd : option bool), In ty [31] -> most_recent local (Signed v (fst public_key_types) (snd public_key_types) own [KSig ty (V4 x) vals vd]) false = Ok (Some 0%nat)) /\
  (forall (vals : list Z) (vd : option bool), In ty [24] -> most_recent local (Signed v (fst subkey_types) (snd subkey_types) own [KSig ty (V4 x) vals vd]) false = Ok (Some 0%nat)) /\
  (forall (vals : list Z) (vd : option bool), In ty [16; 17; 18; 19] -> most_recent local (Signed v (fst user_types) (snd user_types) own [KSig ty (V4 x) vals vd]) false = Ok (Some 0%nat)) /\
  (forall (vals : list Z) (vd : option bool), In ty [32] -> most_recent local (Signed v (fst public_key_types) (snd public_key_types) own [KSig ty (V4 x) vals vd]) true = Ok (Some 0%nat)) /\
  (forall (vals : list Z) (vd : option bool), In ty [40] -> most_recent local (Signed v (fst subkey_types) (snd subkey_types) own [KSig ty (V4 x) vals vd]) true = Ok (Some 0%nat)) /\
  (forall (vals : list Z) (vd : option bool), In ty [48] -> most_recent local (Signed v (fst user_types) (snd user_types) own [KSig ty (V4 x) vals vd]) true = Ok (Some 0%nat)).
Proof.
  intros M I (d & D1 & D2) C.
  assert (X : forall sk rv (rev : bool) vals vd, In ty (if rev then rv else sk) -> most_recent local (Signed v sk rv own [KSig ty (V4 x) vals vd]) rev = Ok (Some 0%nat)).
  { intros sk rv rev vals vd T. unfold most_recent. cbn [sd_own sd_rev sd_self sd_sigs most_recent_from]. unfold sig_issuers, sig_created. cbn [k_body k_type]. rewrite I. cbn [bind].
    assert (Me : meet ids own = true) by (apply meet_spec; exists d; auto). rewrite Me. cbn [negb]. assert (Ti : is_in ty (if rev then rv else sk) = true) by (now apply is_in_spec). rewrite Ti. cbn [negb]. rewrite C. cbn [bind].
    assert (Y : year_1900 < c). { unfold get_creation_time in C. destruct (get_value x 2 ATime) as [w|]; [|discriminate C]. cbn [bind] in C. destruct w; cbn in C; try discriminate C; try (pose proof (M _ _ C); unfold year_1900; lia). }
    replace (year_1900 <? c) with true by lia. reflexivity. }
  repeat split; intros vals vd T; apply X; cbn in *; tauto.
Qed.
Print Assumptions c40_types_all.
Example c40_types_ex : most_recent secs (Signed 4 (fst user_types) (snd user_types) [kid1] [ex_sig 16 50 kid2 []; ex_sig 19 60 kid1 []; ex_sig 48 70 kid1 []]) false = Ok (Some 1%nat) /\
  most_recent secs (Signed 4 (fst user_types) (snd user_types) [kid1] [ex_sig 16 50 kid2 []; ex_sig 19 60 kid1 []; ex_sig 48 70 kid1 []]) true = Ok (Some 2%nat).
Proof. split; [vm_compute; reflexivity|vm_compute; reflexivity]. Qed.
(** Refuted: a self-signature with a target subpacket, whatever other signatures there are, hides the expiration time it gives. *)
Theorem c40_target_expiration_refuted local o i ty s vals vd n x l stored : 4 <= sd_version o -> most_recent local o false = Ok (Some i) -> nth_error (sd_sigs o) i = Some (KSig ty (V4 s) vals vd) ->
  n <> 0 -> get_value s 9 ATime = Ok (VInt n) -> get_subs s 31 = x :: l -> key_expiration local o stored = Ok (KVal VNone).
Proof.
  intros V M N Hn G T. unfold key_expiration. replace (sd_version o =? 2) with false by lia. replace (sd_version o =? 3) with false by lia. replace (4 <=? sd_version o) with true by lia. cbn [orb].
  unfold key_get. cbn [mixin_table]. unfold mixin_get. replace (4 <=? sd_version o) with true by lia. rewrite M. cbn [bind]. rewrite N. unfold sig_attr. cbn [k_body]. unfold get_key_expiration. rewrite G. cbn [bind truthy].
  replace (negb (negb (n =? 0))) with false by lia. unfold target_of. rewrite T. reflexivity.
Qed.
Print Assumptions c40_target_expiration_refuted.
Example c40_target_ex : key_expiration secs (Signed 4 [31] [32] [kid1] [ex_sig 31 100 kid1 [Sub 9 false (SbTime 60); Sub 31 false (SbTarget 1 2 [] None)]; ex_sig 16 5000 kid1 []]) None = Ok (KVal VNone).
Proof. vm_compute. reflexivity. Qed.

(** C49. Refuted: the values of a version 3 signature cannot be checked, whatever the key. *)
Theorem c49_version3_signature_refuted local key ty t d vals vd now strict : check_signature_values local key (KSig ty (V3 t d) vals vd) now strict = Err TypeError.
Proof. reflexivity. Qed.
Print Assumptions c49_version3_signature_refuted.
(** The revokers a signature names: the last eight digits of the fingerprints of its revocation key subpackets, hashed or not. *)
Theorem c49_revokers ty h u vals vd f : (forall s fp a b, In s (h ++ u) -> s = Sub (sub_type s) (sub_critical s) (SbRevKey fp a b) -> 8 <= zlen fp) ->
  (In f (revokers (KSig ty (V4 (sig_obj_of h u)) vals vd)) <-> exists c pre a b, In (Sub 12 c (SbRevKey (pre ++ f) a b)) (h ++ u) /\ zlen f = 8).
Proof.
  intros W. unfold revokers. cbn [k_body]. rewrite subs_filter. rewrite in_flat_map. split.
  - intros (o & I & J). apply in_map_iff in I as (s & <- & I). apply filter_In in I as (I & T). destruct s as [t c b]. cbn [sub_type] in T. apply Z.eqb_eq in T. subst t.
    destruct b; cbn [obj_of so_rest In] in J; try contradiction. destruct J as [<-|[]]. unfold last8.
    assert (L : 8 <= zlen fpr) by exact (W _ _ _ _ I eq_refl).
    exists c, (firstn (length fpr - 8) fpr), alg, sensitive.
    assert (Ls : zlen (skipn (length fpr - 8) fpr) = 8) by (unfold zlen in *; rewrite skipn_length; lia).
    assert (X : slice_from fpr (-8) = skipn (length fpr - 8) fpr).
    { rewrite <- (firstn_skipn (length fpr - 8) fpr) at 1. exact (slice_from_last (firstn (length fpr - 8) fpr) (skipn (length fpr - 8) fpr) 8 (eq_sym Ls) eq_refl). }
    rewrite X, firstn_skipn. split; [exact I|exact Ls].
  - intros (c & pre & a & b & I & L). exists (obj_of (Sub 12 c (SbRevKey (pre ++ f) a b))). split; [apply in_map, filter_In; split; [exact I|reflexivity]|]. cbn [obj_of so_rest In]. left. unfold last8. exact (slice_from_last pre f 8 (eq_sym L) eq_refl).
Qed.
Print Assumptions c49_revokers.
Example c49_revokers_ex : revokers (ex_sig 31 60 kid1 [Sub 12 false (SbRevKey (hex_text [1; 1; 1; 1; 1; 1; 1; 1; 1; 1; 1; 1; 8; 8; 8; 8; 2; 3; 4; 5]) 17 false)]) = [hex_text [2; 3; 4; 5]].
Proof. vm_compute. reflexivity. Qed.

(** C68. The names with a prefix: "gnupg-keyring:" is never looked up under the rest of the name, and a "gnupg-kbx:" name is always refused. *)
Theorem c68_prefixes : kr_prefix = str "gnupg-keyring:" /\ kbx_prefix = str "gnupg-kbx:".
Proof. split; reflexivity. Qed.
Print Assumptions c68_prefixes.
Theorem c68_keybox_refused fl md5 sha1 abspath fs hg rest force secret read_only : get_resource fl md5 sha1 abspath fs hg (str "gnupg-kbx:" ++ rest) force secret read_only = Err ValueError.
Proof. reflexivity. Qed.
Print Assumptions c68_keybox_refused.
(** A file that begins with GDBM's magic number in either byte order is taken for a database, which cannot be opened; one that holds "KBXf" at offset 8 after a 1
    at offset 4 for a keybox, which is refused. *)
Theorem c68_other_formats fl md5 sha1 abspath fs hg name force secret read_only rest a b c d : starts (str "gnupg-keyring:") name = false -> starts (str "gnupg-kbx:") name = false ->
  (forall m, In m [[19; 87; 154; 206]; [206; 154; 87; 19]] -> fs (abspath name) = Some (m ++ rest) -> get_resource fl md5 sha1 abspath fs hg name force secret read_only = Err (if hg then AttributeError else RuntimeError)) /\
  (forall e f g, ~ In a [19; 87; 154; 206] -> fs (abspath name) = Some ([a; b; c; d; 1; e; f; g] ++ str "KBXf" ++ rest) -> get_resource fl md5 sha1 abspath fs hg name force secret read_only = Err ValueError).
Proof.
  intros P1 P2. split.
  - intros m Im Hf. unfold get_resource. change kr_prefix with (str "gnupg-keyring:"). change kbx_prefix with (str "gnupg-kbx:"). rewrite P1, P2, Hf. assert (D : detect (Some (m ++ rest)) = RGdbm) by (cbn [In] in Im; destruct Im as [<-|[<-|[]]]; reflexivity). rewrite D. destruct hg; reflexivity.
  - intros e f g Na Hf. unfold get_resource. change kr_prefix with (str "gnupg-keyring:"). change kbx_prefix with (str "gnupg-kbx:"). rewrite P1, P2, Hf.
    assert (D : detect (Some ([a; b; c; d; 1; e; f; g] ++ str "KBXf" ++ rest)) = RKeybox).
    { unfold detect. assert (S : is_sub (firstn 4 ([a; b; c; d; 1; e; f; g] ++ str "KBXf" ++ rest)) gdbm_magic = false).
      { cbn [app firstn]. unfold is_sub. apply andb_false_iff. left. apply not_true_iff_false. intros X. apply existsb_exists in X as (i & I & X). apply zlist_eqb_spec in X. apply Na.
        apply in_seq in I. cbn [length gdbm_magic] in I, X. destruct i as [|[|[|[|[|i]]]]]; [injection X as <- _ _ _| | | | |lia]; try (injection X as <- _ _ _); cbn; auto. }
      rewrite S. assert (T : firstn 1 (slice ([a; b; c; d; 1; e; f; g] ++ str "KBXf" ++ rest) 4 8) = [1] /\ slice ([a; b; c; d; 1; e; f; g] ++ str "KBXf" ++ rest) 8 12 = [75; 66; 88; 102]).
      { split; [change ([a; b; c; d; 1; e; f; g] ++ str "KBXf" ++ rest) with ([a; b; c; d] ++ [1; e; f; g] ++ str "KBXf" ++ rest); rewrite (slice_app' [a; b; c; d] [1; e; f; g] (str "KBXf" ++ rest) 4 8 eq_refl eq_refl); reflexivity|]. exact (slice_app' [a; b; c; d; 1; e; f; g] (str "KBXf") rest 8 12 eq_refl eq_refl). }
      destruct T as [-> ->]. reflexivity. }
    rewrite D. reflexivity.
Qed.
Print Assumptions c68_other_formats.
Example c68_formats_ex : starts (str "gnupg-keyring:") (str "pubring.gpg") = false /\ starts (str "gnupg-kbx:") (str "pubring.gpg") = false /\ ~ In 0 [19; 87; 154; 206].
Proof. split; [reflexivity|]. split; [reflexivity|]. cbn. intuition discriminate. Qed.

(** C51. A key of ElGamal's encryption algorithm (16) accepts no signature: what gets past the other tests is a ValueError. *)
Theorem c51_encryption_key_accepts_nothing fl md5 sha1 H oid inv elg (k : KeyPackets.pubkey) (s : KeyOps.sigobj) i : KeyPackets.k_alg k = 16 ->
  (forall b, KeyOps.verify fl md5 sha1 H oid inv elg k s i <> Ok b) /\
  (forall kid ids d t p g y, KeyOps.obj_key_id fl md5 sha1 k = Ok kid -> KeyOps.issuer_key_ids s = Ok ids -> In kid ids -> KeyOps.so_pk s = 16 -> KeyPackets.k_p k = Some p -> KeyPackets.k_g k = Some g -> KeyPackets.k_y k = Some y ->
     KeyOps.hash_supported (KeyOps.so_hash s) = true -> Signable.item_signable fl i (KeyOps.so_version s) = Ok d -> Signable.sig_signable fl (KeyOps.so_version s) (KeyOps.so_type s) (KeyOps.so_pk s) (KeyOps.so_hash s) (KeyOps.so_hashed s) = Ok t ->
     firstn 2 (H (KeyOps.so_hash s) (d ++ t)) = KeyOps.so_hash2 s -> KeyOps.verify fl md5 sha1 H oid inv elg k s i = Err ValueError).
Proof.
  intros A. split.
  - intros b E. unfold KeyOps.verify in E. destruct (KeyOps.obj_key_id fl md5 sha1 k) as [kid|]; [|discriminate E]. cbn [bind] in E. destruct (KeyOps.issuer_key_ids s) as [ids|]; [|discriminate E]. cbn [bind] in E.
    destruct (negb (existsb (zlist_eqb kid) ids)); [discriminate E|]. rewrite A in E. destruct (16 =? KeyOps.so_pk s) eqn:Q; [|discriminate E]. cbn [negb] in E. apply Z.eqb_eq in Q.
    destruct (KeyOps.key_obj_ok k); [|discriminate E]. cbn [bind] in E. destruct (negb (KeyOps.hash_supported (KeyOps.so_hash s))); [discriminate E|]. destruct (Signable.item_signable fl i (KeyOps.so_version s)) as [d|]; [|discriminate E]. cbn [bind] in E.
    destruct (Signable.sig_signable fl (KeyOps.so_version s) (KeyOps.so_type s) (KeyOps.so_pk s) (KeyOps.so_hash s) (KeyOps.so_hashed s)) as [t|]; [|discriminate E]. cbn [bind] in E.
    match type of E with (if ?c then _ else _) = _ => destruct c; [discriminate E|] end. rewrite <- Q in E. discriminate E.
  - intros kid ids d t p g y K I In1 Pk P G Y Hs Di Ti H2. unfold KeyOps.verify. rewrite K. cbn [bind]. rewrite I. cbn [bind].
    assert (X : existsb (zlist_eqb kid) ids = true) by (now apply IssuerProofs.existsb_in). rewrite X. cbn [negb]. rewrite A, Pk. change (16 =? 16) with true. cbn [negb].
    unfold KeyOps.key_obj_ok. rewrite A. change (16 =? 17) with false. change (KeyPackets.is_elg_alg 16) with true. cbv iota. rewrite P, G, Y. cbn [forallb bind]. rewrite Hs. cbn [negb]. rewrite Di. cbn [bind]. rewrite Pk in Ti. rewrite Ti. cbn [bind].
    rewrite SignVerify.slice_firstn by lia. change (Z.to_nat 2) with 2%nat. rewrite H2, zlist_eqb_refl. reflexivity.
Qed.
Print Assumptions c51_encryption_key_accepts_nothing.
Example c51_encryption_key_ex : let k := KeyPackets.PubKey 4 1 16 None None None (Some 23) None (Some 5) (Some 8) in
  let s := KeyOps.SigObj 4 0 16 8 (DemoRsa.demo_H 8 (match Signable.item_signable Z.log2 (Signable.IBytes [66]) 4, Signable.sig_signable Z.log2 4 0 16 8 [Sub 16 false (SbIssuer (hex_text [0; 0; 0; 0; 0; 0; 0; 0]))] with Ok d, Ok t => d ++ t | _, _ => [] end)) [] [Sub 16 false (SbIssuer (hex_text [0; 0; 0; 0; 0; 0; 0; 0]))] [] in
  KeyOps.verify Z.log2 DemoRsa.demo_sha1 DemoRsa.demo_sha1 DemoRsa.demo_H DemoRsa.demo_oid DemoRsa.demo_inv DemoRsa.demo_elg k s (Signable.IBytes [66]) = Err ValueError.
Proof. vm_compute. reflexivity. Qed.
