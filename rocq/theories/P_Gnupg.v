(** C26, C28, C61: packets whose S2K specifier is GnuPG's extension (101) are read and can never be written. *)
From Verif Require Import Base BaseProofs Utils Framing S2k SessionKeys KeyPackets KeyProofs SigPackets DataPackets UserAttr Packets SpecS2k SessionKeysProofs.

Definition gnupg_spec (s : s2k) : Prop := match s with GnuPGS2K _ _ _ _ _ => True | _ => False end.
(** C26. A secret key with such a specifier (what gpg --export-secret-subkeys writes for the primary key) is read; re-serialising it always fails. *)
Theorem c26_gnupg_refuted fl rec data p s : sec_from_content data = Ok p -> s_s2k p = Some s -> gnupg_spec s -> forall d, sec_content fl rec p <> Ok d.
Proof.
  intros _ S G d E. unfold sec_content in E. apply bind_ok in E as (a & _ & E). rewrite S in E. destruct s; try contradiction. cbn [s2k_bytes bind] in E. discriminate E.
Qed.
Print Assumptions c26_gnupg_refuted.
Example c26_gnupg_used : let data := [4; 0; 0; 0; 9; 1; 0; 9; 1; 3; 0; 2; 3; 254; 7; 101; 2; 71; 78; 85; 1] in
  exists p, sec_from_content data = Ok p /\ s_s2k p = Some (GnuPGS2K 2 1001 7 None None) /\ sec_content Z.log2 (Ok []) p = Err TypeError.
Proof. eexists. split; [vm_compute; reflexivity|]. split; reflexivity. Qed.
(** C28. The same for a session key encrypted by passphrase. *)
Theorem c28_gnupg_refuted fl data p : skesk_from_content data = Ok p -> gnupg_spec (sk_s2k p) -> forall d, skesk_content fl p <> Ok d.
Proof. intros _ G d E. unfold skesk_content in E. apply bind_ok in E as (a & _ & E). destruct (sk_s2k p); try contradiction. discriminate E. Qed.
Print Assumptions c28_gnupg_refuted.
Example c28_gnupg_used : exists p, skesk_from_content [4; 7; 101; 2; 71; 78; 85; 1] = Ok p /\ gnupg_spec (sk_s2k p).
Proof. eexists. split; [vm_compute; reflexivity|exact Logic.I]. Qed.
(** C61. So a sequence that holds one is not written. *)
Theorem c61_gnupg_refuted fl rec ps p s : In p ps -> (exists sub k, p_body p = BSec sub k /\ s_s2k k = Some s) \/ (exists k, p_body p = BSkesk k /\ sk_s2k k = s) -> gnupg_spec s -> forall encs, mapM (pkt_bytes fl rec) ps <> Ok encs.
Proof.
  intros I B G encs E. assert (X : exists e, pkt_bytes fl rec p = Ok e). { revert encs E. induction ps as [|q ps IH]; intros encs E; [destruct I|]. cbn [mapM] in E. apply bind_ok in E as (e & E1 & E). apply bind_ok in E as (es & E2 & _). destruct I as [->|I]; [exists e; exact E1|exact (IH I es E2)]. }
  destruct X as (e & X). unfold pkt_bytes in X. apply bind_ok in X as (d & X & _). destruct B as [(sub & k & B & S)|(k & B & S)]; rewrite B in X; cbn [body_content] in X.
  - unfold sec_content in X. apply bind_ok in X as (a & _ & X). rewrite S in X. destruct s; try contradiction. discriminate X.
  - unfold skesk_content in X. apply bind_ok in X as (a & _ & X). subst s. destruct (sk_s2k k); try contradiction. discriminate X.
Qed.
Print Assumptions c61_gnupg_refuted.
(** C28. A packet without an encrypted session key (the key derived from the passphrase is the session key) comes back with an empty one, which means the
    same: every passphrase gives the same algorithm and key. *)
Theorem c28_no_session_key fl v s n : (forall i, 1024 <= i <= 65011712 -> fl i = Z.log2 i) -> byte v -> byte (s2k_sym s) -> SpecS2k.s2k_ok s -> symmetric_cipher_key_lengths (s2k_sym s) = Some n -> 0 <= n ->
  exists data, skesk_content fl (Skesk v (s2k_sym s) s None) = Ok data /\ skesk_from_content data = Ok (Skesk v (s2k_sym s) s (Some [])) /\
    forall H E sym pass, skesk_get_key H E s sym pass None = skesk_get_key H E s sym pass (Some []).
Proof.
  intros Hfl Hv Hs Ho Hn Hz. destruct (skesk_parse_back fl v s [] n Hfl Hv Hs Ho Hn ltac:(change (zlen (@nil Z)) with 0; lia) ltac:(constructor)) as (data & A & _ & B). exists data. split; [exact A|]. split; [exact B|]. reflexivity.
Qed.
Print Assumptions c28_no_session_key.
Example c28_no_session_key_used : skesk_content Z.log2 (Skesk 4 7 (SaltedS2K 8 7 [1; 2; 3; 4; 5; 6; 7; 8]) None) = Ok [4; 7; 1; 8; 1; 2; 3; 4; 5; 6; 7; 8] /\
  skesk_from_content [4; 7; 1; 8; 1; 2; 3; 4; 5; 6; 7; 8] = Ok (Skesk 4 7 (SaltedS2K 8 7 [1; 2; 3; 4; 5; 6; 7; 8]) (Some [])).
Proof. split; reflexivity. Qed.
