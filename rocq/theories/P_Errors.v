(** C110: what reading malformed input can raise. *)
From Verif Require Import Base BaseProofs Utils UtilsProofs Framing FramingProofs Text Utf8 Armor S2k SessionKeys KeyPackets SigPackets DataPackets UserAttr Packets
  Message TransKey Shortcuts ArmorProofs SpecErrors P_Sig P_Framing.

Lemma fo_bind {A B} (l : list exn) (r : res A) (k : A -> res B) : fails_only l r -> (forall a, r = Ok a -> fails_only l (k a)) -> fails_only l (bind r k).
Proof. destruct r; cbn; auto. Qed.
Lemma fo_mono {A} (l l' : list exn) (r : res A) : (forall e, In e l -> In e l') -> fails_only l r -> fails_only l' r.
Proof. destruct r; cbn; auto. Qed.
Lemma fo_get {A} (l : list exn) (d : list A) i : In IndexError l -> fails_only l (get d i).
Proof.
  intros I. unfold get. destruct (_ || _); [exact I|]. destruct (nth_error _ _); [exact Logic.I|exact I].
Qed.
Lemma fo_b2i l d o n : In IndexError l -> fails_only l (bytes_to_int d o n).
Proof.
  intros I. unfold bytes_to_int. assert (H : forall m i r, fails_only l (bytes_to_int_loop d o n i m r)); [|apply H].
  induction m; intros i r; cbn [bytes_to_int_loop]; [exact Logic.I|]. apply fo_bind; [now apply fo_get|]. intros; apply IHm.
Qed.
Lemma fo_short l d o : In IndexError l -> fails_only l (short_to_int d o). Proof. apply fo_b2i. Qed.
Lemma fo_long l d o : In IndexError l -> fails_only l (long_to_int d o). Proof. apply fo_b2i. Qed.
Lemma fo_mpi l d o : In IndexError l -> fails_only l (mpi_to_int d o).
Proof.
  intros I. unfold mpi_to_int, mpi_length, short_to_int. apply fo_bind; [apply fo_bind; [now apply fo_b2i|intros; exact Logic.I]|].
  intros n _. cbv zeta. apply fo_bind; [now apply fo_b2i|intros; exact Logic.I].
Qed.
Lemma fo_hex_loop l n d i : In IndexError l -> fails_only l (to_hex_loop n d i).
Proof.
  intros I. revert i. induction n; intros i; cbn; [exact Logic.I|]. apply fo_bind; [now apply fo_get|]. intros. apply fo_bind; [apply IHn|]. intros; exact Logic.I.
Qed.
Lemma hex_loop_len n d i r : to_hex_loop n d i = Ok r -> zlen r = 2 * Z.of_nat n.
Proof.
  revert i r. induction n; intros i r; cbn [to_hex_loop]; [intros [= <-]; reflexivity|].
  destruct (get d i); cbn [bind]; [|discriminate]. destruct (to_hex_loop n d (i + 1)) eqn:E; cbn [bind]; [|discriminate]. intros [= <-].
  apply IHn in E. rewrite !zlen_cons, E. lia.
Qed.
Lemma fo_hex l d o n : In IndexError l -> 0 <= n -> (n mod 2 = 0 \/ In AssertionError l) -> fails_only l (bytearray_to_hex d o (Some n)).
Proof.
  intros I P M. unfold bytearray_to_hex. destruct (n mod 2 =? 0) eqn:E; cbn [negb].
  2:{ apply Z.eqb_neq in E. destruct M as [M|M]; [congruence|exact M]. }
  apply fo_bind; [now apply fo_hex_loop|]. intros r R. apply hex_loop_len in R.
  destruct (zlen r <? n) eqn:L; [|exact Logic.I]. exfalso. apply Z.ltb_lt in L. apply Z.eqb_eq in E. clear - L R E P. lia.
Qed.
Lemma fo_npl l d o : In IndexError l -> fails_only l (new_packet_length d o).
Proof.
  intros I. unfold new_packet_length. apply fo_bind; [now apply fo_get|]. intros a _.
  destruct (a <? 192); [exact Logic.I|]. destruct (a <? 224); [apply fo_bind; [now apply fo_get|intros; exact Logic.I]|].
  destruct (a =? 255); [apply fo_bind; [now apply fo_long|intros; exact Logic.I]|exact Logic.I].
Qed.
Lemma fo_opl l d o : In IndexError l -> fails_only l (old_packet_length d o).
Proof.
  intros I. unfold old_packet_length. apply fo_bind; [now apply fo_get|]. intros a _.
  destruct (_ =? 0); [apply fo_bind; [now apply fo_get|intros; exact Logic.I]|].
  destruct (_ =? 1); [apply fo_bind; [now apply fo_short|intros; exact Logic.I]|].
  destruct (_ =? 2); [apply fo_bind; [now apply fo_long|intros; exact Logic.I]|exact Logic.I].
Qed.
Lemma fo_utf8 l d : In UnicodeError l -> fails_only l (utf8_decode d).
Proof.
  intros I. unfold utf8_decode. induction (items d) as [|o t IH]; cbn; [exact Logic.I|].
  apply fo_bind; [destruct o; [exact Logic.I|exact I]|]. intros. apply fo_bind; [exact IH|]. intros; exact Logic.I.
Qed.
Ltac inl := cbn; tauto.
Ltac fo := repeat first
  [ exact Logic.I
  | inl
  | apply fo_get; inl | apply fo_short; inl | apply fo_long; inl | apply fo_mpi; inl | apply fo_npl; inl | apply fo_utf8; inl
  | apply fo_hex; [inl|lia|left; reflexivity]
  | assumption
  | match goal with
    | |- fails_only _ (if ?b then _ else _) => destruct b eqn:?
    | |- fails_only _ (match ?x with _ => _ end) => destruct x eqn:?
    | |- fails_only _ (bind _ _) => apply fo_bind; [|intros ?x ?]
    | |- fails_only _ (let '(_, _) := ?x in _) => destruct x
    end; cbv beta iota zeta ].
Lemma fo_s2k l sym d o : wf d -> In IndexError l -> In ValueError l -> In AssertionError l -> fails_only l (parse_s2k_bytes sym d o).
Proof.
  intros W I V A. unfold parse_s2k_bytes, gnupg_from_bytes.
  repeat first [ exact Logic.I | exact V | apply fo_get; exact I
  | match goal with
    | |- fails_only _ (if ?b then _ else _) => destruct b eqn:?
    | |- fails_only _ (bind (bytearray_to_hex _ _ _) _) => apply fo_bind; [apply fo_hex; [exact I| |right; exact A]|intros ? ?]
    | |- fails_only _ (bind _ _) => apply fo_bind; [|intros ? ?]
    | G : get d ?o = Ok ?x |- 0 <= ?x => apply (get_byte d o x W) in G; unfold byte in G; clear - G; lia
    end; cbv beta iota zeta ].
Qed.

Lemma fo_pub l d : In IndexError l -> In ValueError l -> In NotImplementedError l -> fails_only l (pub_values d).
Proof.
  intros I V N. unfold pub_values.
  repeat first [ exact Logic.I | exact V | exact N | apply fo_get; exact I | apply fo_short; exact I | apply fo_long; exact I | apply fo_mpi; exact I
  | match goal with
    | |- fails_only _ (if ?b then _ else _) => destruct b eqn:?
    | |- fails_only _ (bind _ _) => apply fo_bind; [|intros ? ?]
    | |- fails_only _ (match ?x with _ => _ end) => destruct x eqn:?
    end; cbv beta iota zeta ].
Qed.
Lemma fo_attr d o : fails_only [IndexError; ValueError] (attr_from_data d o).
Proof. unfold attr_from_data, attr_from_content. fo. Qed.


Lemma npl_after d o o' n p : wf d -> 0 <= o -> new_packet_length d o = Ok (o', n, p) -> o < o' /\ 0 <= n.
Proof. intros W P H. destruct (new_packet_length_bound d o o' n p P W H) as (? & ?). lia. Qed.
Lemma attr_after d o a o' : wf d -> 0 <= o -> attr_from_data d o = Ok (a, o') -> o < o'.
Proof.
  intros W P. unfold attr_from_data. destruct (new_packet_length d o) as [[[o1 n] p]|] eqn:E; cbn [bind]; [|discriminate].
  destruct (npl_after _ _ _ _ _ W P E). destruct p; [discriminate|]. destruct (get d o1); cbn [bind]; [|discriminate].
  destruct (attr_from_content _ _); cbn [bind]; [|discriminate]. intros [= <- <-]. lia.
Qed.
Lemma fo_attrs d : wf d -> fails_only [IndexError; ValueError] (attrs_from_content d).
Proof.
  intros W. unfold attrs_from_content.
  assert (H : forall fuel o acc, 0 <= o -> zlen d - o < Z.of_nat fuel -> (0 < fuel)%nat -> fails_only [IndexError; ValueError] (attr_loop fuel d o acc)).
  { induction fuel as [|f IH]; intros o acc P F F0; [lia|]. cbn [attr_loop]. destruct (o <? zlen d) eqn:E; [|exact Logic.I].
    apply fo_bind; [apply fo_attr|]. intros [a o'] R. apply (attr_after _ _ _ _ W P) in R. apply IH; lia. }
  apply H; [lia|unfold zlen; lia|lia].
Qed.
Definition sig_set : list exn := [IndexError; ValueError; AssertionError; TypeError; UnicodeError].
Lemma fo_sub emb ty d : (forall x, wf x -> fails_only (OutOfFuel :: sig_set) (emb x)) -> wf d -> fails_only (OutOfFuel :: sig_set) (subbody_from emb ty d).
Proof.
  intros E W. unfold subbody_from, bool_from.
  repeat first [ exact Logic.I | apply E; exact W
  | apply fo_hex; [inl|first [lia|match goal with G : negb (2 <? zlen d) = false |- _ => clear - G; lia end]|first [left; reflexivity|right; inl]]
  | apply fo_get; inl | apply fo_short; inl | apply fo_long; inl | apply fo_utf8; inl | inl
  | match goal with
    | |- fails_only _ (if ?b then _ else _) => destruct b eqn:?
    | |- fails_only _ (bind _ _) => apply fo_bind; [|intros ? ?]
    | |- fails_only _ (let '(_, _) := ?x in _) => destruct x eqn:?
    | |- fails_only _ (match ?x with _ => _ end) => destruct x eqn:?
    end; cbv beta iota zeta ].
Qed.
Lemma fo_sub_loop emb d : (forall x, wf x -> fails_only (OutOfFuel :: sig_set) (emb x)) -> wf d -> forall fuel o e acc, fails_only (OutOfFuel :: sig_set) (sub_loop fuel emb d o e acc).
Proof.
  intros E W. induction fuel as [|f IH]; intros o e acc; cbn [sub_loop]; [inl|]. destruct (o <? e); [|exact Logic.I].
  apply fo_bind; [|intros [s o'] _; apply IH]. unfold sub_from_data. apply fo_bind; [apply fo_npl; inl|]. intros [[o1 n] p] _.
  destruct p; [inl|]. apply fo_bind; [apply fo_get; inl|]. intros t _. cbv zeta. apply fo_bind; [|intros; exact Logic.I].
  apply fo_sub; [exact E|]. now apply slice_wf.
Qed.
Lemma fo_values d : forall fuel o acc, fails_only (OutOfFuel :: sig_set) (sig_values fuel d o acc).
Proof.
  induction fuel as [|f IH]; intros o acc; cbn [sig_values]; [inl|]. destruct (o <? zlen d); [|exact Logic.I].
  apply fo_bind; [apply fo_mpi; inl|]. intros [v o'] _. apply IH.
Qed.
Lemma fo_sig_fuel : forall fuel d, wf d -> fails_only (OutOfFuel :: sig_set) (SigPackets.sig_from fuel d).
Proof.
  induction fuel as [|f IH]; intros d W; cbn [SigPackets.sig_from]; [inl|]. unfold sig_body.
  apply fo_bind; [apply fo_get; inl|]. intros v _. destruct (_ || _).
  - apply fo_bind; [apply fo_get; inl|]. intros five _. destruct (negb _); [inl|].
    repeat (apply fo_bind; [first [apply fo_get; inl|apply fo_long; inl|apply fo_hex; [inl|lia|left; reflexivity]|apply fo_values]|intros ? ?]). exact Logic.I.
  - destruct (v =? 4); [|inl].
    do 4 (apply fo_bind; [first [apply fo_get; inl|apply fo_short; inl]|intros ? ?]).
    apply fo_bind; [apply fo_sub_loop; assumption|intros [hs o] _]. apply fo_bind; [apply fo_short; inl|intros l2 _].
    apply fo_bind; [apply fo_sub_loop; assumption|intros [us o'] _]. apply fo_bind; [apply fo_values|]. intros; exact Logic.I.
Qed.
Lemma fo_sig d : wf d -> fails_only sig_set (sig_from_content d).
Proof.
  intros W. pose proof (fo_sig_fuel (S (length d)) d W) as F. pose proof (c31_terminates d W) as T. unfold sig_from_content in *.
  destruct (SigPackets.sig_from _ d) as [s|e]; cbn in F |- *; [exact Logic.I|]. destruct F as [<-|F]; [now elim T|exact F].
Qed.
(** every packet class *)
Lemma fo_body ty d : wf d -> fails_only (content_errors ty) (body_dec ty d).
Proof.
  intros W. unfold body_dec.
  destruct (ty =? 1) eqn:E1; [apply Z.eqb_eq in E1; subst ty; cbn [content_errors]; unfold pkesk_from_content; fo|].
  destruct (ty =? 2) eqn:E2; [apply Z.eqb_eq in E2; subst ty; cbn [content_errors]; apply fo_bind; [now apply fo_sig|intros; exact Logic.I]|].
  destruct (ty =? 3) eqn:E3; [apply Z.eqb_eq in E3; subst ty; cbn [content_errors]; apply fo_bind; [|intros; exact Logic.I]|].
  { unfold skesk_from_content. do 2 (apply fo_bind; [apply fo_get; inl|intros ? ?]). apply fo_bind; [apply fo_s2k; first [assumption|inl]|]. intros [s o] _.
    destruct (symmetric_cipher_key_lengths _); [exact Logic.I|inl]. }
  destruct (ty =? 4) eqn:E4; [apply Z.eqb_eq in E4; subst ty; cbn [content_errors]; unfold onepass_from_content; fo|].
  assert (S : fails_only (content_errors 5) (sec_from_content d)).
  { unfold sec_from_content. apply fo_bind; [apply fo_pub; inl|]. intros [o k] _. apply fo_bind; [apply fo_get; inl|]. intros u _. cbv zeta.
    apply fo_bind. { destruct (u =? 0); [exact Logic.I|]. destruct (_ || _); [|exact Logic.I]. apply fo_bind; [apply fo_get; inl|]. intros s _.
      apply fo_bind; [apply fo_s2k; first [assumption|inl]|]. intros [? ?] _. exact Logic.I. }
    intros [[sp sy] o'] _. destruct (_ || _); [inl|]. destruct (symmetric_cipher_block_lengths _); [|inl]. destruct sp; [exact Logic.I|inl]. }
  assert (P : fails_only (content_errors 6) (pub_from_content d)).
  { unfold pub_from_content. apply fo_bind; [apply fo_pub; inl|]. intros [o k] _. exact Logic.I. }
  destruct (ty =? 5) eqn:E5; [apply Z.eqb_eq in E5; subst ty; apply fo_bind; [exact S|intros; exact Logic.I]|].
  destruct (ty =? 7) eqn:E7; [apply Z.eqb_eq in E7; subst ty; apply fo_bind; [exact S|intros; exact Logic.I]|].
  destruct (ty =? 6) eqn:E6; [apply Z.eqb_eq in E6; subst ty; apply fo_bind; [exact P|intros; exact Logic.I]|].
  destruct (ty =? 14) eqn:E14; [apply Z.eqb_eq in E14; subst ty; apply fo_bind; [exact P|intros; exact Logic.I]|].
  destruct (ty =? 17) eqn:E17; [apply Z.eqb_eq in E17; subst ty; apply fo_bind; [now apply fo_attrs|intros; exact Logic.I]|].
  apply fo_bind; [|intros; exact Logic.I]. unfold data_from.
  repeat match goal with
  | |- fails_only _ (if ?t =? ?n then _ else _) => destruct (t =? n) eqn:?; [match goal with H : (t =? n) = true |- _ => apply Z.eqb_eq in H; subst t end; cbn [content_errors]|]
  end; try exact Logic.I.
  all: unfold compressed_from, symenc_from, marker_from, literal_from, trust_from, userid_from, comment_from, seipd_from, mdc_from, control_from; fo.
Qed.

(** ** C110. One packet content: an object, or an exception of the list of its type, and nothing else *)
Theorem c110_content : forall ty d e, wf d -> body_dec ty d = Err e -> In e (content_errors ty).
Proof. intros ty d e W H. pose proof (fo_body ty d W) as F. rewrite H in F. exact F. Qed.
Print Assumptions c110_content.
(** a small content for each entry *)
Definition bad (ty : Z) (e : exn) : bytes :=
  match ty, e with
  | 2, ValueError => [5] | 2, AssertionError => [4; 0; 1; 2; 0; 2; 1; 2] | 2, TypeError => [4; 0; 1; 2; 0; 24; 23; 12] ++ repeat 0 22
  | 2, UnicodeError => [4; 0; 1; 2; 0; 3; 2; 28; 255]
  | 3, ValueError => [4; 9; 2] | 3, AssertionError => [4; 9; 101; 2; 71; 78; 85; 2; 1] | 3, TypeError => [4; 200; 0; 2]
  | 6, ValueError | 14, ValueError => [1; 0; 0; 0; 0] | 6, NotImplementedError | 14, NotImplementedError => [4; 0; 0; 0; 0; 99]
  | 5, ValueError | 7, ValueError => [1; 0; 0; 0; 0] | 5, NotImplementedError | 7, NotImplementedError => [4; 0; 0; 0; 0; 99]
  | 5, AssertionError | 7, AssertionError => [4; 0; 0; 0; 0; 1; 0; 1; 1; 0; 1; 1; 254; 9; 101; 2; 71; 78; 85; 2; 1]
  | 5, UnboundLocalError | 7, UnboundLocalError => [4; 0; 0; 0; 0; 1; 0; 1; 1; 0; 1; 1; 0]
  | 11, UnicodeError => [117; 0; 0; 0; 0; 0; 255]
  | 12, ValueError => [0; 128]
  | 17, ValueError => [17; 1; 16; 0; 2] ++ repeat 0 13 | 17, IndexError => [0]
  | 16, _ | 61, _ => [255]
  | _, _ => []
  end.
(** and every exception of the list is raised by some content of that type *)
Theorem c110_content_all : forall ty e, In e (content_errors ty) -> exists d, wf d /\ body_dec ty d = Err e.
Proof.
  intros ty e I. exists (bad ty e). unfold content_errors in I.
  assert (W : forall l, wfb l = true -> wf l). { intros l B. apply Forall_forall. intros x J. unfold wfb in B. rewrite forallb_forall in B. specialize (B x J). unfold byteb, byte in *. lia. }
  repeat match type of I with
  | In _ (match ?t with _ => _ end) => destruct t
  end; cbn in I; repeat (destruct I as [<-|I]; [split; [apply W|]; vm_compute; reflexivity|]); contradiction.
Qed.
Print Assumptions c110_content_all.

(** ** sequences of packets *)
Lemma pfd_wf d : wf d -> forall fuel o tag h acc o' h' t b, wf acc -> pfd_loop fuel d o tag h acc = Ok (o', h', t, b) -> wf b.
Proof.
  intros W. induction fuel as [|f IH]; intros o tag h acc o' h' t b A H; cbn [pfd_loop] in H; [discriminate|].
  apply bind_ok in H as ([[o1 t1] h1] & _ & H). destruct h1; cycle 1.
  - apply bind_ok in H as ([o2 n] & _ & H). injection H as _ _ _ <-. apply Forall_app. split; [exact A|now apply slice_wf].
  - apply bind_ok in H as ([[o2 n] inc] & _ & H). assert (A' : wf (acc ++ slice d o2 (o2 + n))) by (apply Forall_app; split; [exact A|now apply slice_wf]).
    destruct inc; [exact (IH _ _ _ _ _ _ _ _ A' H)|]. injection H as _ _ _ <-. exact A'.
Qed.
Lemma raw_wf d o o' r : wf d -> raw_from_data d o = Ok (o', r) -> wf (pcontent r).
Proof.
  intros W H. unfold raw_from_data in H. apply bind_ok in H as ([[[o1 h1] t1] b] & E & H). injection H as _ <-. cbn.
  exact (pfd_wf d W _ _ _ _ _ _ _ _ _ (Forall_nil _) E).
Qed.
Lemma content_reader ty e : In e (content_errors ty) -> In e reader_errors.
Proof.
  intros I. unfold content_errors in I.
  repeat match type of I with
  | In _ (match ?t with _ => _ end) => destruct t
  end; cbn in I |- *; tauto.
Qed.
Lemma fo_dec r : wf (pcontent r) -> fails_only reader_errors (pkt_dec r).
Proof.
  intros W. unfold pkt_dec. apply fo_bind; [|intros; exact Logic.I]. apply (fo_mono (content_errors (ptype r))); [apply content_reader|now apply fo_body].
Qed.
Lemma loop_only d : wf d -> forall fuel o, 0 <= o -> zlen d - o < Z.of_nat fuel -> (0 < fuel)%nat -> ends_only reader_errors (parse_loop fuel pkt_dec d o).
Proof.
  intros W. induction fuel as [|f IH]; intros o P F F0; [lia|]. cbn [parse_loop]. destruct (o <? zlen d) eqn:E; [|exact Logic.I].
  unfold packet_from_packet_data. destruct (raw_from_data d o) as [[o' r]|e] eqn:R; cbn [bind].
  - pose proof (fo_dec r (raw_wf _ _ _ _ W R)) as D. pose proof (raw_from_data_progress _ _ _ _ W P R).
    destruct (pkt_dec r) as [p|e]; cbn [bind]; [|exact D]. specialize (IH o' ltac:(lia) ltac:(lia) ltac:(lia)).
    destruct (parse_loop f pkt_dec d o') as [ps x]. exact IH.
  - rewrite (raw_from_data_err _ _ _ W P R). inl.
Qed.
(** Octets: the packets, ended normally or by one of the eight exceptions; never anything else, and never without an end *)
Theorem c110_octets : forall d, wf d -> ends_only reader_errors (parse_binary_packet_data pkt_dec d).
Proof. intros d W. apply (loop_only d W); [lia|unfold zlen; lia|lia]. Qed.
Print Assumptions c110_octets.
(** a packet of the new format for each *)
Definition bad_octets (e : exn) : bytes :=
  let p ty := [192 + ty; zlen (bad ty e)] ++ bad ty e in
  match e with
  | IndexError => p 1 | ValueError | AssertionError | TypeError | UnicodeError => p 2 | NotImplementedError | UnboundLocalError => p 5 | AttributeError => p 10 | _ => []
  end.
Theorem c110_octets_all : forall e, In e reader_errors -> exists d, wf d /\ parse_binary_packet_data pkt_dec d = ([], Some e).
Proof.
  intros e I. exists (bad_octets e).
  assert (W : forall l, wfb l = true -> wf l). { intros l B. apply Forall_forall. intros x J. unfold wfb in B. rewrite forallb_forall in B. specialize (B x J). unfold byteb, byte in *. lia. }
  cbn in I. repeat (destruct I as [<-|I]; [split; [apply W|]; vm_compute; reflexivity|]); contradiction.
Qed.
Print Assumptions c110_octets_all.

(** ** the same from a file object *)
Lemma fread_wf n d : wf d -> wf (fst (fread n d)) /\ wf (snd (fread n d)) /\ (length (snd (fread n d)) <= length d)%nat.
Proof.
  intros W. cbn. rewrite <- (firstn_skipn (Z.to_nat n) d) in W. apply Forall_app in W as [A B]. repeat split; [exact A|exact B|]. rewrite skipn_length. lia.
Qed.
Lemma fo_ord l d : In TypeError l -> fails_only l (ord_read d).
Proof. destruct d; cbn; auto. Qed.
Lemma ord_after d b s : wf d -> ord_read d = Ok (b, s) -> wf s /\ (length s < length d)%nat.
Proof. destruct d; cbn; [discriminate|]. intros W [= <- <-]. split; [exact (Forall_inv_tail W)|lia]. Qed.
Lemma old_after d n s : wf d -> old_packet_length_from_stream d = Ok (n, s) -> wf s /\ (length s < length d)%nat.
Proof.
  intros W H. unfold old_packet_length_from_stream in H. apply bind_ok in H as ([t s0] & E & H). destruct (ord_after _ _ _ W E) as [W0 L]. cbv zeta in H.
  destruct (_ =? 0) in H; [destruct (ord_after _ _ _ W0 H); split; [assumption|lia]|].
  destruct (_ =? 1) in H; [destruct (fread_wf 2 s0 W0) as (A & B & C); destruct (fread 2 s0) as [x y]; apply bind_ok in H as (l & _ & H); injection H as _ <-; cbn [fst snd] in *; split; [assumption|lia]|].
  destruct (_ =? 2) in H; [destruct (fread_wf 4 s0 W0) as (A & B & C); destruct (fread 4 s0) as [x y]; apply bind_ok in H as (l & _ & H); injection H as _ <-; cbn [fst snd] in *; split; [assumption|lia]|discriminate].
Qed.
Lemma new_after d n p s : wf d -> new_packet_length_from_stream d = Ok (n, p, s) -> wf s /\ (length s < length d)%nat.
Proof.
  intros W H. unfold new_packet_length_from_stream in H. apply bind_ok in H as ([t s0] & E & H). destruct (ord_after _ _ _ W E) as [W0 L].
  destruct (t <? 192); [injection H as _ _ <-; split; [assumption|lia]|].
  destruct (t <? 224); [apply bind_ok in H as ([b s1] & E1 & H); destruct (ord_after _ _ _ W0 E1); injection H as _ _ <-; split; [assumption|lia]|].
  destruct (t =? 255); [|injection H as _ _ <-; split; [assumption|lia]].
  destruct (fread_wf 4 s0 W0) as (A & B & C); destruct (fread 4 s0) as [x y]; apply bind_ok in H as (l & _ & H); injection H as _ _ <-; cbn [fst snd] in *; split; [assumption|lia].
Qed.
Definition stream_set : list exn := [TypeError; IndexError; ValueError].
Lemma pfs_only : forall fuel d prev acc, wf d -> wf acc -> (length d < fuel)%nat ->
  match pfs_loop fuel d prev acc with Ok (_, _, b, s) => wf b /\ wf s /\ (length s < length d)%nat | Err e => In e stream_set end.
Proof.
  induction fuel as [|f IH]; intros d prev acc W A F; [lia|]. cbn [pfs_loop].
  destruct (ord_read d) as [[first s1]|e] eqn:E; cbn [bind]; [|destruct d; [injection E as <-; inl|discriminate]].
  destruct (ord_after _ _ _ W E) as [W1 L1]. cbv zeta.
  destruct (match prev with Some t => _ | None => _ end) as [u|e] eqn:P; cbn [bind]; [|destruct prev as [t|]; [destruct (t =? _); [discriminate|injection P as <-; inl]|discriminate]].
  destruct (Z.land first 64 =? 0).
  - destruct (old_packet_length_from_stream d) as [[n s2]|e] eqn:O; cbn [bind].
    + destruct (old_after _ _ _ W O) as [W2 L2]. destruct (fread_wf n s2 W2) as (X & Y & Z). destruct (fread n s2) as [b s3]. cbn [fst snd] in *.
      repeat split; [apply Forall_app; now split|exact Y|lia].
    + unfold old_packet_length_from_stream in O. assert (G : fails_only stream_set (old_packet_length_from_stream d)).
      { unfold old_packet_length_from_stream, fread. fo. apply fo_ord; inl. apply fo_ord; inl. }
      unfold old_packet_length_from_stream in G. rewrite O in G. exact G.
  - destruct (new_packet_length_from_stream s1) as [[[n inc] s2]|e] eqn:O; cbn [bind].
    + destruct (new_after _ _ _ _ W1 O) as [W2 L2]. destruct (fread_wf n s2 W2) as (X & Y & Z). destruct (fread n s2) as [b s3]. cbn [fst snd] in *.
      assert (A' : wf (acc ++ b)) by (apply Forall_app; now split).
      destruct inc; [|repeat split; [exact A'|exact Y|lia]].
      specialize (IH s3 (Some (Z.land first 63)) (acc ++ b) Y A' ltac:(lia)). destruct (pfs_loop f s3 _ _) as [[[[? ?] ?] ?]|e]; [|exact IH].
      destruct IH as (I1 & I2 & I3). repeat split; [exact I1|exact I2|lia].
    + assert (G : fails_only stream_set (new_packet_length_from_stream s1)).
      { unfold new_packet_length_from_stream, fread. fo. apply fo_ord; inl. apply fo_ord; inl. }
      rewrite O in G. exact G.
Qed.
Theorem c110_stream : forall d, wf d -> ends_only reader_errors (parse_binary_packet_stream pkt_dec d).
Proof.
  intros d W. unfold parse_binary_packet_stream.
  assert (H : forall fuel s, wf s -> (length s < fuel)%nat -> ends_only reader_errors (parse_stream_loop fuel pkt_dec s)).
  { induction fuel as [|f IH]; intros s Ws F; [lia|]. cbn [parse_stream_loop]. destruct s as [|c t]; [exact Logic.I|]. remember (c :: t) as s eqn:Es. clear Es.
    unfold packet_from_packet_stream. pose proof (pfs_only (S (length s)) s None [] Ws (Forall_nil _) ltac:(lia)) as P.
    destruct (pfs_loop (S (length s)) s None []) as [[[[h tg] b] r]|e]; cbn [bind]; [|cbn in P |- *; tauto].
    destruct P as (Wb & Wr & L). pose proof (fo_dec (Raw h tg b) Wb) as D. destruct (pkt_dec (Raw h tg b)) as [p|e]; cbn [bind]; [|exact D].
    specialize (IH r Wr ltac:(lia)). destruct (parse_stream_loop f pkt_dec r). exact IH. }
  apply H; [exact W|lia].
Qed.
Print Assumptions c110_stream.
Theorem c110_stream_all : forall e, In e reader_errors -> exists d, wf d /\ parse_binary_packet_stream pkt_dec d = ([], Some e).
Proof.
  intros e I. exists (bad_octets e).
  assert (W : forall l, wfb l = true -> wf l). { intros l B. apply Forall_forall. intros x J. unfold wfb in B. rewrite forallb_forall in B. specialize (B x J). unfold byteb, byte in *. lia. }
  cbn in I. repeat (destruct I as [<-|I]; [split; [apply W|]; vm_compute; reflexivity|]); contradiction.
Qed.
Print Assumptions c110_stream_all.

(** ** armored text *)
Lemma fo_skip l : fails_only armor_errors (skip_blank l).
Proof. induction l as [|x t IH]; cbn [skip_blank]; [inl|]. destruct (is_blank x); [exact IH|exact Logic.I]. Qed.
Lemma fo_headers l : forall h, fails_only armor_errors (parse_headers h l).
Proof.
  induction l as [|x t IH]; intros h; cbn [parse_headers]; [inl|]. destruct (is_blank x); [exact Logic.I|]. destruct (split_once _ x) as [[k v]|]; [apply IH|inl].
Qed.
Lemma fo_take l : fails_only armor_errors (take_data l).
Proof.
  induction l as [|x t IH]; cbn [take_data]; [inl|]. destruct (zlist_eqb _ _); [exact Logic.I|]. apply fo_bind; [exact IH|]. intros [[? ?] ?] _. exact Logic.I.
Qed.
Lemma fo_b64 x : fails_only armor_errors (b64decode x).
Proof.
  unfold b64decode. destruct (forallb _ x); [|inl]. destruct (a2b x 0 0 0) eqn:E; [exact Logic.I|]. apply a2b_err in E. subst. inl.
Qed.
Theorem c110_armor : forall t e, from_ascii t = Err e -> In e armor_errors.
Proof.
  intros t e H. assert (F : fails_only armor_errors (from_ascii t)); [|rewrite H in F; exact F]. clear H. unfold from_ascii.
  apply fo_bind; [apply fo_skip|]. intros [hl r] _. destruct (header_match hl) as [[[ty p] tp]|]; [|inl].
  apply fo_bind; [apply fo_headers|]. intros [h r1] _. apply fo_bind; [apply fo_take|]. intros [[dl sl] r2] _.
  apply fo_bind; [apply fo_b64|]. intros data _. apply fo_bind; [apply fo_b64|]. intros cd _.
  do 3 (apply fo_bind; [apply fo_get; inl|intros ? _]). cbv zeta. destruct (negb _); [inl|]. apply fo_bind; [apply fo_get; inl|]. intros tl _.
  destruct (negb _); [inl|exact Logic.I].
Qed.
Print Assumptions c110_armor.
Theorem c110_armor_all : (exists t, from_ascii t = Err IndexError) /\ exists t, from_ascii t = Err ValueError.
Proof. split; [exists []|exists (str "x")]; vm_compute; reflexivity. Qed.
Print Assumptions c110_armor_all.
Lemma armor_wf t a : from_ascii t = Ok a -> wf (adata a).
Proof.
  unfold from_ascii. intros H. apply bind_ok in H as ([hl r] & _ & H). destruct (header_match hl) as [[[ty p] tp]|]; [|discriminate].
  apply bind_ok in H as ([h r1] & _ & H). apply bind_ok in H as ([[dl sl] r2] & _ & H). apply bind_ok in H as (data & D & H). apply bind_ok in H as (cd & _ & H).
  do 3 (apply bind_ok in H as (? & _ & H)). cbv zeta in H. destruct (negb _) in H; [discriminate|]. apply bind_ok in H as (? & _ & H). destruct (negb _) in H; [discriminate|].
  injection H as <-. cbn. exact (b64decode_wf _ _ D).
Qed.

(** ** messages and keys *)
Definition input_wf (i : input) : Prop := match i with InBytes b => wf b | InStr _ => True end.
Lemma listed_only r : ends_only reader_errors r -> fails_only reader_errors (listed r).
Proof. destruct r as [ps [e|]]; cbn; auto. Qed.
Lemma fo_packets i a : input_wf i -> fails_only reader_errors (read_packets i a).
Proof.
  intros W. unfold read_packets. set (step := if input_armor i then _ else _).
  assert (S : match step with Ok (j, _) => input_wf j | Err e => e = UnicodeError end).
  { unfold step. destruct (input_armor i); [|exact W]. destruct i; [destruct (forallb _ b); [exact Logic.I|reflexivity]|exact Logic.I]. }
  destruct step as [[j b]|e]; cbn [bind]; [|subst; inl]. destruct b.
  - destruct j as [b|t]; [destruct (forallb _ b); inl|]. apply fo_bind.
    + unfold parse_ascii_packet_data. apply fo_bind; [|intros; exact Logic.I]. destruct (from_ascii t) eqn:E; [exact Logic.I|]. apply c110_armor in E. cbn in E |- *. tauto.
    + intros r R. unfold parse_ascii_packet_data in R. apply bind_ok in R as (ar & E & R). injection R as <-. apply listed_only, c110_octets. exact (armor_wf _ _ E).
  - destruct j as [b|[|c t]]; [apply listed_only, c110_octets; exact S|exact Logic.I|inl].
Qed.
Lemma fo_esk : forall rest keys p, fails_only reader_errors (esk_loop keys p rest).
Proof.
  induction rest as [|q t IH]; intros keys p; cbn [esk_loop]; (destruct (is_esk_type _); [|exact Logic.I]); (apply fo_bind; [unfold session_key_of; destruct (p_body p); inl|]); intros k _; [exact Logic.I|apply IH].
Qed.
Lemma fo_plain p rest : fails_only reader_errors (open_plain p rest).
Proof.
  unfold open_plain, encrypted_from. destruct (_ || _).
  - apply fo_bind; [apply fo_esk|]. intros [keys q] _. destruct keys; [inl|]. destruct (_ || _); [|inl]. apply fo_bind; [|intros; exact Logic.I].
    unfold encdata_of. destruct (p_body q); try inl. destruct d; inl.
  - destruct (p_body p); try inl. destruct d; try inl. unfold literal_message. destruct time; inl.
Qed.
Lemma fo_signed ps : forall one sigs m, fails_only reader_errors (signed_loop ps one sigs m).
Proof.
  induction ps as [|p t IH]; intros one sigs m; cbn [signed_loop]; [exact Logic.I|].
  destruct (p_body p); try apply IH; destruct m; try inl.
  all: apply fo_bind; [|intros; apply IH].
  all: try apply fo_plain. unfold msig_of. destruct s; destruct (_ : bool); inl.
Qed.
(** reading a message: the same eight exceptions *)
Theorem c110_message : forall i armored e, input_wf i -> read_message i armored = Err e -> In e reader_errors.
Proof.
  intros i a e W H. assert (F : fails_only reader_errors (read_message i a)); [|rewrite H in F; exact F]. clear H. unfold read_message.
  apply fo_bind; [now apply fo_packets|]. intros ps _. unfold open_message. destruct ps as [|p t]; [inl|]. destruct (p_body p); first [apply fo_signed|apply fo_plain].
Qed.
Print Assumptions c110_message.
Section Key.
Variables (local : Z -> res Z) (magic : bytes -> text).
Definition key_fails (e : exn) : Prop := In e key_errors \/ exists t, local t = Err e.
Definition fk {A} (r : res A) : Prop := match r with Ok _ => True | Err e => key_fails e end.
Lemma fk_bind {A B} (r : res A) (k : A -> res B) : fk r -> (forall a, fk (k a)) -> fk (bind r k).
Proof. destruct r; cbn; auto. Qed.
Lemma fk_mapM {A B} (f : A -> res B) l : (forall a, fk (f a)) -> fk (mapM f l).
Proof. intros F. induction l; cbn [mapM]; [exact Logic.I|]. apply fk_bind; [apply F|]. intros. apply fk_bind; [exact IHl|]. intros; exact Logic.I. Qed.
Lemma fk_check b e : In e key_errors -> fk (check b e).
Proof. destruct b; cbn; [auto|left; exact H]. Qed.
Lemma fk_err {A} e : In e key_errors -> fk (@Err A e). Proof. left; exact H. Qed.
Lemma fk_local t : fk (local t).
Proof. unfold fk. destruct (local t) eqn:E; [exact Logic.I|]. right. now exists t. Qed.
Ltac kin := unfold key_errors; cbn; tauto.
Lemma fk_step secret v pre x next : fk (step secret v pre x next).
Proof.
  unfold step. cbv zeta.
  repeat first [exact Logic.I | apply fk_check; kin | apply fk_err; kin
    | match goal with |- fk (if ?b then _ else _) => destruct b | |- fk (match ?x with _ => _ end) => destruct x end].
Qed.
Lemma fk_validate secret l : fk (validate_key secret l).
Proof.
  unfold validate_key. destruct l as [|k t]; [apply fk_err; kin|]. destruct (negb _); [apply fk_err; kin|].
  apply fk_bind; [unfold key_version; destruct (p_body k); first [exact Logic.I|apply fk_err; kin]|]. intros v. generalize (@nil pkt). generalize (k :: t). clear k t.
  induction l as [|x t IH]; intros pre; cbn [validate_from]; [exact Logic.I|]. apply fk_bind; [apply fk_step|]. intros _. apply IH.
Qed.
Lemma fk_sig p : fk (TransKey.sig_from local p).
Proof.
  unfold TransKey.sig_from. destruct (p_body p); try (apply fk_err; kin). destruct s; (destruct (_ : bool); [|apply fk_err; kin]); [apply fk_bind; [apply fk_local|intros; exact Logic.I]|exact Logic.I].
Qed.
Lemma fk_pub f k sec : fk (key_from_pub local f k sec).
Proof. unfold key_from_pub. apply fk_bind; [apply fk_local|]. intros c. exact Logic.I. Qed.
Lemma fk_key secret p : fk (key_from local secret p).
Proof. unfold key_from. destruct (p_body p); try (apply fk_err; kin); [apply fk_pub|destruct secret; [apply fk_err; kin|apply fk_pub]]. Qed.
Lemma fk_uid p : fk (uid_from p).
Proof. unfold uid_from. destruct (p_body p); try (apply fk_err; kin). destruct d; first [exact Logic.I|apply fk_err; kin]. Qed.
Lemma fk_attr p : fk (attr_from magic p).
Proof.
  unfold attr_from. destruct (p_body p); try (apply fk_err; kin). apply fk_bind; [|intros; exact Logic.I]. apply fk_mapM. intros a. unfold item_from.
  destruct a; [apply fk_err; kin|]. destruct image_format as [[|[]|]|]; exact Logic.I.
Qed.
Lemma fk_with {A} (f : pkt -> res A) g : (forall p, fk (f p)) -> fk (with_sigs local f g).
Proof. intros F. unfold with_sigs. apply fk_bind; [apply F|]. intros a. apply fk_bind; [apply fk_mapM, fk_sig|]. intros; exact Logic.I. Qed.
Lemma fk_from secret l : fk (from_packets local magic secret l).
Proof.
  unfold from_packets. apply fk_bind; [apply fk_validate|]. intros _. destruct l as [|p t]; [apply fk_err; kin|].
  apply fk_bind; [apply fk_key|]. intros k. destruct (span_sigs t) as [s r]. apply fk_bind; [apply fk_mapM, fk_sig|]. intros sigs.
  destruct (spans _ [13] r) as [us r1]. apply fk_bind; [apply fk_mapM; intros; apply fk_with, fk_uid|]. intros uids.
  destruct (spans _ [17] r1) as [ats r2]. apply fk_bind; [apply fk_mapM; intros; apply fk_with, fk_attr|]. intros attrs.
  destruct (spans _ [14; 7] r2) as [sb r3]. apply fk_bind; [apply fk_mapM; intros; apply fk_with, fk_key|]. intros subs. exact Logic.I.
Qed.
(** reading a key: the same, the two exceptions of the order check, and what datetime.fromtimestamp raises *)
Theorem c110_key : forall i armored e, input_wf i -> read_key local magic i armored = Err e -> In e key_errors \/ exists t, local t = Err e.
Proof.
  intros i a e W H. assert (F : fk (read_key local magic i a)); [|rewrite H in F; exact F]. clear H. unfold read_key.
  pose proof (fo_packets i a W) as P. destruct (read_packets i a) as [ps|x]; cbn [bind]; [|left; apply in_or_app; left; exact P].
  destruct ps as [|p t]; [apply fk_err; kin|]. destruct (_ =? 6); [apply fk_from|]. destruct (_ =? 5); [apply fk_from|apply fk_err; kin].
Qed.
End Key.
Print Assumptions c110_key.
(** every one of them is met *)
Definition bad_key (e : exn) : bytes :=
  let k := [198; 12; 4; 0; 0; 0; 0; 1; 0; 1; 1; 0; 1; 1] in
  match e with PgpError 50 => k ++ k | PgpError 51 => k ++ [194; 10; 4; 255; 1; 2; 0; 0; 0; 0; 0; 0] | _ => bad_octets e end.
Theorem c110_shortcuts_all : forall local magic e, (forall t, exists d, local t = Ok d) ->
  (In e reader_errors -> exists d, wf d /\ read_message (InBytes d) false = Err e) /\
  (In e key_errors -> exists d, wf d /\ read_key local magic (InBytes d) false = Err e).
Proof.
  intros local magic e L.
  assert (W : forall l, wfb l = true -> wf l). { intros l B. apply Forall_forall. intros x J. unfold wfb in B. rewrite forallb_forall in B. specialize (B x J). unfold byteb, byte in *. lia. }
  split; intros I; [exists (bad_octets e)|exists (bad_key e)]; cbn in I; repeat (destruct I as [<-|I]; [split; [apply W; vm_compute; reflexivity|]; vm_compute; reflexivity|]); contradiction.
Qed.
Print Assumptions c110_shortcuts_all.
Example c110_example : wf (bad_octets TypeError) /\ parse_binary_packet_data pkt_dec (bad_octets TypeError) = ([], Some TypeError) /\
  snd (parse_binary_packet_data pkt_dec [200; 2; 1; 7; 202; 3; 80; 71; 80]) = Some AttributeError.
Proof. split; [|split; vm_compute; reflexivity]. apply Forall_forall. intros x I. cbn in I. unfold byte. repeat destruct I as [<-|I]; try contradiction; lia. Qed.
