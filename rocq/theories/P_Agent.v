(** C88: the dialogue with gpg-agent. *)
From Coq Require Import String.
From Verif Require Import SpecArmor Base BaseProofs Text TextProofs ArmorProofs Utils SpecUtf8 Utf8 Utf8Proofs Agent SpecAgent.
Open Scope Z_scope.

Lemma hex_val_spec c x : hex_digit c x -> hex_val c = Some x.
Proof. unfold hex_digit, hex_val. intros [[H ->]|[[H ->]|[H ->]]]; repeat match goal with |- context [if ?b then _ else _] => destruct b eqn:? end; try reflexivity; f_equal; lia. Qed.
Lemma unquote_percent pl e b : percent pl e b -> unquote_to_bytes e = b.
Proof.
  intros H. induction H as [|c e b Hp Hc H IH|h l x y e b Hh Hl H IH]; [reflexivity| |].
  - cbn [unquote_to_bytes]. destruct e as [|a [|b' e']]; try (rewrite IH; reflexivity). replace (c =? 37) with false by lia. rewrite IH. reflexivity.
  - cbn [unquote_to_bytes]. change (37 =? 37) with true. cbv iota. rewrite (hex_val_spec _ _ Hh), (hex_val_spec _ _ Hl). f_equal. exact IH.
Qed.
Lemma percent_ascii (pl : Z -> Prop) e b : (forall c, pl c -> 0 <= c < 128) -> percent pl e b -> Forall (fun c => 0 <= c < 128) e.
Proof.
  intros P H. induction H as [|c e b Hp Hc H IH|h l x y e b Hh Hl H IH]; [constructor|constructor; [apply P; exact Hp|exact IH]|]. unfold hex_digit in *. constructor; [lia|]. constructor; [lia|]. constructor; [lia|exact IH].
Qed.
Lemma runs_ascii e : forall run, Forall (fun c => 0 <= c < 128) e -> unquote_runs run e = utf8_decode_replace (unquote_to_bytes (rev run ++ e)).
Proof.
  induction e as [|c e IH]; intros run F; cbn [unquote_runs]; [rewrite app_nil_r; reflexivity|]. pose proof (Forall_inv F) as Fc. cbn beta in Fc. replace (c <? 128) with true by lia. rewrite IH by exact (Forall_inv_tail F). cbn [rev]. rewrite <- app_assoc. reflexivity.
Qed.
Lemma no_percent pl e b : percent pl e b -> existsb (Z.eqb 37) e = false -> e = b.
Proof.
  intros H. induction H as [|c e b Hp Hc H IH|h l x y e b Hh Hl H IH]; intros N; [reflexivity| |discriminate N]. cbn [existsb] in N. apply orb_false_iff in N as [_ N]. f_equal. auto.
Qed.
Lemma ascii_utf8 s : Forall (fun c => 0 <= c < 128) (utf8 s) -> Forall scalar s -> utf8 s = s.
Proof.
  induction s as [|c s IH]; intros F S; [reflexivity|]. unfold utf8 in *. cbn [map concat] in *. apply Forall_app in F as [F1 F2]. rewrite IH; [|exact F2|exact (Forall_inv_tail S)].
  destruct (Z.ltb_spec c 128) as [L|L]; [unfold rfc3629; replace (c <=? 127) with true by lia; reflexivity|]. exfalso. pose proof (Forall_inv S) as Sc. unfold scalar in Sc. unfold rfc3629 in F1. replace (c <=? 127) with false in F1 by lia.
  repeat match type of F1 with context [if ?b then _ else _] => destruct b eqn:? end; pose proof (Forall_inv F1); cbn beta in *; lia.
Qed.
Lemma unquote_text (pl : Z -> Prop) e s : (forall c, pl c -> 0 <= c < 128) -> Forall scalar s -> percent pl e (utf8 s) -> unquote e = s.
Proof.
  intros P S H. pose proof (percent_ascii _ _ _ P H) as A. unfold unquote. destruct (existsb (Z.eqb 37) e) eqn:E.
  - rewrite runs_ascii by exact A. cbn [rev app]. rewrite (unquote_percent _ _ _ H). now apply decode_replace_utf8.
  - apply (no_percent _ _ _ H) in E. rewrite E in A |- *. now apply ascii_utf8.
Qed.

(** ** quoting *)
Lemma hexdigit_spec d : 0 <= d < 16 -> hex_digit (hexdigit d) d.
Proof. unfold hex_digit, hexdigit. destruct (d <? 10) eqn:E; lia. Qed.
Lemma quote_percent b : wf b -> percent visible (flat_map quote_byte b) b.
Proof.
  induction b as [|c b IH]; intros W; [constructor|]. pose proof (Forall_inv W) as B. unfold byte in B. cbn [flat_map]. specialize (IH (Forall_inv_tail W)). unfold quote_byte at 1. destruct (always_safe c) eqn:S.
  - unfold always_safe in S. cbn [existsb] in S. cbn [app]. constructor; [unfold visible; lia|lia|exact IH].
  - cbn [app]. replace (percent visible (37 :: hexdigit (c / 16) :: hexdigit (c mod 16) :: flat_map quote_byte b) (c :: b)) with (percent visible (37 :: hexdigit (c / 16) :: hexdigit (c mod 16) :: flat_map quote_byte b) (16 * (c / 16) + c mod 16 :: b)) by (f_equal; f_equal; lia).
    constructor; [apply hexdigit_spec; lia|apply hexdigit_spec; lia|exact IH].
Qed.
Lemma quote_spec x : Forall scalar x -> exists w, quote x = Ok w /\ percent visible w (utf8 x).
Proof. intros S. unfold quote. rewrite encode_strict_scalar by exact S. cbn [bind]. eexists. split; [reflexivity|]. apply quote_percent. now apply utf8_wf. Qed.
Lemma argument_spec t : match t with Some t => Forall scalar t | None => True end -> exists w, argument t = Ok (32 :: w) /\ word_for w t.
Proof.
  unfold argument, word_for. destruct t as [[|c x]|]; intros S; [exists (str "X"); split; reflexivity| |exists (str "X"); split; reflexivity].
  replace (zlen (c :: x) =? 0) with false by (rewrite zlen_cons; pose proof (zlen_nonneg x); lia). destruct (quote_spec _ S) as (w & E & H). rewrite E. exists w. split; [reflexivity|exact H].
Qed.
Definition solid (w : bytes) : Prop := Forall visible w.
Lemma percent_visible e b : percent visible e b -> solid e.
Proof.
  intros H. induction H as [|c e b Hp Hc H IH|h l x y e b Hh Hl H IH]; [constructor|constructor; [exact Hp|exact IH]|]. unfold hex_digit in *. constructor; [unfold visible; lia|]. constructor; [unfold visible; lia|]. constructor; [unfold visible; lia|exact IH].
Qed.
Lemma word_solid w t : word_for w t -> solid w.
Proof. unfold word_for. destruct t as [[|c x]|]; intros H; [subst w; constructor; [unfold visible; cbn; lia|constructor]|now apply percent_visible in H|subst w; constructor; [unfold visible; cbn; lia|constructor]]. Qed.
Lemma digits_visible l : Forall (fun c => is_digit c = true) l -> solid l.
Proof. intros F. eapply Forall_impl; [|exact F]. intros c H. unfold is_digit in H. unfold visible. cbn beta in H. lia. Qed.
Ltac vis := repeat (apply Forall_cons; [unfold visible; cbn; lia|]); apply Forall_nil.

Lemma join_cons w ws : join [32] (w :: ws) = w ++ concat (map (cons 32) ws).
Proof. revert w. induction ws as [|v ws IH]; intros w; [cbn; rewrite app_nil_r; reflexivity|]. change (join [32] (w :: v :: ws)) with (w ++ [32] ++ join [32] (v :: ws)). rewrite IH. reflexivity. Qed.
(** The line that is sent is one line: the command, the options asked for, and four words, which stand for the four texts. *)
Theorem c88_request q : texts_ok q -> exists c e p d,
  request_line q = Ok (join [32] ([str "GET_PASSPHRASE"; str "--data"] ++ options q ++ [c; e; p; d]) ++ [10]) /\
  word_for c (a_cache_id q) /\ word_for e (a_error q) /\ word_for p (a_prompt q) /\ word_for d (a_description q) /\
  Forall solid ([str "GET_PASSPHRASE"; str "--data"] ++ options q ++ [c; e; p; d]).
Proof.
  intros T. unfold texts_ok in T. pose proof (Forall_inv T) as T1. apply Forall_inv_tail in T. pose proof (Forall_inv T) as T2. apply Forall_inv_tail in T. pose proof (Forall_inv T) as T3. apply Forall_inv_tail in T. pose proof (Forall_inv T) as T4. clear T.
  destruct (argument_spec _ T1) as (c & Ec & Hc), (argument_spec _ T2) as (e & Ee & He), (argument_spec _ T3) as (p & Ep & Hp), (argument_spec _ T4) as (d & Ed & Hd). exists c, e, p, d. unfold request_line. rewrite Ec, Ee, Ep, Ed. cbn [bind].
  split; [|repeat split; auto].
  - f_equal. change ([str "GET_PASSPHRASE"; str "--data"] ++ options q ++ [c; e; p; d]) with (str "GET_PASSPHRASE" :: str "--data" :: (options q ++ [c; e; p; d])). rewrite join_cons. cbn [map concat]. rewrite map_app, concat_app. cbn [map concat]. rewrite <- !app_assoc. cbn [app].
    assert (O : concat (map (cons 32) (options q)) = (if a_no_ask q then str " --no-ask" else []) ++ (if a_qualitybar q then str " --qualitybar" else []) ++ (if a_repeat q =? 1 then str " --repeat" else if 1 <? a_repeat q then str " --repeat=" ++ dec_of (a_repeat q) else [])).
    { unfold options. rewrite !map_app, !concat_app. destruct (a_no_ask q), (a_qualitybar q), (a_repeat q =? 1), (1 <? a_repeat q); cbn [map concat app]; rewrite ?app_nil_r; reflexivity. }
    rewrite O, <- !app_assoc. reflexivity.
  - apply Forall_app. split; [constructor; [vis|constructor; [vis|constructor]]|]. apply Forall_app. split; [|constructor; [eapply word_solid; eauto|]; constructor; [eapply word_solid; eauto|]; constructor; [eapply word_solid; eauto|]; constructor; [eapply word_solid; eauto|constructor]].
    unfold options. apply Forall_app. split; [destruct (a_no_ask q); [constructor; [vis|constructor]|constructor]|]. apply Forall_app. split; [destruct (a_qualitybar q); [constructor; [vis|constructor]|constructor]|].
    destruct (a_repeat q =? 1) eqn:R1; [constructor; [vis|constructor]|]. destruct (1 <? a_repeat q) eqn:R; [|constructor]. constructor; [|constructor]. apply Forall_app. split; [vis|]. apply digits_visible. assert (N : numeral (dec_of (a_repeat q)) (a_repeat q)) by (apply dec_of_numeral; lia). apply numeral_digits in N as (_ & F & _). exact F.
Qed.
Print Assumptions c88_request.

Lemma solid_no32 w : solid w -> ~ In 32 w.
Proof. intros F I. unfold solid in F. rewrite Forall_forall in F. specialize (F 32 I). unfold visible in F. lia. Qed.
Lemma first_word : forall w w' r r', ~ In 32 w -> ~ In 32 w' -> w ++ 32 :: r = w' ++ 32 :: r' -> w = w' /\ r = r'.
Proof.
  induction w as [|c w IH]; intros [|c' w'] r r' N N' H; cbn [app] in H.
  - injection H as ->. auto.
  - injection H as H _. exfalso. apply N'. left. auto.
  - injection H as H _. exfalso. apply N. left. auto.
  - injection H as -> H. destruct (IH w' r r') as [-> ->]; auto; [intros X; apply N; now right|intros X; apply N'; now right].
Qed.
Lemma words_inj : forall ws ws' w w', Forall solid (w :: ws) -> Forall solid (w' :: ws') -> join [32] (w :: ws) = join [32] (w' :: ws') -> w = w' /\ ws = ws'.
Proof.
  induction ws as [|v ws IH]; intros [|v' ws'] w w' F F' H; rewrite !join_cons in H; cbn [map concat app] in H; rewrite ?app_nil_r in H.
  - auto.
  - exfalso. apply (solid_no32 w (Forall_inv F)). rewrite H. apply in_or_app. right. now left.
  - exfalso. apply (solid_no32 w' (Forall_inv F')). rewrite <- H. apply in_or_app. right. now left.
  - apply first_word in H as [-> H]; [|apply solid_no32; exact (Forall_inv F)|apply solid_no32; exact (Forall_inv F')]. split; [reflexivity|]. rewrite <- !join_cons in H.
    destruct (IH ws' v v' (Forall_inv_tail F) (Forall_inv_tail F') H) as [-> ->]. reflexivity.
Qed.
Lemma word_norm w t t' : match t with Some t => Forall scalar t | None => True end -> match t' with Some t => Forall scalar t | None => True end -> word_for w t -> word_for w t' -> norm t = norm t'.
Proof.
  assert (XX : forall x, Forall scalar x -> percent visible (str "X") (utf8 x) -> x = str "X").
  { intros x S H. apply unquote_percent in H. apply (utf8_inj x (str "X")); [exact S|apply Forall_cons; [unfold scalar; cbn; lia|constructor]|]. rewrite <- H. reflexivity. }
  unfold word_for, norm. intros S S' H H'. destruct t as [[|c x]|], t' as [[|c' x']|]; subst; try reflexivity; try (rewrite (XX _ S' H'), zlist_eqb_refl; reflexivity); try (rewrite (XX _ S H), zlist_eqb_refl; reflexivity).
  apply unquote_percent in H, H'. rewrite H in H'. apply utf8_inj in H'; [|exact S|exact S']. rewrite H'. reflexivity.
Qed.
(** So the agent can tell two requests apart, except that no text, an empty one and X are the same to it: whatever the texts contain, they cannot be mistaken for
    each other, for options or for another command. *)
Theorem c88_request_unambiguous q q' line : texts_ok q -> texts_ok q' -> request_line q = Ok line -> request_line q' = Ok line ->
  options q = options q' /\ norm (a_cache_id q) = norm (a_cache_id q') /\ norm (a_error q) = norm (a_error q') /\ norm (a_prompt q) = norm (a_prompt q') /\ norm (a_description q) = norm (a_description q').
Proof.
  intros T T' H H'. destruct (c88_request q T) as (c & e & p & d & E & Hc & He & Hp & Hd & F), (c88_request q' T') as (c' & e' & p' & d' & E' & Hc' & He' & Hp' & Hd' & F').
  rewrite E in H. rewrite E' in H'. assert (J : join [32] ([str "GET_PASSPHRASE"; str "--data"] ++ options q ++ [c; e; p; d]) ++ [10] = join [32] ([str "GET_PASSPHRASE"; str "--data"] ++ options q' ++ [c'; e'; p'; d']) ++ [10]) by congruence.
  apply app_inj_tail in J as [J _]. cbn [app] in J, F, F'. apply words_inj in J as [_ J]; [|exact F|exact F']. assert (K : options q ++ [c; e; p; d] = options q' ++ [c'; e'; p'; d']) by congruence. clear J.
  assert (Sp : forall (o : list text) a b c d, o ++ [a; b; c; d] = ((((o ++ [a]) ++ [b]) ++ [c]) ++ [d])) by (intros; rewrite <- !app_assoc; reflexivity). rewrite !Sp in K.
  apply app_inj_tail in K as [K <-]. apply app_inj_tail in K as [K <-]. apply app_inj_tail in K as [K <-]. apply app_inj_tail in K as [K <-].
  unfold texts_ok in T, T'. pose proof (Forall_inv T) as T1. apply Forall_inv_tail in T. pose proof (Forall_inv T) as T2. apply Forall_inv_tail in T. pose proof (Forall_inv T) as T3. apply Forall_inv_tail in T. pose proof (Forall_inv T) as T4. clear T.
  pose proof (Forall_inv T') as T1'. apply Forall_inv_tail in T'. pose proof (Forall_inv T') as T2'. apply Forall_inv_tail in T'. pose proof (Forall_inv T') as T3'. apply Forall_inv_tail in T'. pose proof (Forall_inv T') as T4'. clear T'.
  split; [exact K|]. split; [eapply word_norm; eauto|]. split; [eapply word_norm; eauto|]. split; eapply word_norm; eauto.
Qed.
Print Assumptions c88_request_unambiguous.
Example c88_request_ex : request_line (ARequest (Some (str "PIN")) None (Some [252; 10; 88]) (Some (str "a b")) true true false 2) = Ok (str "GET_PASSPHRASE --data --no-ask --repeat=2 a%20b X PIN %C3%BC%0AX" ++ [10]).
Proof. vm_compute. reflexivity. Qed.

(** ** answers *)
Lemma response_line l : forall buf lines s, ~ In 10 l -> get_response buf lines (l ++ 10 :: s) =
  (if zlist_eqb (slice (buf ++ l) 0 2) (str "OK") then Lines (lines ++ [buf ++ l]) s else if zlist_eqb (slice (buf ++ l) 0 3) (str "ERR") then Refused (slice_from (buf ++ l) 4) s else get_response [] (lines ++ [buf ++ l]) s).
Proof.
  induction l as [|b l IH]; intros buf lines s N; cbn [app get_response].
  - change (10 =? 10) with true. cbv iota. rewrite app_nil_r. reflexivity.
  - assert (Hb : b <> 10) by (intros ->; apply N; now left). replace (b =? 10) with false by lia. rewrite IH by (intros X; apply N; now right). rewrite <- app_assoc. reflexivity.
Qed.
Lemma slice0 (l : bytes) n : slice l 0 (Z.of_nat n) = firstn n l.
Proof.
  unfold slice. rewrite (clip_in _ 0) by (pose proof (zlen_nonneg l); lia). cbn [Z.to_nat skipn]. unfold clip. replace (Z.of_nat n <? 0) with false by lia. destruct (Nat.le_gt_cases (List.length l) n).
  - rewrite Z.min_r by (unfold zlen; lia). rewrite !firstn_all2; unfold zlen; try lia. reflexivity.
  - rewrite Z.min_l by (unfold zlen; lia). f_equal. lia.
Qed.
Lemma plain_skip ls : forall lines s, Forall plain_line ls -> get_response [] lines (send ls ++ s) = get_response [] (lines ++ ls) s.
Proof.
  induction ls as [|l ls IH]; intros lines s F; [cbn; rewrite app_nil_r; reflexivity|]. pose proof (Forall_inv F) as (N & A & B). unfold send. cbn [map concat]. rewrite <- !app_assoc. cbn [app]. rewrite response_line by exact N. cbn [app].
  change 2 with (Z.of_nat 2). change 3 with (Z.of_nat 3). rewrite !slice0. rewrite !zlist_eqb_neq by assumption. rewrite IH by exact (Forall_inv_tail F). rewrite <- app_assoc. reflexivity.
Qed.
Lemma ok_ends l lines s : ok_line l -> get_response [] lines (l ++ 10 :: s) = Lines (lines ++ [l]) s.
Proof. intros [N A]. rewrite response_line by exact N. cbn [app]. change 2 with (Z.of_nat 2). rewrite slice0, A, zlist_eqb_refl. reflexivity. Qed.

(** What is returned, whatever the agent sends before it says OK: the first line of it without its first two octets, unquoted. *)
Lemma agent_dialogue q line w first more ok rest : request_line q = Ok line -> ok_line w -> Forall plain_line (first :: more) -> ok_line ok ->
  agent_get_passphrase q (w ++ [10] ++ send (first :: more) ++ ok ++ [10] ++ rest) = (line, Got (unquote (slice_from first 2))).
Proof.
  intros R W F K. unfold agent_get_passphrase. cbn [app]. rewrite ok_ends by exact W. rewrite R. rewrite plain_skip by exact F. rewrite ok_ends by exact K. reflexivity.
Qed.
(** A passphrase that the agent sends as one line of data in ASCII (escaping what is not) arrives as it is. *)
Theorem c88_passphrase q line w e s ok rest : request_line q = Ok line -> ok_line w -> Forall scalar s -> percent data_char e (utf8 s) -> ok_line ok ->
  agent_get_passphrase q (w ++ [10] ++ send [str "D " ++ e] ++ ok ++ [10] ++ rest) = (line, Got s).
Proof.
  intros R W S P K. rewrite (agent_dialogue q line w (str "D " ++ e) [] ok rest R W); [|constructor; [|constructor]|exact K].
  - do 2 f_equal. change 2 with (zlen (str "D ")). rewrite slice_from_app. apply (unquote_text data_char); [|exact S|exact P]. intros c [H _]. exact H.
  - split; [|split; [discriminate|discriminate]]. intros I. cbn in I. destruct I as [I|[I|I]]; [discriminate I|discriminate I|]. clear -P I. induction P as [|c e b Hp Hc H IH|h l x y e b Hh Hl H IH]; [destruct I| |].
    + destruct I as [->|I]; [destruct Hp as (_ & Hp & _); congruence|auto].
    + unfold hex_digit in *. destruct I as [I|[I|[I|I]]]; [discriminate I|lia|lia|auto].
Qed.
Print Assumptions c88_passphrase.

(** An error is raised with the agent's explanation. *)
Theorem c88_refused q line w ls m rest : request_line q = Ok line -> ok_line w -> Forall plain_line ls -> ~ In 10 m ->
  agent_get_passphrase q (w ++ [10] ++ send ls ++ (str "ERR " ++ m) ++ [10] ++ rest) = (line, Raised ValueError m).
Proof.
  intros R W F N. unfold agent_get_passphrase. cbn [app]. rewrite ok_ends by exact W. rewrite R. rewrite plain_skip by exact F.
  change (str "ERR " ++ m ++ 10 :: rest) with ((str "ERR " ++ m) ++ 10 :: rest). rewrite response_line by (intros I; cbn in I; destruct I as [I|[I|[I|[I|I]]]]; try discriminate I; contradiction). cbn [app].
  change 2 with (Z.of_nat 2). change 3 with (Z.of_nat 3). rewrite !slice0. change (zlist_eqb (firstn 2 (str "ERR " ++ m)) (str "OK")) with false. change (zlist_eqb (firstn 3 (str "ERR " ++ m)) (str "ERR")) with true. cbv iota. change 4 with (zlen (str "ERR ")). rewrite (slice_from_app (str "ERR ") m). reflexivity.
Qed.
Print Assumptions c88_refused.

(** A passphrase sent as it is in UTF-8 comes back as something else, if it is not ASCII. *)
Theorem c88_not_ascii_refuted q line w s ok rest : request_line q = Ok line -> ok_line w -> Forall scalar s -> Exists (fun c => 128 <= c) s -> ~ In 37 (utf8 s) -> ~ In 10 (utf8 s) -> ok_line ok ->
  exists s', agent_get_passphrase q (w ++ [10] ++ send [str "D " ++ utf8 s] ++ ok ++ [10] ++ rest) = (line, Got s') /\ s' = utf8 s /\ s' <> s.
Proof.
  intros R W S X N N' K. exists (utf8 s). split; [|split; [reflexivity|]].
  - rewrite (agent_dialogue q line w (str "D " ++ utf8 s) [] ok rest R W); [|constructor; [|constructor]|exact K].
    + do 2 f_equal. change 2 with (zlen (str "D ")). rewrite slice_from_app. unfold unquote. replace (existsb (Z.eqb 37) (utf8 s)) with false; [reflexivity|]. symmetry. destruct (existsb _ _) eqn:E; [|reflexivity]. apply existsb_exists in E as (y & I & E). exfalso. apply N. replace 37 with y by lia. exact I.
    + split; [|split; [discriminate|discriminate]]. intros I. cbn in I. destruct I as [I|[I|I]]; [discriminate I|discriminate I|contradiction].
  - intros E. assert (L : (List.length s < List.length (utf8 s))%nat); [|rewrite E in L; lia]. clear -X. unfold utf8. induction s as [|c s IH]; [inversion X|]. cbn [map concat]. rewrite app_length. cbn [List.length].
    assert (Le : forall s, (List.length s <= List.length (concat (map rfc3629 s)))%nat). { clear. induction s as [|c s IH]; [cbn; lia|]. cbn [map concat]. rewrite app_length. pose proof (rfc_len c). cbn [List.length]. lia. }
    inversion X as [? ? Hc|? ? Hx]; subst.
    + assert (2 <= List.length (rfc3629 c))%nat by (unfold rfc3629; replace (c <=? 127) with false by lia; destruct (c <=? 2047); [cbn; lia|destruct (c <=? 65535); cbn; lia]). specialize (Le s). lia.
    + specialize (IH Hx). pose proof (rfc_len c). lia.
Qed.
Print Assumptions c88_not_ascii_refuted.

(** Of a passphrase sent as several lines of data only the first part is returned, ... *)
Theorem c88_long_refuted q line w d1 d2 more ok rest : request_line q = Ok line -> ok_line w -> Forall plain_line ((str "D " ++ d1) :: (str "D " ++ d2) :: more) -> ok_line ok ->
  agent_get_passphrase q (w ++ [10] ++ send ((str "D " ++ d1) :: (str "D " ++ d2) :: more) ++ ok ++ [10] ++ rest) = (line, Got (unquote d1)).
Proof. intros R W F K. rewrite (agent_dialogue q line w _ _ ok rest R W F K). do 2 f_equal. change 2 with (zlen (str "D ")). rewrite slice_from_app. reflexivity. Qed.
Print Assumptions c88_long_refuted.
(** ... and a status line or comment before it is taken for it. *)
Theorem c88_status_refuted q line w m e ok rest : request_line q = Ok line -> ok_line w -> Forall plain_line [str "S " ++ m; str "D " ++ e] -> ok_line ok ->
  agent_get_passphrase q (w ++ [10] ++ send [str "S " ++ m; str "D " ++ e] ++ ok ++ [10] ++ rest) = (line, Got (unquote m)).
Proof. intros R W F K. rewrite (agent_dialogue q line w _ _ ok rest R W F K). do 2 f_equal. change 2 with (zlen (str "S ")). rewrite slice_from_app. reflexivity. Qed.
Print Assumptions c88_status_refuted.
(** If the agent goes away before it says OK or ERR, the call never returns. *)
Theorem c88_hangs_refuted q line w ls rest : request_line q = Ok line -> ok_line w -> Forall plain_line ls -> ~ In 10 rest -> agent_get_passphrase q (w ++ [10] ++ send ls ++ rest) = (line, Never).
Proof.
  intros R W F N. unfold agent_get_passphrase. cbn [app]. rewrite ok_ends by exact W. rewrite R. rewrite plain_skip by exact F.
  assert (G : forall r buf l, ~ In 10 r -> get_response buf l r = Waits). { induction r as [|b r IH]; intros buf l Nr; cbn [get_response]; [reflexivity|]. assert (b <> 10) by (intros ->; apply Nr; now left). replace (b =? 10) with false by lia. apply IH. intros I. apply Nr. now right. }
  rewrite G by exact N. reflexivity.
Qed.
Print Assumptions c88_hangs_refuted.
Definition c88_q := ARequest None None None (Some (str "id")) true false false 0.
Example c88_ex : agent_get_passphrase c88_q (str "OK hello" ++ [10] ++ send [str "D a%25b%C3%BC"] ++ str "OK" ++ [10]) = (str "GET_PASSPHRASE --data id X X X" ++ [10], Got [97; 37; 98; 252]) /\
  agent_get_passphrase c88_q (str "OK hello" ++ [10] ++ send [str "D " ++ utf8 [252]] ++ str "OK" ++ [10]) = (str "GET_PASSPHRASE --data id X X X" ++ [10], Got [195; 188]) /\
  agent_get_passphrase c88_q (str "OK hello" ++ [10] ++ str "ERR 99 Canceled" ++ [10]) = (str "GET_PASSPHRASE --data id X X X" ++ [10], Raised ValueError (str "99 Canceled")) /\
  agent_get_passphrase c88_q (str "OK hello" ++ [10] ++ str "D abc") = (str "GET_PASSPHRASE --data id X X X" ++ [10], Never).
Proof. split; [vm_compute; reflexivity|]. split; [vm_compute; reflexivity|]. split; [vm_compute; reflexivity|vm_compute; reflexivity]. Qed.
Example c88_lines_ex : ok_line (str "OK hello") /\ plain_line (str "D abc") /\ percent data_char (str "a%25b%C3%BC") (utf8 [97; 37; 98; 252]).
Proof.
  split; [split; [cbn; intuition discriminate|reflexivity]|]. split; [split; [cbn; intuition discriminate|split; discriminate]|].
  change (utf8 [97; 37; 98; 252]) with [97; 16 * 2 + 5; 98; 16 * 12 + 3; 16 * 11 + 12]. cbn [str].
  constructor; [unfold data_char; cbn; lia|cbn; lia|]. apply pc_hex; [left; cbn; lia|left; cbn; lia|]. constructor; [unfold data_char; cbn; lia|cbn; lia|]. apply pc_hex; [right; left; cbn; lia|left; cbn; lia|]. apply pc_hex; [right; left; cbn; lia|right; left; cbn; lia|]. constructor.
Qed.

(** Asking not to use the cache changes nothing: what is sent, and so what the agent does, is the same. *)
Theorem c88_cache_refuted q s : agent_get_passphrase (ARequest (a_prompt q) (a_error q) (a_description q) (a_cache_id q) false (a_no_ask q) (a_qualitybar q) (a_repeat q)) s =
  agent_get_passphrase (ARequest (a_prompt q) (a_error q) (a_description q) (a_cache_id q) true (a_no_ask q) (a_qualitybar q) (a_repeat q)) s.
Proof. reflexivity. Qed.
Print Assumptions c88_cache_refuted.
(** Forgetting a passphrase: the command names the same word as a request for it does ... *)
Theorem c88_clear_partial id w s : ok_line w -> Forall scalar id -> exists e, percent visible e (utf8 id) /\ agent_clear_passphrase id (w ++ [10] ++ s) = (str "CLEAR_PASSPHRASE " ++ e ++ [10], Got []) /\
  (id <> [] -> argument (Some id) = Ok (32 :: e)).
Proof.
  intros W S. destruct (quote_spec id S) as (e & E & P). exists e. split; [exact P|]. split.
  - unfold agent_clear_passphrase. cbn [app]. rewrite ok_ends by exact W. rewrite E. reflexivity.
  - intros N. unfold argument. destruct id as [|c x]; [contradiction|]. replace (zlen (c :: x) =? 0) with false by (rewrite zlen_cons; pose proof (zlen_nonneg x); lia). rewrite E. reflexivity.
Qed.
Print Assumptions c88_clear_partial.
(** ... but whether the agent did so is not found out: whatever it answers, the call succeeds. *)
Theorem c88_clear_unchecked_refuted id w s s' : ok_line w -> agent_clear_passphrase id (w ++ [10] ++ s) = agent_clear_passphrase id (w ++ [10] ++ s').
Proof. intros W. unfold agent_clear_passphrase. cbn [app]. rewrite !ok_ends by exact W. reflexivity. Qed.
Print Assumptions c88_clear_unchecked_refuted.
Example c88_clear_ex : agent_clear_passphrase (str "a b") (str "OK hello" ++ [10] ++ str "ERR 1 no" ++ [10]) = (str "CLEAR_PASSPHRASE a%20b" ++ [10], Got []).
Proof. vm_compute. reflexivity. Qed.
