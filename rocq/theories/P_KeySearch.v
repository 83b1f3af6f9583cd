(** C97: searching a key server and fetching what was found. *)
From Verif Require Import Base BaseProofs Spec Utils Text Hkp SpecHkp KeyPackets SigPackets Packets SpecPackets TransKey SpecTrans Shortcuts SpecShort P_Short Url KeyServer SpecKeyServer P_Hkp P_KeyServer.

(** A search is one GET with the terms as they were given, and the keys of the listing the server answers with are its result (C56); fetching one of
    them is one GET of its key id, not exact, and gives the key whose text the server has. *)
Theorem c97_search_then_get_partial bad_host net local mktime magic fl rec py_int unquote fts num quote base ug terms (exact : bool) : get_url bad_host base = Ok ug ->
  (forall n, num n <> [] /\ ~ In 58 (num n) /\ py_int (num n) = Ok n) -> (forall u, ~ In 58 (quote u) /\ unquote (quote u) = u) -> (forall n, fts n = Ok n) ->
  let rq := Request false ug [(str "op", str "index"); (str "options", str "mr"); (str "search", terms); (str "exact", if exact then str "yes" else str "no")] in
  forall r pre bs first ks, net rq = Ok r -> rp_error r = false -> listing pre bs (splitlines (rp_text r)) -> get (splitlines (rp_text r)) 0 = Ok first ->
    ((forall x, first <> str "info:" ++ x) \/ length (split_on 58 first) = 3%nat) -> Forall2 (block_of num quote) ks bs ->
    hkp_search bad_host net py_int unquote fts base terms exact = ([rq], Ok ks) /\
    forall k, In k ks -> let rk := Request false ug [(str "op", str "get"); (str "search", str "0x" ++ h_key_id k); (str "options", str "mr"); (str "exact", str "no")] in
      (forall a o, net rk = Ok a -> rp_error a = false -> read_key local magic (InBytes (rp_content a)) true = Ok o -> result_get bad_host net local magic base k = ([rk], Ok o)) /\
      (forall a, net rk = Ok a -> rp_error a = true -> result_get bad_host net local magic base k = ([rk], Err HTTPError)) /\
      forall us l o (secret no_modify : bool), (forall i, 1024 <= i <= 65011712 -> fl i = Z.log2 i) -> submit_url bad_host base = Ok us -> whole_key local mktime magic secret l o -> Forall (pkt_ok fl rec) l ->
        (forall p d, In p l -> body_content fl rec (p_body p) = Ok d -> wf d) ->
        exists t, fst (hkp_submit bad_host net mktime fl rec base o no_modify) = [Request true us [(str "keytext", t); (str "options", if no_modify then str "mr,nm" else str "mr")]] /\
          forall a, net rk = Ok a -> rp_error a = false -> resent t (rp_content a) -> result_get bad_host net local magic base k = ([rk], Ok o).
Proof.
  intros G Hn Hq Hf rq r pre bs first ks Nr Er L Gf I F. split.
  - unfold hkp_search. rewrite G. cbn [bind]. unfold send. change (yes_no exact) with (if exact then str "yes" else str "no"). fold rq. rewrite Nr. cbn [bind]. rewrite Er. now rewrite (c56_listing_round_trip py_int unquote fts num quote Hn Hq Hf (rp_text r) pre bs first ks L Gf I F).
  - intros k _ rk. split; [|split].
    + intros a o Na Ea R. unfold result_get, hkp_get. rewrite G. cbn [bind]. unfold send. change (yes_no false) with (str "no"). fold rk. rewrite Na. cbn [bind]. rewrite Ea. now rewrite R.
    + intros a Na Ea. unfold result_get, hkp_get. rewrite G. cbn [bind]. unfold send. change (yes_no false) with (str "no"). fold rk. rewrite Na. cbn [bind]. now rewrite Ea.
    + intros us l o secret no_modify Hfl U W P Wf. destruct (c97_submit_then_get_partial bad_host net local mktime magic fl rec base us ug l o secret no_modify Hfl U G W P Wf) as (t & A & B). exists t. split; [exact A|].
      intros a Na Ea R. unfold result_get. exact (B (h_key_id k) false a Na Ea R).
Qed.
Print Assumptions c97_search_then_get_partial.
(** the conditions are met: the listing of C56 *)
Example c97_search_ex : hkp_search (fun _ => false) (echo demo_text) demo_int (fun u => u) (fun n => Ok n) (str "http://h") (str "Alice") true =
  ([Request false (str "http://h/pks/lookup") [(str "op", str "index"); (str "options", str "mr"); (str "search", str "Alice"); (str "exact", str "yes")]],
   Ok [KeyRes (str "ABCD") 1 2048 1000 None true false false [UidRes (str "Alice") 1000 None false false false; UidRes (str "A") 1001 (Some 2000) false false true];
       KeyRes (str "EF01") 17 1024 5 None false false false []]).
Proof. vm_compute. reflexivity. Qed.
