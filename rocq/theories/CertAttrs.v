(** The attributes of the parts of a key: pgp/transferrable_keys.py:116-164 (attributes), 169-181 (is_self_signature), 329-343 (key_id, fingerprint).
    The parts are as TransKey.from_packets builds them, and all of them are still there (C112). Definitions only. *)
From Verif Require Import Base Utils Framing Text S2k SessionKeys KeyPackets SigPackets SigAttrs Packets TransKey KeyOps SelfSig SpecCert.
Section Cert.
Variables (local mktime : Z -> res Z) (fl : Z -> Z) (md5 sha1 : bytes -> bytes).
(** 329-338, and 340-343 with the packet made from the object *)
Definition ko_key_id (k : kobject) : res text :=
  if k_version (ko_pub k) <? 4 then obj_key_id fl md5 sha1 (ko_pub k)
  else do p <- key_to mktime false k;; match p_body p with BPub _ q => key_id fl md5 sha1 q | BSec _ q => key_id fl md5 sha1 (s_pub q) | _ => Err AttributeError end.
(** a signature as the mixin sees it (signature.py:129-157) *)
Definition ksig_of (s : sobject) : ksig :=
  match o_sig s with SigV3 v t pk h h2 vs ct kid => KSig t (V3 (o_made s) kid) vs None | SigV4 v t pk h h2 vs hs us => KSig t (V4 (sig_obj_of hs us)) vs None end.
(** the version, the signature types of the class (185-187, 616-618, 663-675, 773-794) and the signatures of a part *)
Definition sigs_at (k : tkey) (p : place) : option (Z * (list Z * list Z) * list sobject) :=
  match p with
  | OnKey => Some (k_version (ko_pub (tk_key k)), public_key_types, tk_sigs k)
  | OnUserId n => option_map (fun x => (4, user_types, snd x)) (nth_error (tk_uids k) n)
  | OnAttribute n => option_map (fun x => (4, user_types, snd x)) (nth_error (tk_attrs k) n)
  | OnSubkey n => option_map (fun x : kobject * list sobject => (k_version (ko_pub (fst x)), subkey_types, snd x)) (nth_error (tk_subs k) n)
  end.
(** 173-179 *)
Definition own_ids (k : tkey) : res (list text) := mapM ko_key_id (tk_key k :: map fst (tk_subs k)).
(** 116-123, for the names that the classes of the parts do not override (creation_time, and expiration_time below version 4, are overridden in
    keys); own_ids is only asked for when there is a signature *)
Definition cert_get (k : tkey) (p : place) (n : kname) : option (res kvalue) :=
  match sigs_at k p with
  | None => None
  | Some (v, (self, rev), sigs) => Some (
      if 4 <=? v then do own <- (match sigs with [] => Ok [] | _ => own_ids k end);; key_get local (Signed v self rev own (map ksig_of sigs)) n
      else Err UnboundLocalError)
  end.
End Cert.
