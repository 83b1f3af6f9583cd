(** What a transferable key is (RFC 4880 11.1), as groups of packets: a packet that is certified, and its signatures, each with the trust
    packets after it. *)
From Verif Require Import Base Utils Framing Text Armor S2k SessionKeys KeyPackets SigPackets DataPackets UserAttr Packets TransKey.

Definition sgs := list (pkt * list pkt).
Definition flat_sgs (l : sgs) : list pkt := flat_map (fun x => fst x :: snd x) l.
Definition flat (gs : list (pkt * sgs)) : list pkt := flat_map (fun g => fst g :: flat_sgs (snd g)) gs.
(** a signature packet of one of the types, followed by trust packets only *)
Definition sig_with (tys : list Z) (x : pkt * list pkt) : Prop := pkt_type (fst x) = 2 /\ In (sig_ty (fst x)) tys /\ Forall (fun t => pkt_type t = 12) (snd x).
(** the signatures that may stand after a packet of this type: on the primary key, on a user id or attribute, on a subkey *)
Definition allowed (secret : bool) (ty : Z) : list Z :=
  if ty =? key_type secret then [31; 32] else if (ty =? 13) || (ty =? 17) then [16; 17; 18; 19; 48] else [24].
Definition group_ok (secret : bool) (g : pkt * sgs) : Prop := Forall (sig_with (allowed secret (pkt_type (fst g)))) (snd g).
(** no trust packet stands before a direct key signature *)
Definition direct_first (ss : sgs) : Prop := forall a x b, ss = a ++ x :: b -> sig_ty (fst x) = 31 -> Forall (fun y => snd y = []) a.
(** The language: the primary key, a user ids, b user attributes, c subkeys, each with signatures of the right kind; each subkey has a binding
    signature immediately after it; only keys of version 4 or more have subkeys. *)
Definition well_formed (secret : bool) (l : list pkt) : Prop :=
  exists k ss gs a b c v, l = flat ((k, ss) :: gs) /\ pkt_type k = key_type secret /\ key_version k = Ok v /\
  map (fun g => pkt_type (fst g)) gs = repeat 13 a ++ repeat 17 b ++ repeat (subkey_type secret) c /\
  Forall (group_ok secret) ((k, ss) :: gs) /\ direct_first ss /\
  (forall g, In g gs -> pkt_type (fst g) = subkey_type secret -> snd g <> []) /\ (c <> 0%nat -> 4 <= v).
(** RFC 4880 11.1 for lists without trust packets: at least one user id, and each subkey has one binding signature, and perhaps a revocation *)
Definition rfc_key (secret : bool) (l : list pkt) : Prop :=
  exists k ss us uas subs v, l = k :: ss ++ concat us ++ concat uas ++ concat subs /\ pkt_type k = key_type secret /\ key_version k = Ok v /\
  Forall (fun s => pkt_type s = 2 /\ In (sig_ty s) [31; 32]) ss /\ us <> [] /\
  Forall (fun u => exists p cs, u = p :: cs /\ pkt_type p = 13 /\ Forall (fun s => pkt_type s = 2 /\ In (sig_ty s) [16; 17; 18; 19; 48]) cs) us /\
  Forall (fun u => exists p cs, u = p :: cs /\ pkt_type p = 17 /\ Forall (fun s => pkt_type s = 2 /\ In (sig_ty s) [16; 17; 18; 19; 48]) cs) uas /\
  Forall (fun u => exists p s rs, u = p :: s :: rs /\ pkt_type p = subkey_type secret /\ pkt_type s = 2 /\ sig_ty s = 24 /\
            (rs = [] \/ exists r, rs = [r] /\ pkt_type r = 2 /\ sig_ty r = 40)) subs /\ (subs <> [] -> 4 <= v).

(** a packet that keeps everything as a Python object: a version 4 signature or key, a user id, or JPEG images; the creation time of the key
    survives the conversion to local time and back *)
Definition kept_key (local mktime : Z -> res Z) (k : pubkey) : Prop :=
  4 <= k_version k /\ k_exp k = None /\ exists d, local (k_ctime k) = Ok d /\ mktime d = Ok (k_ctime k).
Definition kept (local mktime : Z -> res Z) (secret : bool) (p : pkt) : Prop :=
  match p_body p with
  | BSig (SigV4 v _ _ _ _ _ _ _) => 4 <= v
  | BPub _ k => secret = false /\ kept_key local mktime k
  | BSec _ k => secret = true /\ kept_key local mktime (s_pub k) /\ exists s, s_s2k k = Some s
  | BData (PUserId _) => True
  | BAttr l => Forall (fun a => exists d, a = AImage 1 16 (Some 1) d) l
  | _ => False
  end.
