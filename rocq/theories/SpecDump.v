(** Transferable public keys as sequences of packets, and streams of them. *)
From Verif Require Import Base DumpKeys.

Definition is_sig (p : dpkt) (ts : list Z) : Prop := d_raw p = 2 /\ In (d_sig p) ts.
(** a packet of type [t] with its certifications: 0x10 to 0x13 *)
Definition certified (t : Z) (g : list dpkt) : Prop := exists x cs, g = x :: cs /\ d_raw x = t /\ Forall (fun c => is_sig c [0x10; 0x11; 0x12; 0x13]) cs.
(** a subkey with one binding signature, and possibly one revocation after it *)
Definition bound_subkey (g : list dpkt) : Prop :=
  exists x b r, g = x :: b :: r /\ d_raw x = 14 /\ is_sig b [0x18] /\ (r = [] \/ exists y, r = [y] /\ is_sig y [0x28]).
(** a public key, signatures directly on it and revocations of it, user ids, user attributes, subkeys (none before version 4) *)
Definition dump_key (l : list dpkt) : Prop :=
  exists k ds us uas subs, l = k :: ds ++ concat us ++ concat uas ++ concat subs /\ d_raw k = 6 /\ Forall (fun s => is_sig s [0x1F; 0x20]) ds /\
    Forall (certified 13) us /\ Forall (certified 17) uas /\ Forall bound_subkey subs /\ (subs <> [] -> 4 <= d_version k).
(** the packets from one public key packet up to the next *)
Definition key_group (g : list dpkt) : Prop := exists k t, g = k :: t /\ d_raw k = 6 /\ Forall (fun p => d_raw p <> 6) t.
(** a type that fits in one octet and a length that fits in four *)
Definition key_pkt (p : dpkt) : Prop := byte (d_raw p) /\ zlen (d_data p) < 2 ^ 32.
(** an event of a stream that is not a public key packet; a stream that begins with one *)
Definition no_key (ev : event) : Prop := match ev with Pk p => d_raw p <> 6 | Bad _ => True end.
Definition starts (evs : list event) : Prop := exists k r, evs = Pk k :: r /\ d_raw k = 6.
