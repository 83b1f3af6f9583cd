(** Local time. A time zone gives for every instant (seconds since 1970, UTC) how many seconds its clocks are ahead of UTC.
    datetime.fromtimestamp(t) is what the clock shows at t; time.mktime of its timetuple() (no time zone and tm_isdst = -1) is an instant at which the clock
    shows this, if there is one, and which one is up to the C library. A datetime counts microseconds. *)
From Verif Require Import Base KeyPackets Packets.

Definition zone := Z -> Z.
Definition shown (z : zone) (t : Z) : Z := t + z t.
Definition local_in (z : zone) (t : Z) : res Z := Ok (shown z t * 1000000).
(** datetime.now() at an instant counted in microseconds *)
Definition now_in (z : zone) (u : Z) : Z := u + z (u / 1000000) * 1000000.
Definition mktime_by (mk : Z -> res Z) (d : Z) : res Z := mk (d / 1000000).
Definition resolves (z : zone) (mk : Z -> res Z) : Prop := forall t, exists t', mk (shown z t) = Ok t' /\ shown z t' = shown z t.
(** the clock shows this time only once *)
Definition shown_once (z : zone) (t : Z) : Prop := forall t', shown z t' = shown z t -> t' = t.
(** clocks that are set once, at T *)
Definition turned (T a b : Z) : zone := fun t => if t <? T then a else b.
(** the creation times of the keys in a packet *)
Definition created (p : pkt) (t : Z) : Prop := match p_body p with BPub _ k => t = k_ctime k | BSec _ k => t = k_ctime (s_pub k) | _ => False end.
Definition dated (k : pubkey) (t : Z) : pubkey := PubKey (k_version k) t (k_alg k) None (k_n k) (k_e k) (k_p k) (k_q k) (k_g k) (k_y k).
(** ** signatures *)
From Verif Require Import Text SigPackets SigAttrs SelfSig.
(** a datetime by o seconds later *)
Definition later (o : Z) (d : Z) : Z := d + o * 1000000.
(** the creation times of its signatures are not before 1970, as all that come from packets *)
Definition after_1970 (l : list ksig) : Prop := forall k s t, In k l -> k_body k = V4 s -> get_value s 2 ATime = Ok (VInt t) -> 0 <= t.

