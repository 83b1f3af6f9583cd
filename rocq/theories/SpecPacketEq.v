(** When two packets are the same packet. *)
From Verif Require Import Base Text Framing Armor S2k SessionKeys KeyPackets SigPackets DataPackets UserAttr Packets.
(** the packets other than signatures, one-pass signatures and those of a type the library has no class for *)
Definition plain (p : pkt) : Prop :=
  match p_body p with BSig _ | BOnePass _ => False | BData (POther _ _) => False | _ => True end.
Definition signature (p : pkt) : Prop := exists s, p_body p = BSig s.
(** a signature of version 4 every subpacket of which can be written *)
Definition writes (fl : Z -> Z) (l : list subpkt) : Prop := Forall (fun s => exists b, sub_bytes fl s = Ok b) l.
(** two subpackets of the same class with the same octets *)
Definition unknown (s : subpkt) : Prop := exists ty c, s = Sub ty c SbUnknown.
Definition kind (s : subpkt) : Z := match s with Sub ty _ _ => ty end.
Definition same_sub (fl : Z -> Z) (s t : subpkt) : Prop :=
  ((unknown s /\ unknown t) \/ (~ unknown s /\ ~ unknown t /\ kind s = kind t)) /\ sub_bytes fl s = sub_bytes fl t.
(** each has all that the other has, whatever the order and the number of times *)
Definition same_set (fl : Z -> Z) (l m : list subpkt) : Prop :=
  (forall s, In s l -> exists t, In t m /\ same_sub fl s t) /\ (forall t, In t m -> exists s, In s l /\ same_sub fl t s).
(** anything but a signature of version 2 or 3, or one with a subpacket that cannot be written *)
Definition comparable (fl : Z -> Z) (p : pkt) : Prop :=
  match p_body p with BSig (SigV3 _ _ _ _ _ _ _ _) => False | BSig (SigV4 _ _ _ _ _ _ hs us) => writes fl hs /\ writes fl us | _ => True end.
