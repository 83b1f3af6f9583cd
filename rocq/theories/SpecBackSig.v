(** RFC 4880 5.2.3.21 and 5.2.3.26: subkeys that may sign, and their back signatures. *)
From Verif Require Import Base SigPackets.
(** the type of a signature packet *)
Definition sig_kind (g : sigpkt) : Z := match g with SigV3 _ st _ _ _ _ _ _ => st | SigV4 _ st _ _ _ _ _ _ => st end.
(** one of the subpackets holds a signature of type 0x19 *)
Definition has_back_signature (subs : list subpkt) : Prop := exists c g, In (Sub 32 c (SbEmbedded g)) subs /\ sig_kind g = 25.
(** the first subpacket with key flags allows signing data *)
Definition for_signing (subs : list subpkt) : Prop := exists before c cert comms storage auth split group rest,
  subs = before ++ Sub 27 c (SbFlags cert true comms storage auth split group) :: rest /\ Forall (fun s => sub_type s <> 27) before.
