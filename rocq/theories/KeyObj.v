(** Model of attributes of key objects: pgp/transferrable_keys.py:193-214 (what of a packet becomes the object), 289-301 (expiration_time),
    317-326 (bit_length). key_id is KeyOps.obj_key_id, to_packet is TransKey.key_to. Definitions only. *)
From Verif Require Import Base Utils Framing Text KeyPackets TransKey.

(** 317-326 bit_length: the local variable stays unset for other algorithms; math.log of None is a TypeError and of numbers that are not
    positive a ValueError. [cl] is int(math.ceil(math.log(n, 2))), on floating point numbers. *)
Definition key_bits (cl : Z -> Z) (k : pubkey) : res Z :=
  do v <- (if is_rsa_alg (k_alg k) then Ok (k_n k) else if k_alg k =? 17 then Ok (k_p k) else if is_elg_alg (k_alg k) then Ok (k_p k) else Err UnboundLocalError);;
  match v with
  | None => Err TypeError
  | Some n => if n <=? 0 then Err ValueError else Ok (cl n)
  end.
(** 289-293, for versions 2 and 3 (later ones: SelfSig.key_expiration) *)
Definition get_expiration (k : kobject) : option Z := if is_v23 (k_version (ko_pub k)) then ko_expires k else None.
(** 295-299: super(..).expiration_time = value is an AttributeError whatever the value; other versions are ignored *)
Definition set_expiration (k : kobject) (v : option Z) : res kobject :=
  if is_v23 (k_version (ko_pub k)) then Ok (KObject (ko_fmt k) (ko_pub k) (ko_created k) v (ko_sec k))
  else if 4 <=? k_version (ko_pub k) then Err AttributeError
  else Ok k.
