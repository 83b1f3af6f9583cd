(** Model of BasePublicKey.keygrip: pgp/transferrable_keys.py:344-361. Definitions only. *)
From Verif Require Import Base Utils Text S2k KeyPackets SigPackets DataPackets UserAttr Packets TransKey.

(** '{n}'.format(n=x) for an int or None. (Python 3.10.7 and later refuse numbers of more than 4300 digits here; not modelled.) *)
Definition format_number (o : option Z) : text := match o with Some i => dec_of i | None => str "None" end.
(** 346-359: the text that is hashed *)
Definition grip_text (k : pubkey) : res text :=
  if is_rsa_alg (k_alg k) then
    Ok (str "(public-key(rsa(n" ++ format_number (k_n k) ++ str ")(e" ++ format_number (k_e k) ++ str ")))")
  else if k_alg k =? 17 then
    Ok (str "(public-key(dsa(p" ++ format_number (k_p k) ++ str ")(q" ++ format_number (k_q k) ++ str ")(g" ++ format_number (k_g k) ++ str ")(y" ++ format_number (k_y k) ++ str ")))")
  else if is_elg_alg (k_alg k) then
    Ok (str "(public-key(elg(p" ++ format_number (k_p k) ++ str ")(g" ++ format_number (k_g k) ++ str ")(y" ++ format_number (k_y k) ++ str ")))")
  else Err ValueError.
(** 361: encode('us-ascii') of a text of ASCII characters is the same numbers; hexdigest().upper() *)
Definition keygrip (sha1 : bytes -> bytes) (k : pubkey) : res text := do t <- grip_text k;; hexdigest (sha1 t).
(** the same property of a key object (secret or public): it reads the object's attributes *)
Definition obj_keygrip (sha1 : bytes -> bytes) (o : kobject) : res text := keygrip sha1 (ko_pub o).
