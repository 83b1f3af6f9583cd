(** What reading and writing keys should do to a key object (shortcuts.py). *)
From Verif Require Import Base Utils Framing Text Armor S2k SessionKeys KeyPackets SigPackets DataPackets UserAttr Packets TransKey Shortcuts.

(** the same key, each part marked with the header format it was written with *)
Definition kobject_fmt (h : header_format) (k : kobject) : kobject := KObject h (ko_pub k) (ko_created k) (ko_expires k) (ko_sec k).
Definition sobject_fmt (h : header_format) (s : sobject) : sobject := SObject h (o_sig s) (o_made s).
Definition reformat (h : header_format) (k : tkey) : tkey :=
  TKey (tk_secret k) (kobject_fmt h (tk_key k)) (map (sobject_fmt h) (tk_sigs k))
    (map (fun u => ((h, snd (fst u)), map (sobject_fmt h) (snd u))) (tk_uids k))
    (map (fun u => ((h, snd (fst u)), map (sobject_fmt h) (snd u))) (tk_attrs k))
    (map (fun u => (kobject_fmt h (fst u), map (sobject_fmt h) (snd u))) (tk_subs k)).
(** the public version of a packet of a secret key *)
Definition public_part (p : pkt) : pkt := match p_body p with BSec sub k => Pkt (p_fmt p) (BPub sub (s_pub k)) | _ => p end.
(** the text given as str, or as ASCII octets *)
Definition given_as (t : text) (i : input) : Prop := i = InStr t \/ i = InBytes t.
(** a text of one or more lines whose first line is [l] *)
Definition first_line (l t : text) : Prop := exists r, t = l ++ [10] ++ r.
