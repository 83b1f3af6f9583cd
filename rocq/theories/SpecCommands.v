(** Names of algorithms and their numbers in RFC 4880 9.2-9.4 and RFC 5581, as GnuPG spells them in lower case; lists of text without some elements. *)
From Coq Require Import String.
From Verif Require Import Base Text.
Open Scope Z_scope.
Definition rfc_ciphers : list (text * Z) :=
  [(str "idea", 1); (str "3des", 2); (str "cast5", 3); (str "blowfish", 4); (str "aes", 7); (str "aes192", 8); (str "aes256", 9); (str "twofish", 10);
   (str "camellia128", 11); (str "camellia192", 12); (str "camellia256", 13)].
Definition rfc_digests : list (text * Z) :=
  [(str "md5", 1); (str "sha1", 2); (str "ripemd160", 3); (str "sha256", 8); (str "sha384", 9); (str "sha512", 10); (str "sha224", 11)].
Definition rfc_compressions : list (text * Z) := [(str "zip", 1); (str "zlib", 2); (str "bz2", 3)].
(** [c] is the first element of [l] that is not in [out] *)
Definition first_not_in (out l : list text) (c : text) : Prop := exists pre post, l = pre ++ c :: post /\ incl pre out /\ ~ In c out.
(** [l] is [m] without the elements in [out], in the same order *)
Inductive without (out : list text) : list text -> list text -> Prop :=
| wo_nil : without out [] []
| wo_keep c l m : ~ In c out -> without out l m -> without out (c :: l) (c :: m)
| wo_drop c l m : In c out -> without out l m -> without out l (c :: m).
(** the members of a group: white space separates them *)
Inductive separated : text -> list text -> Prop :=
| sep_end t : Forall (fun c => is_space c = true) t -> separated t []
| sep_one s w : Forall (fun c => is_space c = true) s -> w <> [] -> Forall (fun c => is_space c = false) w -> separated (s ++ w) [w]
| sep_more s w c t ws : Forall (fun c => is_space c = true) s -> w <> [] -> Forall (fun c => is_space c = false) w -> is_space c = true -> separated t ws -> separated (s ++ w ++ c :: t) (w :: ws).
