(** The machine readable index of draft-shaw-openpgp-hkp-00 section 5.2, as text. *)
From Verif Require Import Base Text Hkp.

(** lines beginning with "pub" and "uid" *)
Definition is_pub (l : text) : Prop := exists r, l = 112 :: 117 :: 98 :: r.
Definition is_uid (l : text) : Prop := exists r, l = 117 :: 105 :: 100 :: r.
(** a listing: anything without a pub line, then for each key its pub line and the lines up to the next pub line *)
Record block := Block { b_pub : text; b_rest : list text }.
Definition listing (pre : list text) (bs : list block) (lines : list text) : Prop :=
  lines = pre ++ flat_map (fun b => b_pub b :: b_rest b) bs /\
  (forall l, In l pre -> ~ is_pub l) /\ (forall b, In b bs -> is_pub (b_pub b) /\ forall l, In l (b_rest b) -> ~ is_pub l).
(** the uid lines among some lines, in order *)
Inductive uids_of : list text -> list text -> Prop :=
| uo_nil : uids_of [] []
| uo_uid l ls us : is_uid l -> uids_of ls us -> uids_of (l :: ls) (l :: us)
| uo_other l ls us : ~ is_uid l -> uids_of ls us -> uids_of (l :: ls) us.

(** fields joined by colons; "Colons for empty fields on the end of each line may be left off" *)
Fixpoint colons (fs : list text) : text :=
  match fs with
  | [] => []
  | [f] => f
  | f :: t => f ++ 58 :: colons t
  end.
Definition line_of (fs : list text) (l : text) : Prop := exists j, l ++ repeat 58 j = colons fs.
Definition flag_chars (r d e : bool) (flags : text) : Prop :=
  (In 114 flags <-> r = true) /\ (In 100 flags <-> d = true) /\ (In 101 flags <-> e = true) /\ ~ In 58 flags.
Section Render.
(** how numbers and user ids are written *)
Variables (num : Z -> text) (quote : text -> text).
Definition opt_num (o : option Z) : text := match o with Some n => num n | None => [] end.
Inductive uid_line : uidres -> text -> Prop :=
| ul u c e r d x flags l : flag_chars r d x flags -> line_of [str "uid"; quote u; num c; opt_num e; flags] l -> uid_line (UidRes u c e r d x) l.
Inductive pub_line : keyres -> text -> Prop :=
| pl k a b c e r d x us flags l : flag_chars r d x flags -> ~ In 58 k -> line_of [str "pub"; k; num a; num b; num c; opt_num e; flags] l ->
    pub_line (KeyRes k a b c e r d x us) l.
(** the block of a key: its pub line, then its uid lines, with lines of other kinds anywhere between *)
Definition block_of (k : keyres) (b : block) : Prop :=
  pub_line k (b_pub b) /\ exists us, uids_of (b_rest b) us /\ Forall2 uid_line (h_uids k) us.
End Render.
