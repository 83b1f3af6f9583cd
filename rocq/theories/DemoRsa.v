(** A concrete RSA pair and a concrete DSA pair, with toy hash functions, to show that hypotheses are met. *)
From Verif Require Import Base BaseProofs Spec Utils KeyPackets SigPackets Signable KeyOps SpecVerify SignVerify.
Definition demo_primes : list Z := [2; 3; 5; 17; 19; 29; 41; 73; 211; 281; 337; 421; 631; 1009; 2521].
Definition demo_n : Z := 11355928119033731545828521090.
Definition demo_rsa := PubKey 4 1 1 None (Some demo_n) (Some 17) None None None None.
Definition demo_dsa := PubKey 4 1 17 None None None (Some 23) (Some 11) (Some 4) (Some (4 ^ 3 mod 23)).
Definition demo_sha1 (d : bytes) : bytes := repeat 0 20.
Definition demo_H (ha : Z) (d : bytes) : bytes := [fold_left (fun a b => (a + b) mod 256) d 0].
Definition demo_oid (ha : Z) : bytes := [].
Definition demo_inv (a q : Z) : Z := Zpow_mod a (q - 2) q.
Definition demo_elg (ha : Z) (d : bytes) (v : list Z) : res bool := Ok false.

Lemma coprime_mul_divide a b x : Z.gcd a b = 1 -> (a | x) -> (b | x) -> (a * b | x).
Proof.
  intros G [u U] Hb. subst x. rewrite (Z.mul_comm u a) in *. apply Z.mul_divide_mono_l.
  apply (Z.gauss b a u); [exact Hb|]. now rewrite Z.gcd_comm.
Qed.
Lemma residue_fixed p k : 1 < p -> 0 <= k -> forallb (fun r => Zpow_mod (Z.of_nat r) k p =? Z.of_nat r) (seq 0 (Z.to_nat p)) = true ->
  forall m, (p | m ^ k - m).
Proof.
  intros Hp Hk F m. apply Z.mod_divide; [lia|]. rewrite Zminus_mod, (Zpower_mod m) by lia.
  pose proof (Z.mod_pos_bound m p ltac:(lia)) as B. rewrite forallb_forall in F.
  specialize (F (Z.to_nat (m mod p))). rewrite Z2Nat.id in F by lia.
  assert (I : In (Z.to_nat (m mod p)) (seq 0 (Z.to_nat p))). { apply in_seq. split; [apply Nat.le_0_l|]. apply Z2Nat.inj_lt; lia. }
  specialize (F I). apply Z.eqb_eq in F. rewrite Zpow_mod_correct in F by lia. rewrite F, Z.sub_diag, Z.mod_0_l by lia. reflexivity.
Qed.
Lemma prod_divide ps x : (forall p, In p ps -> (p | x)) ->
  ForallOrdPairs (fun a b => Z.gcd a b = 1) ps -> (fold_right Z.mul 1 ps | x) /\ True.
Proof.
  intros D O. split; [|exact I]. induction O as [|a l Ha O IH]; [apply Z.divide_1_l|]. cbn [fold_right].
  apply coprime_mul_divide; [|apply D; now left|apply IH; intros p Hp; apply D; now right].
  clear - Ha. induction Ha as [|b l G _ IH]; cbn [fold_right]; [apply Z.gcd_1_r|].
  apply Z.bezout_1_gcd. apply Z.gcd_bezout in G as (u & v & E1). apply Z.gcd_bezout in IH as (u' & v' & E2).
  exists (u * u' * a + u * v' * fold_right Z.mul 1 l + v * u' * b), (v * v').
  set (L := fold_right Z.mul 1 l) in *. clearbody L. transitivity ((u * a + v * b) * (u' * a + v' * L)); [ring|]. rewrite E1, E2. reflexivity.
Qed.
Lemma demo_pair : keypair demo_rsa (SRsa 593).
Proof.
  apply (pair_rsa demo_rsa demo_n 17 593); [cbn; auto|reflexivity|reflexivity|].
  intros m B. assert (N0 : 0 < demo_n) by reflexivity.
  rewrite <- Zpower_mod by exact N0. rewrite <- Z.pow_mul_r by lia. change (593 * 17) with 10081.
  rewrite <- (Z.mod_small m demo_n) at 2 by exact B.
  assert (D : (demo_n | m ^ 10081 - m)).
  { change demo_n with (fold_right Z.mul 1 demo_primes). apply prod_divide.
    - intros p Hp. apply residue_fixed; [|lia|].
      + revert p Hp. apply Forall_forall. unfold demo_primes. repeat (apply Forall_cons; [reflexivity|]). apply Forall_nil.
      + revert p Hp. apply Forall_forall. unfold demo_primes.
        repeat (apply Forall_cons; [vm_compute; reflexivity|]). apply Forall_nil.
    - unfold demo_primes. repeat (apply FOP_cons; [repeat (apply Forall_cons; [reflexivity|]); apply Forall_nil|]). apply FOP_nil. }
  destruct D as [c C]. set (a := m ^ 10081) in *. clearbody a. assert (E : a = m + c * demo_n) by lia. rewrite E, Z.mod_add by discriminate. reflexivity.
Qed.
