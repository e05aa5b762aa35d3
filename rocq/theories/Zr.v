(** * Zr: the BLS12-381 scalar field as a concrete [fld]

    The scalar field of every backend is Z/rZ, where [r] is the constant of
    zkcrypto/src/curve/scalar.rs:68-73 [MODULUS] (blst and mcl use the same curve).
    Primality of [r] is proved (Pocklington), not assumed. *)
From Coq Require Import ZArith Znumtheory Lia Zpow_facts List Bool Eqdep_dec Field.
From Verif Require Import Base Fld Poly Fermat Tables.
Import ListNotations.
Local Open Scope Z_scope.

(** zkcrypto/src/curve/scalar.rs:68-73 *)
Definition r_limbs : list Z :=
  [0xffffffff00000001; 0x53bda402fffe5bfe; 0x3339d80809a1d805; 0x73eda753299d7d48].
Definition r : Z := 0x73eda753299d7d483339d80809a1d80553bda402fffe5bfeffffffff00000001.

Lemma r_limbs_val : limbs_val r_limbs = r.
Proof. reflexivity. Qed.

Lemma prime_2' : prime 2. Proof. exact prime_2. Qed.
Lemma prime_906349 : prime 906349.
Proof. apply (small_prime _ 952); [lia|vm_compute; reflexivity|lia]. Qed.
Lemma prime_254760293 : prime 254760293.
Proof. apply (small_prime _ 15962); [lia|vm_compute; reflexivity|lia]. Qed.
Lemma prime_52437899 : prime 52437899.
Proof. apply (small_prime _ 7242); [lia|vm_compute; reflexivity|lia]. Qed.

Definition pockF : Z := 2 ^ 32 * (906349 ^ 2 * (254760293 ^ 2 * 52437899 ^ 1)).

Lemma r_fermat_7 : powmod 7 (r - 1) r = 1.
Proof. vm_compute. reflexivity. Qed.
Theorem r_prime : prime r.
Proof.
  apply (prime_of_large_factors r pockF).
  - vm_compute; reflexivity.
  - vm_compute; reflexivity.
  - vm_compute; reflexivity.
  - intros q Pq Dq.
    assert (D2 : (2 ^ 32 | q - 1)).
    { apply (pocklington_step r q 2 31 7 ((r - 1) / 2 ^ 32)); [reflexivity|exact Pq|exact Dq|exact prime_2|vm_compute; reflexivity|vm_compute; reflexivity|exact r_fermat_7|vm_compute; reflexivity]. }
    assert (D3 : (906349 ^ 2 | q - 1)).
    { apply (pocklington_step r q 906349 1 7 ((r - 1) / 906349 ^ 2)); [reflexivity|exact Pq|exact Dq|exact prime_906349|vm_compute; reflexivity|vm_compute; reflexivity|exact r_fermat_7|vm_compute; reflexivity]. }
    assert (D5 : (254760293 ^ 2 | q - 1)).
    { apply (pocklington_step r q 254760293 1 7 ((r - 1) / 254760293 ^ 2)); [reflexivity|exact Pq|exact Dq|exact prime_254760293|vm_compute; reflexivity|vm_compute; reflexivity|exact r_fermat_7|vm_compute; reflexivity]. }
    assert (D7 : (52437899 ^ 1 | q - 1)).
    { apply (pocklington_step r q 52437899 0 7 ((r - 1) / 52437899 ^ 1)); [reflexivity|exact Pq|exact Dq|exact prime_52437899|vm_compute; reflexivity|vm_compute; reflexivity|exact r_fermat_7|vm_compute; reflexivity]. }
    assert (cop : forall a b c, (a | c) -> (b | c) -> Z.gcd a b = 1 -> (a * b | c)).
    { intros a b c Ha [k ->] G. apply Z.mul_divide_mono_r.
      apply (Z.gauss a b k); auto. now rewrite Z.mul_comm. }
    unfold pockF.
    apply cop; [exact D2| |vm_compute; reflexivity].
    apply cop; [exact D3| |vm_compute; reflexivity].
    apply cop; [exact D5|exact D7|vm_compute; reflexivity].
Qed.

Lemma r_gt_1 : 1 < r. Proof. reflexivity. Qed.
Lemma r_pos : 0 < r. Proof. reflexivity. Qed.

(** ** Z/nZ with canonical representatives *)
Definition canon (x : Z) : bool := (0 <=? x) && (x <? r).
Definition Fr_t : Type := { x : Z | canon x = true }.

Lemma canon_mod x : canon (x mod r) = true.
Proof.
  unfold canon. assert (B := Z.mod_pos_bound x r r_pos).
  apply andb_true_iff. split; [apply Z.leb_le|apply Z.ltb_lt]; lia.
Qed.

Definition to_Fr (x : Z) : Fr_t := exist _ (x mod r) (canon_mod x).
Definition val (x : Fr_t) : Z := proj1_sig x.

Lemma val_range x : 0 <= val x < r.
Proof.
  destruct x as [x H]. simpl. unfold canon in H. apply andb_true_iff in H as [H1 H2].
  apply Z.leb_le in H1. apply Z.ltb_lt in H2. lia.
Qed.

Lemma val_inj x y : val x = val y -> x = y.
Proof.
  destruct x as [x Hx], y as [y Hy]. simpl. intros ->. f_equal.
  apply UIP_dec. apply bool_dec.
Qed.

Lemma val_to_Fr x : val (to_Fr x) = x mod r.
Proof. reflexivity. Qed.

Lemma to_Fr_val x : to_Fr (val x) = x.
Proof. apply val_inj. rewrite val_to_Fr. apply Z.mod_small. apply val_range. Qed.

Lemma to_Fr_eq x y : to_Fr x = to_Fr y <-> x mod r = y mod r.
Proof.
  split.
  - intros H. apply (f_equal val) in H. exact H.
  - intros H. apply val_inj. exact H.
Qed.

Definition Fr_add (x y : Fr_t) := to_Fr (val x + val y).
Definition Fr_mul (x y : Fr_t) := to_Fr (val x * val y).
Definition Fr_sub (x y : Fr_t) := to_Fr (val x - val y).
Definition Fr_neg (x : Fr_t) := to_Fr (- val x).
(** inverse: a binary extended-Euclid candidate, used when it checks, else the power r - 2
    (the candidate only makes concrete cases cheap to evaluate; no proof depends on it) *)
Definition halve (a : Z) : Z := if Z.even a then Z.div2 a else Z.div2 (a + r).
Fixpoint binv (fuel : nat) (u v a c : Z) : Z :=
  match fuel with
  | O => a
  | S f =>
    if u =? 1 then a else if v =? 1 then c
    else if Z.even u then binv f (Z.div2 u) v (halve a) c
    else if Z.even v then binv f u (Z.div2 v) a (halve c)
    else if v <? u then binv f (u - v) v (if c <=? a then a - c else a - c + r) c
    else binv f u (v - u) a (if a <=? c then c - a else c - a + r)
  end.
Definition Fr_inv (x : Fr_t) : Fr_t :=
  let i := binv 1024 (val x) r 1 0 in
  if (i * val x) mod r =? 1 then to_Fr i else to_Fr (powmod (val x) (r - 2) r).
Definition Fr_eqb (x y : Fr_t) := (val x =? val y).

Lemma Fr_inv_l x : x <> to_Fr 0 -> Fr_mul (Fr_inv x) x = to_Fr 1.
Proof.
  intros H. unfold Fr_mul, Fr_inv. apply val_inj.
  destruct ((binv 1024 (val x) r 1 0 * val x) mod r =? 1) eqn:E.
  { apply Z.eqb_eq in E. rewrite !val_to_Fr, Z.mul_mod_idemp_l, E by discriminate. reflexivity. }
  rewrite !val_to_Fr. rewrite powmod_spec; [|reflexivity|discriminate].
  rewrite Z.mod_mod by discriminate.
  rewrite Z.mul_mod_idemp_l by discriminate.
  replace (val x ^ (r - 2) * val x) with (val x ^ (r - 1)).
  - rewrite fermat; [reflexivity|apply r_prime|].
    intros D. apply H. apply val_inj. rewrite val_to_Fr. change (0 mod r) with 0.
    apply Z.mod_divide in D; [|discriminate].
    rewrite Z.mod_small in D; auto using val_range.
  - replace (r - 1) with (Z.succ (r - 2)) by lia. rewrite Z.pow_succ_r by discriminate. ring.
Qed.

Ltac Fr_simpl := unfold Fr_add, Fr_mul, Fr_sub, Fr_neg; apply val_inj; rewrite ?val_to_Fr;
  repeat (rewrite ?Z.add_mod_idemp_l, ?Z.add_mod_idemp_r, ?Z.mul_mod_idemp_l, ?Z.mul_mod_idemp_r by discriminate).

Lemma Fr_ring : ring_theory (to_Fr 0) (to_Fr 1) Fr_add Fr_mul Fr_sub Fr_neg eq.
Proof.
  constructor; intros.
  - Fr_simpl. change (0 mod r) with 0. rewrite Z.add_0_l. apply Z.mod_small, val_range.
  - Fr_simpl. f_equal. ring.
  - Fr_simpl. f_equal. ring.
  - Fr_simpl. change (1 mod r) with 1. rewrite Z.mul_1_l. apply Z.mod_small, val_range.
  - Fr_simpl. f_equal. ring.
  - Fr_simpl. f_equal. ring.
  - Fr_simpl. f_equal. ring.
  - Fr_simpl. reflexivity.
  - Fr_simpl. rewrite Z.add_opp_diag_r. reflexivity.
Qed.

Lemma Fr_one_neq_zero : to_Fr 1 <> to_Fr 0.
Proof. intros H. apply (f_equal val) in H. discriminate. Qed.

Definition Fr : fld.
Proof.
  refine (mkFld Fr_t (to_Fr 0) (to_Fr 1) Fr_add Fr_mul Fr_sub Fr_neg Fr_inv Fr_eqb _ _ _).
  - constructor.
    + exact Fr_ring.
    + exact Fr_one_neq_zero.
    + reflexivity.
    + exact Fr_inv_l.
  - apply val_inj. vm_compute. reflexivity.
  - intros x y. unfold Fr_eqb. rewrite Z.eqb_eq. split; [apply val_inj|congruence].
Defined.

(** the field element denoted by an integer *)
Definition fr_of (x : Z) : Fr := to_Fr x.

(** ** homomorphism facts *)
Lemma Fr_f0 : (f0 : Fr) = to_Fr 0. Proof. reflexivity. Qed.
Lemma Fr_f1 : (f1 : Fr) = to_Fr 1. Proof. reflexivity. Qed.
Lemma fr_of_add x y : fr_of (x + y) = fadd (fr_of x) (fr_of y).
Proof.
  change (to_Fr (x + y) = Fr_add (to_Fr x) (to_Fr y)). unfold Fr_add.
  apply val_inj. unfold fr_of; rewrite !val_to_Fr. now rewrite <- Z.add_mod by discriminate.
Qed.
Lemma fr_of_mul x y : fr_of (x * y) = fmul (fr_of x) (fr_of y).
Proof.
  change (to_Fr (x * y) = Fr_mul (to_Fr x) (to_Fr y)). unfold Fr_mul.
  apply val_inj. unfold fr_of; rewrite !val_to_Fr. now rewrite <- Z.mul_mod by discriminate.
Qed.
Lemma fr_of_sub x y : fr_of (x - y) = fsub (fr_of x) (fr_of y).
Proof.
  change (to_Fr (x - y) = Fr_sub (to_Fr x) (to_Fr y)). unfold Fr_sub.
  apply val_inj. unfold fr_of; rewrite !val_to_Fr. now rewrite <- Zminus_mod.
Qed.

Lemma fnat_Fr n : (fnat n : Fr) = fr_of (Z.of_nat n).
Proof.
  induction n; [reflexivity|]. cbn [fnat]. rewrite IHn, Nat2Z.inj_succ.
  replace (Z.succ (Z.of_nat n)) with (1 + Z.of_nat n) by lia. now rewrite fr_of_add.
Qed.

Lemma fpow_Fr (x : Z) n : fpow (fr_of x) n = fr_of (x ^ Z.of_nat n).
Proof.
  induction n; [reflexivity|]. cbn [fpow]. rewrite IHn, Nat2Z.inj_succ, Z.pow_succ_r by lia.
  now rewrite fr_of_mul.
Qed.
