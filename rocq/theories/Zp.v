(** * Zp: the BLS12-381 base field as a concrete [fld]

    The base field of the zkcrypto backend is Z/pZ, where [p] is the constant of
    zkcrypto/src/curve/fp.rs:249-257 [MODULUS].  Primality of [p] is proved by a chain of
    Pocklington certificates, not assumed. *)
From Coq Require Import ZArith Znumtheory Lia Zpow_facts List Bool Eqdep_dec Field.
From Verif Require Import Base Fld Poly Fermat Tables.
Import ListNotations.
Local Open Scope Z_scope.

(** zkcrypto/src/curve/fp.rs:249-257 *)
Definition p_limbs : list Z :=
  [0xb9feffffffffaaab; 0x1eabfffeb153ffff; 0x6730d2a0f6b0f624; 0x64774b84f38512bf; 0x4b1ba7b6434bacd7; 0x1a0111ea397fe69a].
Definition p : Z := 0x1a0111ea397fe69a4b1ba7b6434bacd764774b84f38512bf6730d2a0f6b0f6241eabfffeb153ffffb9feffffffffaaab.

Lemma p_limbs_val : limbs_val p_limbs = p.
Proof. reflexivity. Qed.

(** one prime factor of n - 1 above the square root of n suffices *)
Lemma pocklington_one n f a m : 1 < n -> prime f -> 0 < m -> n - 1 = f * m -> n < f * f ->
  powmod a (n - 1) n = 1 -> Z.gcd (powmod a m n - 1) n = 1 -> prime n.
Proof.
  intros Hn Hf Hm En Hff H1 H2. assert (F2 := prime_ge_2 f Hf).
  apply (prime_of_large_factors n f); [lia|lia|exact Hff|].
  intros q Pq Dq. rewrite <- (Z.pow_1_r f).
  apply (pocklington_step n q f 0 a m); auto; change (Z.of_nat 1) with 1; change (Z.of_nat 0) with 0.
  - now rewrite Z.pow_1_r.
  - now rewrite Z.pow_0_r, Z.mul_1_l.
Qed.

Lemma prime_421987 : prime 421987.
Proof. apply (small_prime _ 650); [lia|vm_compute; reflexivity|lia]. Qed.
Lemma prime_13090036741 : prime 13090036741.
Proof. apply (pocklington_one _ 421987 2 31020); [lia|exact prime_421987|lia|lia|lia|vm_compute; reflexivity..]. Qed.
Lemma prime_755057 : prime 755057.
Proof. apply (small_prime _ 869); [lia|vm_compute; reflexivity|lia]. Qed.
Lemma prime_3819663927398918131021 : prime 3819663927398918131021.
Proof.
  set (n := 3819663927398918131021).
  apply (prime_of_large_factors n (13090036741 * 755057)); [reflexivity..|].
  intros q Pq Dq.
  assert (D1 : (13090036741 ^ 1 | q - 1)).
  { apply (pocklington_step n q 13090036741 0 2 ((n - 1) / 13090036741)); [reflexivity|exact Pq|exact Dq|exact prime_13090036741|vm_compute; reflexivity..]. }
  assert (D2 : (755057 ^ 1 | q - 1)).
  { apply (pocklington_step n q 755057 0 2 ((n - 1) / 755057)); [reflexivity|exact Pq|exact Dq|exact prime_755057|vm_compute; reflexivity..]. }
  rewrite Z.pow_1_r in D1, D2. destruct D2 as [k Ek]. rewrite Ek in *.
  apply Z.mul_divide_mono_r. apply (Z.gauss _ 755057 k); [now rewrite Z.mul_comm|reflexivity].
Qed.
Definition prime_f2 : Z := 1125266252156850182658904441386709967.
Lemma prime_f2_prime : prime prime_f2.
Proof. apply (pocklington_one _ 3819663927398918131021 2 ((prime_f2 - 1) / 3819663927398918131021)); [reflexivity|exact prime_3819663927398918131021|vm_compute; reflexivity..]. Qed.
Definition prime_f1 : Z := 15778400344354997994418419698270088123916926905054652752758194827714659.
Lemma prime_f1_prime : prime prime_f1.
Proof. apply (pocklington_one _ prime_f2 2 ((prime_f1 - 1) / prime_f2)); [reflexivity|exact prime_f2_prime|vm_compute; reflexivity..]. Qed.
(** 2 is not a cube; its power is also the certificate of primality *)
Lemma pow_thrice a e u n : 0 < n -> 0 <= e -> a ^ e mod n = u -> (u * u) mod n * u mod n = 1 -> a ^ (e + e + e) mod n = 1.
Proof.
  intros N E H G. rewrite !Z.pow_add_r by lia. rewrite Z.mul_mod, (Z.mul_mod (a ^ e)) by lia. rewrite H.
  exact G.
Qed.
Definition p_third : Z := (p - 1) / 3.
Lemma two_third : powmod 2 p_third p = 0x5f19672fdf76ce51ba69c6076a0f77eaddb3a93be6f89688de17d813620a00022e01fffffffefffe.
Proof. vm_compute. reflexivity. Qed.
Lemma two_full : powmod 2 (p - 1) p = 1.
Proof.
  rewrite powmod_spec by (vm_compute; congruence).
  change (p - 1) with (p_third + p_third + p_third).
  eapply pow_thrice; [reflexivity|vm_compute; congruence| |].
  - rewrite <- powmod_spec by (vm_compute; congruence). exact two_third.
  - vm_compute. reflexivity.
Qed.
Theorem p_prime : prime p.
Proof.
  apply (pocklington_one _ prime_f1 2 ((p - 1) / prime_f1)); [reflexivity|exact prime_f1_prime|vm_compute; reflexivity..|exact two_full|vm_compute; reflexivity].
Qed.

Lemma p_gt_1 : 1 < p. Proof. reflexivity. Qed.
Lemma p_pos : 0 < p. Proof. reflexivity. Qed.

(** ** Z/pZ with canonical representatives *)
Definition pcanon (x : Z) : bool := (0 <=? x) && (x <? p).
Definition Fp_t : Type := { x : Z | pcanon x = true }.

Lemma pcanon_mod x : pcanon (x mod p) = true.
Proof.
  unfold pcanon. assert (B := Z.mod_pos_bound x p p_pos).
  apply andb_true_iff. split; [apply Z.leb_le|apply Z.ltb_lt]; lia.
Qed.

Definition to_Fp (x : Z) : Fp_t := exist _ (x mod p) (pcanon_mod x).
Definition pval (x : Fp_t) : Z := proj1_sig x.

Lemma pval_range x : 0 <= pval x < p.
Proof.
  destruct x as [x H]. simpl. unfold pcanon in H. apply andb_true_iff in H as [H1 H2].
  apply Z.leb_le in H1. apply Z.ltb_lt in H2. lia.
Qed.

Lemma pval_inj x y : pval x = pval y -> x = y.
Proof.
  destruct x as [x Hx], y as [y Hy]. simpl. intros ->. f_equal.
  apply UIP_dec. apply bool_dec.
Qed.

Lemma pval_to_Fp x : pval (to_Fp x) = x mod p.
Proof. reflexivity. Qed.

Lemma to_Fp_pval x : to_Fp (pval x) = x.
Proof. apply pval_inj. rewrite pval_to_Fp. apply Z.mod_small. apply pval_range. Qed.

Lemma to_Fp_eq x y : to_Fp x = to_Fp y <-> x mod p = y mod p.
Proof.
  split.
  - intros H. apply (f_equal pval) in H. exact H.
  - intros H. apply pval_inj. exact H.
Qed.

Definition Fp_add (x y : Fp_t) := to_Fp (pval x + pval y).
Definition Fp_mul (x y : Fp_t) := to_Fp (pval x * pval y).
Definition Fp_sub (x y : Fp_t) := to_Fp (pval x - pval y).
Definition Fp_neg (x : Fp_t) := to_Fp (- pval x).
(** inverse: a binary extended-Euclid candidate, used when it checks, else the power p - 2
    (the candidate only makes concrete cases cheap to evaluate; no proof depends on it) *)
Definition phalve (a : Z) : Z := if Z.even a then Z.div2 a else Z.div2 (a + p).
Fixpoint pbinv (fuel : nat) (u v a c : Z) : Z :=
  match fuel with
  | O => a
  | S f =>
    if u =? 1 then a else if v =? 1 then c
    else if Z.even u then pbinv f (Z.div2 u) v (phalve a) c
    else if Z.even v then pbinv f u (Z.div2 v) a (phalve c)
    else if v <? u then pbinv f (u - v) v (if c <=? a then a - c else a - c + p) c
    else pbinv f u (v - u) a (if a <=? c then c - a else c - a + p)
  end.
Definition Fp_inv (x : Fp_t) : Fp_t :=
  let i := pbinv 1024 (pval x) p 1 0 in
  if (i * pval x) mod p =? 1 then to_Fp i else to_Fp (powmod (pval x) (p - 2) p).
Definition Fp_eqb (x y : Fp_t) := (pval x =? pval y).

Lemma Fp_inv_l x : x <> to_Fp 0 -> Fp_mul (Fp_inv x) x = to_Fp 1.
Proof.
  intros H. unfold Fp_mul, Fp_inv. apply pval_inj.
  destruct ((pbinv 1024 (pval x) p 1 0 * pval x) mod p =? 1) eqn:E.
  { apply Z.eqb_eq in E. rewrite !pval_to_Fp, Z.mul_mod_idemp_l, E by discriminate. reflexivity. }
  rewrite !pval_to_Fp. rewrite powmod_spec; [|reflexivity|discriminate].
  rewrite Z.mod_mod by discriminate.
  rewrite Z.mul_mod_idemp_l by discriminate.
  replace (pval x ^ (p - 2) * pval x) with (pval x ^ (p - 1)).
  - rewrite fermat; [reflexivity|apply p_prime|].
    intros D. apply H. apply pval_inj. rewrite pval_to_Fp. change (0 mod p) with 0.
    apply Z.mod_divide in D; [|discriminate].
    rewrite Z.mod_small in D; auto using pval_range.
  - replace (p - 1) with (Z.succ (p - 2)) by lia. rewrite Z.pow_succ_r by discriminate. apply Z.mul_comm.
Qed.

Ltac Fp_simpl := unfold Fp_add, Fp_mul, Fp_sub, Fp_neg; apply pval_inj; rewrite ?pval_to_Fp;
  repeat (rewrite ?Z.add_mod_idemp_l, ?Z.add_mod_idemp_r, ?Z.mul_mod_idemp_l, ?Z.mul_mod_idemp_r by discriminate).

Lemma Fp_ring : ring_theory (to_Fp 0) (to_Fp 1) Fp_add Fp_mul Fp_sub Fp_neg eq.
Proof.
  constructor; intros.
  - Fp_simpl. change (0 mod p) with 0. rewrite Z.add_0_l. apply Z.mod_small, pval_range.
  - Fp_simpl. f_equal. ring.
  - Fp_simpl. f_equal. ring.
  - Fp_simpl. change (1 mod p) with 1. rewrite Z.mul_1_l. apply Z.mod_small, pval_range.
  - Fp_simpl. f_equal. ring.
  - Fp_simpl. f_equal. ring.
  - Fp_simpl. f_equal. ring.
  - Fp_simpl. reflexivity.
  - Fp_simpl. rewrite Z.add_opp_diag_r. reflexivity.
Qed.

Lemma Fp_one_neq_zero : to_Fp 1 <> to_Fp 0.
Proof. intros H. apply (f_equal pval) in H. discriminate. Qed.

Definition Fp : fld.
Proof.
  refine (mkFld Fp_t (to_Fp 0) (to_Fp 1) Fp_add Fp_mul Fp_sub Fp_neg Fp_inv Fp_eqb _ _ _).
  - constructor.
    + exact Fp_ring.
    + exact Fp_one_neq_zero.
    + reflexivity.
    + exact Fp_inv_l.
  - apply pval_inj. vm_compute. reflexivity.
  - intros x y. unfold Fp_eqb. rewrite Z.eqb_eq. split; [apply pval_inj|congruence].
Defined.

(** the field element denoted by an integer *)
Definition fp_of (x : Z) : Fp := to_Fp x.

(** ** homomorphism facts *)
Lemma Fp_f0 : (f0 : Fp) = to_Fp 0. Proof. reflexivity. Qed.
Lemma Fp_f1 : (f1 : Fp) = to_Fp 1. Proof. reflexivity. Qed.
Lemma fp_of_add x y : fp_of (x + y) = fadd (fp_of x) (fp_of y).
Proof.
  change (to_Fp (x + y) = Fp_add (to_Fp x) (to_Fp y)). unfold Fp_add.
  apply pval_inj. unfold fp_of; rewrite !pval_to_Fp. now rewrite <- Z.add_mod by discriminate.
Qed.
Lemma fp_of_mul x y : fp_of (x * y) = fmul (fp_of x) (fp_of y).
Proof.
  change (to_Fp (x * y) = Fp_mul (to_Fp x) (to_Fp y)). unfold Fp_mul.
  apply pval_inj. unfold fp_of; rewrite !pval_to_Fp. now rewrite <- Z.mul_mod by discriminate.
Qed.
Lemma fp_of_sub x y : fp_of (x - y) = fsub (fp_of x) (fp_of y).
Proof.
  change (to_Fp (x - y) = Fp_sub (to_Fp x) (to_Fp y)). unfold Fp_sub.
  apply pval_inj. unfold fp_of; rewrite !pval_to_Fp. now rewrite <- Zminus_mod.
Qed.

Lemma fnat_Fp n : (fnat n : Fp) = fp_of (Z.of_nat n).
Proof.
  induction n; [reflexivity|]. cbn [fnat]. rewrite IHn, Nat2Z.inj_succ.
  replace (Z.succ (Z.of_nat n)) with (1 + Z.of_nat n) by lia. now rewrite fp_of_add.
Qed.

Lemma fpow_Fp (x : Z) n : fpow (fp_of x) n = fp_of (x ^ Z.of_nat n).
Proof.
  induction n; [reflexivity|]. cbn [fpow]. rewrite IHn, Nat2Z.inj_succ, Z.pow_succ_r by lia.
  now rewrite fp_of_mul.
Qed.
