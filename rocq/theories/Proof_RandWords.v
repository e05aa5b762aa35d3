(** * Proof_RandWords: [rand] of the first group *)
From Coq Require Import ZArith List Bool Lia.
From Verif Require Import Base Fld Tables Zr Zp Model_Scalar Spec_Scalar Proof_Scalar5 Spec_Fp Spec_Curve Model_Fp Model_Curve Model_G1 Spec_CurveCode Spec_G1 Proof_G1Top
  Model_ZkWords Proof_ZkWords Model_Random Spec_Cofactor Proof_RandomEven.
Import ListNotations.
Local Open Scope Z_scope.

Lemma scalar_same s t (x : Fr) : represents s x -> represents t x -> s = t.
Proof. intros A B. destruct (proj2 C41_representation_proof x) as (u & _ & U). rewrite (U s A), (U t B). reflexivity. Qed.
Lemma gen_stands : g1_stands zkw_g1_generator g1_gen.
Proof. rewrite (proj1 gens). exact (proj1 g1_generator_ok). Qed.
Lemma gen_sub : g1_subgroup g1_gen.
Proof. exact (proj1 (proj2 (proj2 g1_generator_ok))). Qed.
Theorem zk_g1_rand_value checked w n : limbs w n -> ~ rounding_carries (n mod r) ->
  exists q, zk_g1_rand checked w = Ok q /\ g1_stands q (point_zmul (n mod r) g1_gen) /\ g1_subgroup (point_zmul (n mod r) g1_gen).
Proof.
  intros H N. pose proof (rand_value w n H) as W.
  destruct (proj1 (g1_scalar_mul checked zkw_g1_generator g1_generator_affine g1_gen _ (fr_of n) gen_sub W N) gen_stands) as (q & E & S).
  exists q. split; [exact E|]. split; [exact S|]. apply (proj2 (g1_subgroup_generated _)). exists (n mod r).
  split; [apply Z.mod_pos_bound; reflexivity|reflexivity].
Qed.
Theorem zk_g1_rand_identity checked : exists w q, (exists n, limbs w n) /\ w <> Scalar 0 0 0 0 /\ zk_g1_rand checked w = Ok q /\ g1_stands q Infinity.
Proof.
  assert (L : limbs (words4 r) r) by (apply words4_ok; split; vm_compute; congruence).
  destruct (zk_g1_rand_value checked _ _ L) as (q & E & S & _); [apply g1_small_scalars; vm_compute; split; congruence|].
  exists (words4 r), q. split; [exists r; exact L|]. split; [vm_compute; discriminate|]. split; [exact E|].
  replace (r mod r) with 0 in S by (vm_compute; reflexivity). exact S.
Qed.
Theorem zk_g1_rand_refuted : (exists w, (exists n, limbs w n) /\ zk_g1_rand true w = Panic) /\
  (exists w n q, limbs w n /\ zk_g1_rand false w = Ok q /\ ~ g1_stands q (point_zmul (n mod r) g1_gen)).
Proof.
  split.
  - destruct g1_carry_case as (s & x & R & C). pose proof (val_range x) as V.
    assert (L : limbs (words4 (val x)) (val x)) by (apply words4_ok; assert (r < 2 ^ 256) by reflexivity; lia).
    exists (words4 (val x)). split; [exists (val x); exact L|].
    refine (g1_scalar_mul_panics zkw_g1_generator _ (fr_of (val x)) (rand_value _ _ L) _). rewrite (to_Fr_val x : fr_of (val x) = x). exact C.
  - destruct g1_scalar_mul_refuted as (s & x & q & R & _ & _ & E & N). pose proof (val_range x) as V.
    assert (L : limbs (words4 (val x)) (val x)) by (apply words4_ok; assert (r < 2 ^ 256) by reflexivity; lia).
    exists (words4 (val x)), (val x), q. split; [exact L|]. split.
    + unfold zk_g1_rand, zkw_g1_mul. rewrite (proj1 gens). rewrite <- E. f_equal.
      apply (scalar_same _ _ x); [|exact R]. pose proof (rand_value _ _ L) as W. rewrite (to_Fr_val x : fr_of (val x) = x) in W. exact W.
    + rewrite Z.mod_small by exact V. exact N.
Qed.
Lemma small_word_case : 0 < 2 ^ 256 - 2 * r < r - 1 /\ limbs (Scalar 5 0 0 0) 5 /\ ~ rounding_carries (5 mod r).
Proof.
  split; [split; reflexivity|]. split; [vm_compute; repeat split; congruence|]. apply g1_small_scalars. vm_compute. split; congruence.
Qed.
