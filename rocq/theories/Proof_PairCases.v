(** * Proof_PairCases: concrete cases for the properties of the pairing *)
From Coq Require Import ZArith List Bool Lia.
From Verif Require Import Base Fld Zr Zp Spec_Scalar Model_Scalar Proof_Scalar Proof_Scalar2 Proof_Scalar5 Spec_Fp Model_Fp Model_Curve Model_Fp2 Model_Fp12 Model_G1 Model_G2 Model_Pair Spec_Curve Spec_CurveCode Spec_G1 Spec_G2 Proof_G1Top Proof_G2Psi Proof_G1Mul Proof_G2Top Proof_G2Cases Proof_Fp12 Spec_Ext Proof_ExtTop Power Tower Ext Spec_Pair Proof_FinalExp Proof_PairTop.
Import ListNotations.
Local Open Scope Z_scope.

Lemma root_case : Fp12_root <> f0 /\ Fp12_root <> f1.
Proof.
  split; intros E; apply (f_equal (fun z : Fp12 => match z with Quad _ z1 => z1 end)) in E; [exact (@f1_neq_0 Fp6 E)|exact (@f1_neq_0 Fp6 E)].
Qed.
Lemma final_exp_case : (exists a, stands_for12 a Fp12_root /\ Fp12_root <> f0 /\ Fp12_root <> f1) /\ final_exponentiation fp12_zero = Panic.
Proof.
  split.
  - destruct (stands_for12_exists Fp12_root) as [a A]. exists a. exact (conj A root_case).
  - assert (Z : stands_for12 fp12_zero f0) by (apply stands_for12_rep; exact r12_zero).
    exact (proj1 (final_exp_spec fp12_zero f0 Z) eq_refl).
Qed.
Lemma gt_case : stands_for12 gt_identity f1 /\ gt_member f1 /\ exists s (k : Fr), represents s k /\ val k = r - 1.
Proof.
  split; [exact (proj1 gt_identity_spec)|]. split; [exact (proj2 gt_identity_spec)|]. destruct g2_mul_case as (s & x & H & E & _). exists s, x. exact (conj H E).
Qed.
Lemma pairing_case : g1_aff_stands g1_generator_affine g1_gen /\ g2_aff_stands g2_generator_affine g2_gen /\ g2_subgroup g2_gen /\ g1_gen <> Infinity /\ g2_gen <> Infinity.
Proof.
  split; [exact (proj1 (proj2 g1_generator_ok))|]. split; [exact (proj1 (proj2 g2_generator_ok))|]. split; [exact gen2_sub|]. split; [discriminate|exact G2gen_finite].
Qed.
Lemma verify_case : exists a1 a2 b1 b2, g1_stands a1 (point_zmul 6 g1_gen) /\ g2_stands a2 g2_gen /\ g1_stands b1 (point_zmul 2 g1_gen) /\ g2_stands b2 (point_zmul 3 g2_gen) /\
  zk_pairings_verify a1 a2 b1 b2 = Ok true.
Proof.
  assert (C1 : g1_on_curve g1_gen) by exact (proj1 (proj1 (proj2 (proj2 g1_generator_ok)))).
  assert (D : forall n, g1_on_curve (point_zmul n g1_gen)) by (intros n; apply G1_ZON; exact C1).
  pose proof (sub_zmul g2_gen 3 gen2_sub) as S3.
  destruct (proj1 (proj1 g1_stands_total _ (D 6))) as [a1 HA]. destruct (proj1 (proj1 g1_stands_total _ (D 2))) as [b1 HB].
  destruct (proj1 (proj1 g2_stands_total _ (proj1 S3))) as [b2 HQ].
  exists a1, g2_generator, b1, b2. split; [exact HA|]. split; [exact (proj1 g2_generator_ok)|]. split; [exact HB|]. split; [exact HQ|].
  destruct (pairings_verify_code _ _ _ _ _ _ _ _ HA (proj1 g2_generator_ok) HB HQ gen2_sub S3) as (v & E & I). rewrite E. apply (f_equal Ok). apply I.
  rewrite (proj1 (pairing_multiples g1_gen g2_gen 6 C1 gen2_sub)), (proj2 (pairing_multiples (point_zmul 2 g1_gen) g2_gen 3 (D 2) gen2_sub)), (proj1 (pairing_multiples g1_gen g2_gen 2 C1 gen2_sub)).
  rewrite <- (zpow_mul_nn (pairing_value g1_gen g2_gen) 2 3) by lia. reflexivity.
Qed.
