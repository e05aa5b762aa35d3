(** * Properties_Concrete: the pairing of the zkcrypto curve is not degenerate *)
From Coq Require Import ZArith NArith List Bool Arith.
From Verif Require Import Base Fld Zr Zp Poly Spec Spec_More Spec_Scalar Model_Scalar Spec_Fp Spec_Curve Model_Fp Model_Curve Model_Fp2 Model_Fp12 Model_G1 Model_G2 Model_Pair Spec_CurveCode Power Tower Ext Spec_Ext Spec_G1 Spec_G2 Spec_Pair Model_FFT Model_Poly Model_KZG Model_Zk Model_ZkKZG Spec_KZG Spec_ZkKZG Proof_FFTFr Proof_Poly2 Model_ZkWords Spec_ZkWords Proof_Concrete Proof_ZkWordsTop.
Import ListNotations.
Local Open Scope Z_scope.

(** ** C102: the pairing is not degenerate *)
(** the constant of the code is the value of the pairing of the generators, and has order r *)
Theorem C102_generator : stands_for12 gt_generator (pairing_value g1_gen g2_gen) /\ pairing_fn g1_generator_affine g2_generator_affine = Ok gt_generator /\
  gt_member (pairing_value g1_gen g2_gen) /\ (forall n, zpow (pairing_value g1_gen g2_gen) n = f1 <-> (r | n)).
Proof. exact @generator_code. Qed.
Print Assumptions C102_generator.
Theorem C102_nondegenerate : forall P Q,
  g1_subgroup P -> g2_subgroup Q -> pairing_value P Q = f1 <-> P = Infinity \/ Q = Infinity.
Proof. exact @pairing_nondegenerate. Qed.
Print Assumptions C102_nondegenerate.
(** comparing pairings of multiples of the generators compares the products of the exponents modulo r *)
Theorem C102_compare : forall a c d e,
  pairing_value (point_zmul a g1_gen) (point_zmul c g2_gen) = pairing_value (point_zmul d g1_gen) (point_zmul e g2_gen) <-> (a * c) mod r = (d * e) mod r.
Proof. exact @pairing_compare. Qed.
Print Assumptions C102_compare.
Theorem C102_verify : forall a1 a2 b1 b2 (x1 x2 y1 y2 : Fr),
  g1_stands a1 (point_zmul (val x1) g1_gen) -> g2_stands a2 (point_zmul (val x2) g2_gen) ->
  g1_stands b1 (point_zmul (val y1) g1_gen) -> g2_stands b2 (point_zmul (val y2) g2_gen) ->
  zk_pairings_verify a1 a2 b1 b2 = Ok (feqb (fmul x1 x2) (fmul y1 y2)).
Proof. exact @verify_exponents. Qed.
Print Assumptions C102_verify.
(** the groups of the curve with their pairing are an instance of the pairings all theorems about commitments quantify over *)
Theorem C102_instance : exists (P : pairing Fr) (p1 : PG1 P -> point Fp) (p2 : PG2 P -> point Fp2) (pt : PGT P -> Fp12),
  ((forall a, g1_subgroup (p1 a)) /\ (forall X, g1_subgroup X -> exists a, p1 a = X) /\ (forall a c, p1 a = p1 c -> a = c)) /\
  ((forall a, g2_subgroup (p2 a)) /\ (forall X, g2_subgroup X -> exists a, p2 a = X) /\ (forall a c, p2 a = p2 c -> a = c)) /\
  ((forall a, gt_member (pt a)) /\ (forall X, gt_member X -> exists a, pt a = X) /\ (forall a c, pt a = pt c -> a = c)) /\
  (p1 g0 = Infinity /\ (forall a c, p1 (gadd a c) = point_add (p1 a) (p1 c)) /\ (forall x a, p1 (smul x a) = point_zmul (val x) (p1 a))) /\
  (p2 g0 = Infinity /\ (forall a c, p2 (gadd a c) = point_add (p2 a) (p2 c)) /\ (forall x a, p2 (smul x a) = point_zmul (val x) (p2 a))) /\
  (pt g0 = f1 /\ (forall a c, pt (gadd a c) = fmul (pt a) (pt c)) /\ (forall x a, pt (smul x a) = zpow (pt a) (val x))) /\
  p1 gen1 = g1_gen /\ p2 gen2 = g2_gen /\ (forall a c, pt (pe a c) = pairing_value (p1 a) (p2 c)).
Proof. exact @instance_spec. Qed.
Print Assumptions C102_instance.
Example C102_ex : exists a1 a2 b1 b2, g1_stands a1 (point_zmul (val (fr_of 2)) g1_gen) /\ g2_stands a2 (point_zmul (val (fr_of 3)) g2_gen) /\
  g1_stands b1 (point_zmul (val (fr_of 6)) g1_gen) /\ g2_stands b2 (point_zmul (val (fr_of 1)) g2_gen) /\ feqb (fmul (fr_of 2) (fr_of 3)) (fmul (fr_of 6) (fr_of 1)) = true /\
  feqb (fmul (fr_of 2) (fr_of 3)) (fmul (fr_of 6) (fr_of 2)) = false.
Proof. exact verify_case. Qed.

