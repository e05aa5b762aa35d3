(** * Properties_Cofactor: the numbers of points of the curves, and clearing the cofactors (C108)

    [counted] (Spec_Cofactor.v): exactly so many values satisfy a predicate.  [g1_stands],
    [g2_stands] (Spec_G1.v, Spec_G2.v): the point that projective coordinates stand for. *)
From Coq Require Import ZArith List Bool.
From Verif Require Import Base Fld Zr Zp Spec_Fp Spec_Curve Model_Fp Model_Curve Model_G1 Model_Fp2 Model_G2 Spec_CurveCode Spec_G1 Proof_G1Top
  Proof_Cofactor Power Tower Ext Spec_Ext Spec_G2 Proof_G2Top Proof_G2Cases Spec_Cofactor Proof_CofactorTop.
Import ListNotations.
Local Open Scope Z_scope.

(** how many points the first curve has, and its subgroup *)
Theorem C108_g1_count : counted (p - bls_x) g1_on_curve /\ counted r g1_subgroup /\ p - bls_x = g1_cofactor * r.
Proof. exact @g1_counts. Qed.
Print Assumptions C108_g1_count.
(** clearing multiplies by 1 - x and lands in the subgroup, from every point of the curve *)
Theorem C108_g1_clear : forall q P,
  g1_stands q P -> g1_stands (g1_clear_cofactor q) (g1_clear P) /\ g1_subgroup (g1_clear P).
Proof. exact @g1_clearing. Qed.
Print Assumptions C108_g1_clear.
(** so the subgroup test accepts the result *)
Theorem C108_g1_cleared : forall checked q P,
  g1_stands q P ->
  g1_is_torsion_free checked (aff_from_proj (g1_clear_cofactor q)) = Ok true.
Proof. exact @g1_cleared. Qed.
Print Assumptions C108_g1_cleared.
(** every point of the subgroup comes from the same number of points *)
Theorem C108_g1_fibres : forall Q,
  g1_subgroup Q -> counted g1_cofactor (fun P => g1_on_curve P /\ g1_clear P = Q).
Proof. exact @g1_fibres. Qed.
Print Assumptions C108_g1_fibres.

(** the same for the second group *)
Theorem C108_g2_count : counted (g2_cofactor * r) g2_on_curve /\ counted r g2_subgroup.
Proof. exact @g2_counts. Qed.
Print Assumptions C108_g2_count.
Theorem C108_g2_clear : forall q P,
  g2_stands q P -> g2_stands (g2_clear_cofactor q) (g2_clear P) /\ g2_subgroup (g2_clear P).
Proof. exact @g2_clearing. Qed.
Print Assumptions C108_g2_clear.
Theorem C108_g2_cleared : forall q P,
  g2_stands q P -> g2_is_torsion_free (aff_from_proj (g2_clear_cofactor q)) = true.
Proof. exact @g2_cleared. Qed.
Print Assumptions C108_g2_cleared.
Theorem C108_g2_fibres : forall Q,
  g2_subgroup Q -> counted g2_cofactor (fun P => g2_on_curve P /\ g2_clear P = Q).
Proof. exact @g2_fibres. Qed.
Print Assumptions C108_g2_fibres.

(** the cofactors as numbers; points outside the subgroups exist *)
Example C108_case :
  g1_cofactor = 76329603384216526031706109802092473003 /\
  g2_cofactor = 0x5d543a95414e7f1091d50792876a202cd91de4547085abaa68a205b2e5a7ddfa628f1cb4d9e82ef21537e293a6691ae1616ec6e786f0c70cf1c38e31c7238e5 /\
  (exists q P, g1_aff_stands q P /\ ~ g1_subgroup P) /\ (exists q P, g2_aff_stands q P /\ ~ g2_subgroup P).
Proof. exact (conj (eq_refl _) (conj (eq_refl _) (conj g1_outside_case g2_outside_case))). Qed.
