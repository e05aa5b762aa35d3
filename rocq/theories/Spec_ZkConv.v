(** * Spec_ZkConv: the point a blst point stands for *)
From Coq Require Import ZArith List.
From Verif Require Import Base Fld Zp Model_Fp Spec_Fp Spec_Curve Spec_G1 Model_ZkConv.
Local Open Scope fld_scope.
(** Jacobian coordinates: (X, Y, Z) is the affine point (X/Z^2, Y/Z^3), or infinity if Z = 0 *)
Definition jacobian (X Y Z : Fp) (P : point Fp) : Prop :=
  (Z = 0 -> P = Infinity) /\ (Z <> 0 -> P = Affine (X / (Z * Z)) (Y / (Z * Z * Z))).
Definition p1_stands (q : blst_p1) (P : point Fp) : Prop :=
  let '(P1 x y z) := q in
  g1_on_curve P /\ exists X Y Z, stands_for x X /\ stands_for y Y /\ stands_for z Z /\ jacobian X Y Z P.
