(** * Spec_Ext: which elements of the extension fields the machine words stand for *)
From Coq Require Import ZArith List Bool.
From Verif Require Import Base Fld Power Tower Zp Spec_Fp Ext Model_Fp Model_Fp2 Model_Fp12.
Import ListNotations.
Local Open Scope Z_scope.

Definition stands_for2 (a : fp2) (x : Fp2) : Prop :=
  let '(FP2 a0 a1) := a in let '(Quad x0 x1) := x in stands_for a0 x0 /\ stands_for a1 x1.
Definition stands_for6 (a : fp6) (x : Fp6) : Prop :=
  let '(FP6 a0 a1 a2) := a in let '(Cubic x0 x1 x2) := x in stands_for2 a0 x0 /\ stands_for2 a1 x1 /\ stands_for2 a2 x2.
Definition stands_for12 (a : fp12) (x : Fp12) : Prop :=
  let '(FP12 a0 a1) := a in let '(Quad x0 x1) := x in stands_for6 a0 x0 /\ stands_for6 a1 x1.

(** the order used for the sign of y: by the coefficient of u, then by the constant one *)
Definition Fp2_lt (x y : Fp2) : Prop :=
  pval (q1 x) < pval (q1 y) \/ (q1 x = q1 y /\ pval (q0 x) < pval (q0 y)).
