(** * Spec_Points: the points that words in Jacobian coordinates stand for *)
From Coq Require Import ZArith List Bool.
From Verif Require Import Base Fld Zr Zp Spec_Scalar Model_Scalar Spec_Fp Spec_Curve Model_Fp Model_Fp2 Model_Curve Model_G1 Model_G2 Model_ZkConv Spec_ZkConv Model_Points Spec_G1 Power Tower Ext Spec_Ext Spec_G2.

Section Jacobian.
Context {F : Type} {K : fld} (b : K) (rep : F -> K -> Prop).
Local Open Scope fld_scope.
(** (X, Y, Z) is the affine point (X/Z^2, Y/Z^3), or infinity if Z = 0 *)
Definition jac_stands (x y z : F) (P : point K) : Prop :=
  on_curve b P /\ exists X Y Z, rep x X /\ rep y Y /\ rep z Z /\
    (Z = 0 -> P = Infinity) /\ (Z <> 0 -> P = Affine (X / (Z * Z)) (Y / (Z * Z * Z))).
End Jacobian.

(** [p1_stands] (Spec_ZkConv.v) is the same for [blst_p1] *)
Definition p2_stands (q : blst_p2) (P : point Fp2) : Prop :=
  let '(P2 x y z) := q in jac_stands g2_b stands_for2 x y z P.
Definition ark_g1_stands (q : ark_g1) (P : point Fp) : Prop :=
  let '(ArkG1 (Fq x) (Fq y) (Fq z)) := q in jac_stands g1_b stands_for x y z P.
Definition ark_g2_stands (q : ark_g2) (P : point Fp2) : Prop :=
  let '(ArkG2 (Fq2 (Fq x0) (Fq x1)) (Fq2 (Fq y0) (Fq y1)) (Fq2 (Fq z0) (Fq z1))) := q in
  jac_stands g2_b stands_for2 (FP2 x0 x1) (FP2 y0 y1) (FP2 z0 z1) P.

(** what a library is relied upon to do; multiplication only on the points killed by r *)
Record lib_ok {T : Type} {K : fld} (stands : T -> point K -> Prop) (L : point_lib T) : Prop := LibOk {
  ok_add : forall a b A B, stands a A -> stands b B -> stands (pl_add L a b) (point_add A B);
  ok_double : forall a A, stands a A -> stands (pl_double L a) (point_add A A);
  ok_neg : forall a A, stands a A -> stands (pl_neg L a) (point_neg A);
  ok_sub : forall a b A B, stands a A -> stands b B -> stands (pl_sub L a b) (point_add A (point_neg B));
  ok_equal : forall a b A B, stands a A -> stands b B -> (pl_equal L a b = true <-> A = B);
  ok_is_inf : forall a A, stands a A -> (pl_is_inf L a = true <-> A = Infinity);
  ok_mul : forall a s A (x : Fr), stands a A -> point_zmul r A = Infinity -> represents s x ->
    stands (pl_mul L a s) (point_zmul (val x) A) }.

(** the methods of a point type: [add] returns the sum and the receiver after the call *)
Record methods_ok {T : Type} {K : fld} (stands : T -> point K -> Prop)
  (add : T -> T -> T * T) (dbl : T -> T) (sub : T -> T -> T) (equals : T -> T -> bool) : Prop := MethodsOk {
  m_add : forall a b A B, stands a A -> stands b B -> stands (fst (add a b)) (point_add A B);
  m_dbl : forall a A, stands a A -> stands (dbl a) (point_add A A);
  m_sub : forall a b A B, stands a A -> stands b B -> stands (sub a b) (point_add A (point_neg B));
  m_equals : forall a b A B, stands a A -> stands b B -> (equals a b = true <-> A = B) }.
