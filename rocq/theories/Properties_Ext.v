(** * Properties_Ext: the extension fields of the zkcrypto curve (fp2.rs, fp6.rs, fp12.rs), C90-C93 *)
From Coq Require Import ZArith List Bool.
From Verif Require Import Base Fld Tables Zp Model_Scalar Model_Fp Spec_Scalar Spec_Fp Power Tower Ext Model_Fp2 Model_Fp12 Spec_Ext Proof_ExtTop Proof_ExtCases.
Import ListNotations.
Local Open Scope Z_scope.

(** ** C90: the quadratic extension *)
(** the fields: u^2 = -1, v^3 = 1 + u, w^2 = v, and every element is a polynomial in these *)
Theorem C90_tower : fmul Fp2_u Fp2_u = fneg f1 /\ xi = fadd f1 Fp2_u /\
  fmul (fmul Fp6_v Fp6_v) Fp6_v = Fp6_of xi /\ fmul Fp12_w Fp12_w = Fp12_of Fp6_v /\
  (forall a b : Fp, (Quad a b : Fp2) = fadd (Fp2_of a) (fmul Fp2_u (Fp2_of b))) /\
  (forall a b c : Fp2, (Cubic a b c : Fp6) = fadd (Fp6_of a) (fmul Fp6_v (fadd (Fp6_of b) (fmul Fp6_v (Fp6_of c))))) /\
  (forall a b : Fp6, (Quad a b : Fp12) = fadd (Fp12_of a) (fmul Fp12_w (Fp12_of b))).
Proof. exact @ext_tower. Qed.
Print Assumptions C90_tower.
(** every element has exactly one representation *)
Theorem C90_one_to_one : ((forall x, exists s, stands_for2 s x) /\ (forall s x y, stands_for2 s x -> stands_for2 s y -> x = y) /\
   (forall s t x, stands_for2 s x -> stands_for2 t x -> s = t)) /\
  ((forall x, exists s, stands_for6 s x) /\ (forall s x y, stands_for6 s x -> stands_for6 s y -> x = y) /\
   (forall s t x, stands_for6 s x -> stands_for6 t x -> s = t)) /\
  ((forall x, exists s, stands_for12 s x) /\ (forall s x y, stands_for12 s x -> stands_for12 s y -> x = y) /\
   (forall s t x, stands_for12 s x -> stands_for12 t x -> s = t)).
Proof. exact @ext_one_to_one. Qed.
Print Assumptions C90_one_to_one.
Theorem C90_arith : forall a b (x y : Fp2),
  stands_for2 a x -> stands_for2 b y ->
  stands_for2 (fp2_add a b) (fadd x y) /\ stands_for2 (fp2_sub a b) (fsub x y) /\ stands_for2 (fp2_neg a) (fneg x) /\
  stands_for2 (fp2_mul a b) (fmul x y) /\ stands_for2 (fp2_square a) (fmul x x) /\
  stands_for2 (fp2_mul_by_nonresidue a) (fmul xi x) /\
  (forall c, stands_for2 (fp2_select a b c) (if c then y else x)) /\
  (fp2_eq a b = true <-> x = y) /\ (fp2_is_zero a = true <-> x = f0) /\
  stands_for2 fp2_zero f0 /\ stands_for2 fp2_one f1.
Proof. exact @fp2_arith. Qed.
Print Assumptions C90_arith.
Theorem C90_from_base : forall a (x : Fp),
  stands_for a x -> stands_for2 (fp2_from_fp a) (Fp2_of x).
Proof. exact @fp2_from_base. Qed.
Print Assumptions C90_from_base.
Theorem C90_inverse : forall a (x : Fp2),
  stands_for2 a x ->
  (x = f0 -> fp2_invert a = None) /\ (x <> f0 -> exists t, fp2_invert a = Some t /\ stands_for2 t (finv x)).
Proof. exact @fp2_inverse. Qed.
Print Assumptions C90_inverse.
Theorem C90_conjugate : forall a (x : Fp2),
  stands_for2 a x -> stands_for2 (fp2_conjugate a) (Quad (q0 x) (fneg (q1 x)) : Fp2).
Proof. exact @fp2_conjugation. Qed.
Print Assumptions C90_conjugate.
Theorem C90_power : forall a (x : Fp2) ws,
  stands_for2 a x -> Forall (fun w => 0 <= w < 2 ^ 64) ws ->
  stands_for2 (fp2_pow_vartime a ws) (zpow x (limbs_val ws)).
Proof. exact @fp2_power. Qed.
Print Assumptions C90_power.
Theorem C90_power_is : forall (K : fld) (x : K),
  zpow x 0 = f1 /\ (forall e, 0 <= e -> zpow x (e + 1) = fmul x (zpow x e)) /\ (forall e, zpow x (- e) = zpow (finv x) e).
Proof. exact @ext_power. Qed.
Print Assumptions C90_power_is.
Example C90_ex : exists a (x : Fp2), stands_for2 a x /\ x <> f0 /\ fmul x x = fneg f1 /\ fp2_eq (fp2_mul a a) (fp2_neg fp2_one) = true /\
  fp2_is_zero (fp2_add (fp2_square a) fp2_one) = true.
Proof. exact fp2_arith_case. Qed.

(** ** C91: square roots and signs in the quadratic extension *)
Theorem C91_sqrt : forall a (y : Fp2),
  stands_for2 a y ->
  ((exists x, fmul x x = y) -> exists s x, fp2_sqrt a = Some s /\ stands_for2 s x /\ fmul x x = y) /\
  (~ (exists x, fmul x x = y) -> fp2_sqrt a = None).
Proof. exact @fp2_square_root. Qed.
Print Assumptions C91_sqrt.
Theorem C91_sign : forall a (x : Fp2),
  stands_for2 a x -> (fp2_lexicographically_largest a = true <-> Fp2_lt (fneg x) x).
Proof. exact @fp2_lexicographic. Qed.
Print Assumptions C91_sign.
Example C91_ex : (exists a (y : Fp2), stands_for2 a y /\ exists x, fmul x x = y /\ x <> f0) /\
  (exists a (y : Fp2), stands_for2 a y /\ ~ exists x, fmul x x = y) /\
  (exists a (x : Fp2), stands_for2 a x /\ Fp2_lt (fneg x) x) /\ (exists a (x : Fp2), stands_for2 a x /\ ~ Fp2_lt (fneg x) x).
Proof. exact fp2_root_cases. Qed.

(** ** C92: the extensions of degree six and twelve *)
Theorem C92_arith6 : forall a b (x y : Fp6),
  stands_for6 a x -> stands_for6 b y ->
  stands_for6 (fp6_add a b) (fadd x y) /\ stands_for6 (fp6_sub a b) (fsub x y) /\ stands_for6 (fp6_neg a) (fneg x) /\
  stands_for6 (fp6_mul a b) (fmul x y) /\ stands_for6 (fp6_square a) (fmul x x) /\
  stands_for6 (fp6_mul_by_nonresidue a) (fmul Fp6_v x) /\
  (forall c, stands_for6 (fp6_select a b c) (if c then y else x)) /\
  (fp6_eq a b = true <-> x = y) /\ (fp6_is_zero a = true <-> x = f0) /\
  stands_for6 fp6_zero f0 /\ stands_for6 fp6_one f1.
Proof. exact @fp6_arith. Qed.
Print Assumptions C92_arith6.
Theorem C92_from6 : forall a (x : Fp) c (z : Fp2),
  stands_for a x -> stands_for2 c z ->
  stands_for6 (fp6_from_fp a) (Fp6_of (Fp2_of x)) /\ stands_for6 (fp6_from_fp2 c) (Fp6_of z).
Proof. exact @fp6_from_base. Qed.
Print Assumptions C92_from6.
Theorem C92_inverse6 : forall a (x : Fp6),
  stands_for6 a x ->
  (x = f0 -> fp6_invert a = None) /\ (x <> f0 -> exists t, fp6_invert a = Some t /\ stands_for6 t (finv x)).
Proof. exact @fp6_inverse. Qed.
Print Assumptions C92_inverse6.
Theorem C92_sparse6 : forall a c d (x : Fp6) (y z : Fp2),
  stands_for6 a x -> stands_for2 c y -> stands_for2 d z ->
  stands_for6 (fp6_mul_by_1 a d) (fmul x (Cubic f0 z f0 : Fp6)) /\
  stands_for6 (fp6_mul_by_01 a c d) (fmul x (Cubic y z f0 : Fp6)).
Proof. exact @fp6_sparse. Qed.
Print Assumptions C92_sparse6.
Theorem C92_arith12 : forall a b (x y : Fp12),
  stands_for12 a x -> stands_for12 b y ->
  stands_for12 (fp12_add a b) (fadd x y) /\ stands_for12 (fp12_sub a b) (fsub x y) /\ stands_for12 (fp12_neg a) (fneg x) /\
  stands_for12 (fp12_mul a b) (fmul x y) /\ stands_for12 (fp12_square a) (fmul x x) /\
  (forall c, stands_for12 (fp12_select a b c) (if c then y else x)) /\
  (fp12_eq a b = true <-> x = y) /\ (fp12_is_zero a = true <-> x = f0) /\
  stands_for12 fp12_zero f0 /\ stands_for12 fp12_one f1.
Proof. exact @fp12_arith. Qed.
Print Assumptions C92_arith12.
Theorem C92_from12 : forall a (x : Fp) b (y : Fp2) c (z : Fp6),
  stands_for a x -> stands_for2 b y -> stands_for6 c z ->
  stands_for12 (fp12_from_fp a) (Fp12_of (Fp6_of (Fp2_of x))) /\ stands_for12 (fp12_from_fp2 b) (Fp12_of (Fp6_of y)) /\
  stands_for12 (fp12_from_fp6 c) (Fp12_of z).
Proof. exact @fp12_from_base. Qed.
Print Assumptions C92_from12.
Theorem C92_inverse12 : forall a (x : Fp12),
  stands_for12 a x ->
  (x = f0 -> fp12_invert a = None) /\ (x <> f0 -> exists t, fp12_invert a = Some t /\ stands_for12 t (finv x)).
Proof. exact @fp12_inverse. Qed.
Print Assumptions C92_inverse12.
Theorem C92_sparse12 : forall a c0 c1 c4 (x : Fp12) (y0 y1 y4 : Fp2),
  stands_for12 a x -> stands_for2 c0 y0 -> stands_for2 c1 y1 -> stands_for2 c4 y4 ->
  stands_for12 (fp12_mul_by_014 a c0 c1 c4) (fmul x (Quad (Cubic y0 y1 f0 : Fp6) (Cubic f0 y4 f0 : Fp6) : Fp12)).
Proof. exact @fp12_sparse. Qed.
Print Assumptions C92_sparse12.
Example C92_ex : (exists a (x : Fp6), stands_for6 a x /\ x <> f0 /\ x <> f1 /\ fmul (fmul x x) x = Fp6_of xi) /\
  (exists a (x : Fp12), stands_for12 a x /\ x <> f0 /\ x <> f1 /\ fmul x x = Fp12_of Fp6_v).
Proof. exact ext_arith_cases. Qed.

(** ** C93: Frobenius maps *)
(** raising to the power p *)
Theorem C93_frobenius : (forall a x, stands_for2 a x -> stands_for2 (fp2_frobenius_map a) (zpow x p)) /\
  (forall a x, stands_for6 a x -> stands_for6 (fp6_frobenius_map a) (zpow x p)) /\
  (forall a x, stands_for12 a x -> stands_for12 (fp12_frobenius_map a) (zpow x p)).
Proof. exact @ext_frobenius. Qed.
Print Assumptions C93_frobenius.
(** raising to the power p^6 *)
Theorem C93_conjugate12 : forall a (x : Fp12),
  stands_for12 a x -> stands_for12 (fp12_conjugate a) (zpow x (p ^ 6)).
Proof. exact @fp12_conjugation. Qed.
Print Assumptions C93_conjugate12.
Example C93_ex : (exists x : Fp2, zpow x p <> x) /\ (exists x : Fp12, zpow x (p ^ 6) <> x).
Proof. exact ext_frobenius_cases. Qed.
