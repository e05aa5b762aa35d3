(** * Spec_Pair: lines, Miller's function, the target group

    Nothing here refers to the code. *)
From Coq Require Import ZArith List Bool.
From Verif Require Import Base Fld Zr Zp Spec_Curve Power Tower Ext Spec_G1 Spec_G2.
Import ListNotations.
Local Open Scope Z_scope.

Section Lines.
Context {K : fld}.
Local Open Scope fld_scope.
(** the slope of the chord or tangent used by [point_add] *)
Definition slope (A B : point K) : K :=
  match A, B with
  | Affine x1 y1, Affine x2 y2 =>
    if feqb x1 x2 then ((1 + 1 + 1) * (x1 * x1)) / ((1 + 1) * y1) else (y2 - y1) / (x2 - x1)
  | _, _ => 0
  end.
End Lines.

(** ** the target group *)
(** three times the exponent of the reduced pairing *)
Definition final_exponent : Z := 3 * ((p ^ 12 - 1) / r).
Definition gt_member (x : Fp12) : Prop := zpow x r = f1.

(** ** the coordinates of both groups in the big field *)
Definition embed1 (x : Fp) : Fp12 := Fp12_of (Fp6_of (Fp2_of x)).
Definition embed2 (x : Fp2) : Fp12 := Fp12_of (Fp6_of x).
(** the square root of v, and its inverse *)
Definition Fp12_root : Fp12 := Quad (f0 : Fp6) f1.
Definition w_inv : Fp12 := finv Fp12_root.
(** (x, y) -> (x / w^2, y / w^3) maps y^2 = x^3 + 4 (1 + u) to y^2 = x^3 + 4 *)
Definition untwist_x (x : Fp2) : Fp12 := fmul (embed2 x) (fmul w_inv w_inv).
Definition untwist_y (y : Fp2) : Fp12 := fmul (embed2 y) (fmul (fmul w_inv w_inv) w_inv).
Definition untwist_m (m : Fp2) : Fp12 := fmul (embed2 m) w_inv.

(** ** Miller's function
    the value at P of the line through (the images of) A and B; 1 where the group law uses no such line *)
Definition line_at (A B : point Fp2) (P : point Fp) : Fp12 :=
  match A, B, point_add A B, P with
  | Affine xa ya, Affine _ _, Affine _ _, Affine x y =>
    let m := slope A B in
    fsub (embed1 y) (fadd (fmul (untwist_m m) (embed1 x)) (untwist_y (fsub ya (fmul m xa))))
  | _, _, _, _ => f1
  end.
(** the lines of 1 A + A, 2 A + A, ..., (n - 1) A + A; the vertical lines are left out *)
Fixpoint miller_value (n : nat) (A : point Fp2) (P : point Fp) : Fp12 :=
  match n with O => f1 | S n => fmul (miller_value n A P) (line_at (point_zmul (Z.of_nat n) A) A P) end.
(** the pairing; the parameter of the curve is negative *)
Definition pairing_value (P : point Fp) (Q : point Fp2) : Fp12 :=
  finv (zpow (miller_value (Z.to_nat (- bls_x)) Q P) final_exponent).
(** the points on which the Frobenius map is the multiplication by the parameter of the curve *)
Definition g2_eigen (Q : point Fp2) : Prop := g2_on_curve Q /\ g2_psi_pt Q = point_zmul bls_x Q.
(** the product of the pairings of a list of pairs of points *)
Definition pairing_product (l : list (point Fp * point Fp2)) : Fp12 := fold_right (fun T acc => fmul (pairing_value (fst T) (snd T)) acc) f1 l.
