(** * Spec_Curve: the textbook group law of y^2 = x^3 + b

    Points in affine coordinates with a point at infinity; addition by chord and tangent.
    Nothing here refers to the code. *)
From Coq Require Import ZArith List Bool.
From Verif Require Import Base Fld.
Import ListNotations.

Section Curve.
Context {K : fld}.
Local Open Scope fld_scope.

Inductive point := Infinity | Affine (x y : K).

Definition on_curve (b : K) (P : point) : Prop :=
  match P with Infinity => True | Affine x y => y * y = x * x * x + b end.

(** the third point of the line of slope m through (x1, y1) and (x2, _), reflected *)
Definition third (m x1 y1 x2 : K) : point :=
  let x3 := m * m - x1 - x2 in Affine x3 (m * (x1 - x3) - y1).

Definition point_add (P Q : point) : point :=
  match P, Q with
  | Infinity, _ => Q
  | _, Infinity => P
  | Affine x1 y1, Affine x2 y2 =>
    if feqb x1 x2 then
      if feqb y1 (- y2) then Infinity
      else third (((1 + 1 + 1) * (x1 * x1)) / ((1 + 1) * y1)) x1 y1 x2
    else third ((y2 - y1) / (x2 - x1)) x1 y1 x2
  end.

Definition point_neg (P : point) : point :=
  match P with Infinity => Infinity | Affine x y => Affine x (- y) end.

(** n times a point, by repeated addition *)
Fixpoint point_mul (n : nat) (P : point) : point :=
  match n with O => Infinity | S n' => point_add P (point_mul n' P) end.
(** integer multiples *)
Definition point_zmul (n : Z) (P : point) : point :=
  match n with
  | Z0 => Infinity
  | Zpos q => Pos.iter (point_add P) Infinity q
  | Zneg q => point_neg (Pos.iter (point_add P) Infinity q)
  end.

(** homogeneous coordinates: (X : Y : Z) is the affine point (X/Z, Y/Z), or infinity if Z = 0 *)
Definition point_of (X Y Z : K) : point := if feqb Z 0 then Infinity else Affine (X / Z) (Y / Z).
(** homogeneous coordinates of a point of the curve *)
Definition projective (b X Y Z : K) : Prop :=
  Y * Y * Z = X * X * X + b * (Z * Z * Z) /\ ~ (X = 0 /\ Y = 0 /\ Z = 0).
End Curve.
Arguments point _ : clear implicits.
