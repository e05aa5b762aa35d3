(** * Spec_CurveCode: which point of the curve a machine point stands for *)
From Coq Require Import ZArith List Bool.
From Verif Require Import Base Fld Spec_Curve Model_Curve.
Import ListNotations.

(** the machine coordinates implement the field [K]: [rep s x] says that [s] stands for [x] *)
Record fops_ok (F : fops) (K : fld) (b : K) (rep : F -> K -> Prop) : Prop := FopsOk {
  rep_unique : forall s x y, rep s x -> rep s y -> x = y;
  rep_zero : rep fo_zero f0;
  rep_one : rep fo_one f1;
  rep_add : forall s t x y, rep s x -> rep t y -> rep (fo_add s t) (fadd x y);
  rep_sub : forall s t x y, rep s x -> rep t y -> rep (fo_sub s t) (fsub x y);
  rep_neg : forall s x, rep s x -> rep (fo_neg s) (fneg x);
  rep_mul : forall s t x y, rep s x -> rep t y -> rep (fo_mul s t) (fmul x y);
  rep_square : forall s x, rep s x -> rep (fo_square s) (fmul x x);
  rep_eq : forall s t x y, rep s x -> rep t y -> fo_eq s t = feqb x y;
  rep_is_zero : forall s x, rep s x -> fo_is_zero s = feqb x f0;
  rep_invert : forall s x, rep s x ->
    match fo_invert s with None => x = f0 | Some t => x <> f0 /\ rep t (finv x) end;
  rep_3b : forall s x, rep s x -> rep (fo_mul_by_3b s) (fmul (fmul (fadd (fadd f1 f1) f1) b) x);
  rep_B : rep fo_B b }.

Section Stands.
Context {F : fops} {K : fld} (b : K) (rep : F -> K -> Prop).
Local Open Scope fld_scope.
(** homogeneous coordinates of a point of the curve *)
Definition proj_stands (p : proj F) (P : point K) : Prop :=
  let '(Proj x y z) := p in
  exists X Y Z, rep x X /\ rep y Y /\ rep z Z /\ projective b X Y Z /\ point_of X Y Z = P.
(** affine coordinates; for the point at infinity the coordinates are (0, non-zero) *)
Definition aff_stands (p : affine F) (P : point K) : Prop :=
  let '(Aff x y i) := p in
  exists X Y, rep x X /\ rep y Y /\ on_curve b P /\
    (if i then X = 0 /\ Y <> 0 /\ P = Infinity else P = Affine X Y).
End Stands.
