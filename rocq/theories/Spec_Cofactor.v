(** * Spec_Cofactor: counting points, and the maps that clear the cofactors *)
From Coq Require Import ZArith List.
From Verif Require Import Base Fld Zr Zp Spec_Curve Spec_G1 Power Tower Ext Spec_G2.
Import ListNotations.
Local Open Scope Z_scope.

(** exactly [n] values satisfy [A] *)
Definition counted {T : Type} (n : Z) (A : T -> Prop) : Prop :=
  exists f : Z -> T,
    (forall i, 0 <= i < n -> A (f i)) /\
    (forall i j, 0 <= i < n -> 0 <= j < n -> f i = f j -> i = j) /\
    (forall P, A P -> exists i, 0 <= i < n /\ f i = P).

(** the cofactors, as polynomials in the parameter of the curve *)
Definition g1_cofactor : Z := (bls_x - 1) ^ 2 / 3.
Definition g2_cofactor : Z :=
  let x := bls_x in (x ^ 8 - 4 * x ^ 7 + 5 * x ^ 6 - 4 * x ^ 4 + 6 * x ^ 3 - 4 * x ^ 2 - 4 * x + 13) / 9.
(** (1 - x) P *)
Definition g1_clear (P : point Fp) : point Fp := point_zmul (1 - bls_x) P.
(** (x^2 - x - 1) P + (x - 1) psi P + psi psi (2 P) *)
Definition g2_clear (P : point Fp2) : point Fp2 :=
  point_add (g2_psi_pt (g2_psi_pt (point_add P P)))
    (point_add (point_zmul (bls_x * bls_x - bls_x - 1) P) (point_zmul (bls_x - 1) (g2_psi_pt P))).
