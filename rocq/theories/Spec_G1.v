(** * Spec_G1: the points of y^2 = x^3 + 4 over the base field, the subgroup, and the encodings *)
From Coq Require Import ZArith List.
From Verif Require Import Base Fld Zr Zp Spec_Fp Spec_Curve Model_Fp Model_Curve Model_G1 Spec_CurveCode.
Import ListNotations.
Local Open Scope Z_scope.

Definition g1_b : Fp := fp_of 4.
Definition g1_on_curve (P : point Fp) : Prop := on_curve g1_b P.
(** the points killed by r *)
Definition g1_subgroup (P : point Fp) : Prop := g1_on_curve P /\ point_zmul r P = Infinity.
(** machine points *)
Definition g1_stands (q : g1_projective) (P : point Fp) : Prop := proj_stands (F:=fp_ops) g1_b stands_for q P.
Definition g1_aff_stands (q : g1_affine) (P : point Fp) : Prop := aff_stands (F:=fp_ops) g1_b stands_for q P.

(** the big-endian integer of an encoding: flag bits above the coordinates *)
Definition compressed_val (P : point Fp) : Z :=
  match P with
  | Infinity => 2 ^ 383 + 2 ^ 382
  | Affine x y => 2 ^ 383 + (if pval (fneg y) <? pval y then 2 ^ 381 else 0) + pval x
  end.
Definition uncompressed_val (P : point Fp) : Z :=
  match P with
  | Infinity => 2 ^ 766
  | Affine x y => pval x * 2 ^ 384 + pval y
  end.

(** the scalars for which rounding k * V / 2^256, V = 2^128 + ..., carries out of the lowest
    64-bit word of the quotient *)
Definition rounding_carries (k : Z) : Prop := (k * 0x17c6becf1e01faadd63f6e522f6cfee2f / 2 ^ 255) mod 2 ^ 65 = 2 ^ 65 - 1.
(** the standard generator *)
Definition g1_gen : point Fp :=
  Affine (fp_of 0x17f1d3a73197d7942695638c4fa9ac0fc3688c4f9774b905a14e3a3f171bac586c55e83ff97a1aeffb3af00adb22c6bb)
         (fp_of 0x08b3f481e3aaa0f1a09e30ed741d8ae4fcf5e095d5d00af600db18cb2c04b3edd03cc744a2888ae40caa232946c5e7e1).
