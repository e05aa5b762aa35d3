(** * Spec_G2: the points of y^2 = x^3 + 4(1 + u) over the quadratic extension, the subgroup, and the encodings *)
From Coq Require Import ZArith List.
From Verif Require Import Base Fld Zr Zp Spec_Fp Spec_Curve Model_Fp Model_Curve Model_Fp2 Model_G2 Spec_CurveCode Power Tower Ext Spec_Ext.
Import ListNotations.
Local Open Scope Z_scope.

Definition g2_b : Fp2 := Quad (fp_of 4 : Fp) (fp_of 4).
Definition g2_on_curve (P : point Fp2) : Prop := on_curve g2_b P.
(** the points killed by r *)
Definition g2_subgroup (P : point Fp2) : Prop := g2_on_curve P /\ point_zmul r P = Infinity.
(** machine points *)
Definition g2_stands (q : g2_projective) (P : point Fp2) : Prop := proj_stands (F:=fp2_ops) g2_b stands_for2 q P.
Definition g2_aff_stands (q : g2_affine) (P : point Fp2) : Prop := aff_stands (F:=fp2_ops) g2_b stands_for2 q P.

(** the integer of a pair, the coefficient of u first *)
Definition val2 (x : Fp2) : Z := pval (q1 x) * 2 ^ 384 + pval (q0 x).
(** the big-endian integer of an encoding: flag bits above the coordinates; the sign bit tells which
    of y and -y is larger *)
Definition compressed_val2 (P : point Fp2) : Z :=
  match P with
  | Infinity => 2 ^ 767 + 2 ^ 766
  | Affine x y => 2 ^ 767 + (if val2 (fneg y) <? val2 y then 2 ^ 765 else 0) + val2 x
  end.
Definition uncompressed_val2 (P : point Fp2) : Z :=
  match P with
  | Infinity => 2 ^ 1534
  | Affine x y => val2 x * 2 ^ 768 + val2 y
  end.
(** the standard generator *)
Definition g2_gen : point Fp2 :=
  @Affine Fp2 (Quad (fp_of 0x024aa2b2f08f0a91260805272dc51051c6e47ad4fa403b02b4510b647ae3d1770bac0326a805bbefd48056c8c121bdb8 : Fp)
               (fp_of 0x13e02b6052719f607dacd3a088274f65596bd0d09920b61ab5da61bbdc7f5049334cf11213945d57e5ac7d055d042b7e))
         (Quad (fp_of 0x0ce5d527727d6e118cc9cdc6da2e351aadfd9baa8cbdd3a76d429a695160d12c923ac9cc3baca289e193548608b82801 : Fp)
               (fp_of 0x0606c4a02ea734cc32acd2b02bc28b99cb3e287e85a763af267492ab572e99ab3f370d275cec1da1aaa9075ff05f79be)).
(** the Frobenius map of the curve over the field of p^12 elements, seen on this curve *)
Definition g2_psi_pt (P : point Fp2) : point Fp2 :=
  match P with
  | Infinity => Infinity
  | Affine x y => Affine (fdiv (zpow x p) (zpow xi ((p - 1) / 3))) (fdiv (zpow y p) (zpow xi ((p - 1) / 2)))
  end.
(** the parameter of the curve *)
Definition bls_x : Z := - 0xd201000000010000.
