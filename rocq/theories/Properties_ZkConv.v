(** * Properties_ZkConv: conversions between the types of the zkcrypto backend and blst's (C105)

    [p1_stands] (Spec_ZkConv.v): the point a blst point stands for, from its Jacobian coordinates. *)
From Coq Require Import ZArith NArith List Bool Arith.
From Verif Require Import Base Fld Zr Zp Spec_Scalar Model_Scalar Spec_Fp Spec_Curve Model_Fp Model_Curve Model_G1 Spec_CurveCode Spec_G1 Model_ZkConv Spec_ZkConv Proof_ZkConv.
Import ListNotations.
Local Open Scope Z_scope.

(** scalars *)
Theorem C105_scalar : forall s (x : Fr),
  represents s x -> represents (zk_fr_into_blst_fr s) x /\ represents (blst_fr_into_zk_fr s) x /\
  blst_fr_into_zk_fr (zk_fr_into_blst_fr s) = s /\ zk_fr_into_blst_fr (blst_fr_into_zk_fr s) = s.
Proof. exact @conv_scalar. Qed.
Print Assumptions C105_scalar.
(** polynomials *)
Theorem C105_poly_to : forall l (xs : list Fr),
  Forall2 represents l xs -> Forall2 represents (pc_poly_into_blst_poly l) xs.
Proof. exact @conv_poly_to. Qed.
Print Assumptions C105_poly_to.
(** the other direction uses the lowest word of the Montgomery form only *)
Theorem C105_poly_from_refuted : forall l (xs : list Fr),
  Forall2 represents l xs ->
  Forall2 represents (blst_poly_into_zk_poly l) (map (fun x => fr_of (((val x * 2 ^ 256) mod r) mod 2 ^ 64)) xs).
Proof. exact @conv_poly_from. Qed.
Print Assumptions C105_poly_from_refuted.
Theorem C105_poly_from_wrong_refuted : exists l (xs : list Fr), Forall2 represents l xs /\ ~ Forall2 represents (blst_poly_into_zk_poly l) xs.
Proof. exact @conv_poly_from_refuted. Qed.
Print Assumptions C105_poly_from_wrong_refuted.
(** base field: the conversion from blst divides by 2^384 *)
Theorem C105_base_field : forall s (x : Fp),
  stands_for s x -> stands_for (zk_fp_into_blst_fp s) x /\ stands_for (blst_fp_into_zk_fp s) (fdiv x (fp_of (2 ^ 384))).
Proof. exact @conv_fp. Qed.
Print Assumptions C105_base_field.
Theorem C105_base_field_refuted : forall s (x : Fp),
  stands_for s x -> x <> f0 -> ~ stands_for (blst_fp_into_zk_fp s) x.
Proof. exact @conv_fp_refuted. Qed.
Print Assumptions C105_base_field_refuted.
(** points: homogeneous coordinates are taken for Jacobian ones *)
Theorem C105_point_to_refuted : forall x y z P (Z : Fp),
  g1_stands (Proj x y z) P -> stands_for z Z ->
  (P = Infinity -> p1_stands (zk_g1projective_into_blst_p1 (Proj x y z)) P) /\
  (forall X Y, P = Affine X Y -> (p1_stands (zk_g1projective_into_blst_p1 (Proj x y z)) P <-> Z = f1 \/ (X = f0 /\ Z = fneg f1))).
Proof. exact @conv_g1_to. Qed.
Print Assumptions C105_point_to_refuted.
Theorem C105_point_from_refuted : forall x y z P (Z : Fp),
  p1_stands (P1 x y z) P -> stands_for z Z ->
  (P = Infinity -> proj_is_identity (blst_p1_into_zk_g1projective (P1 x y z)) = true) /\
  (forall X Y, P = Affine X Y -> (g1_stands (blst_p1_into_zk_g1projective (P1 x y z)) P <-> Z = f1 \/ (X = f0 /\ Z = fneg f1))).
Proof. exact @conv_g1_from. Qed.
Print Assumptions C105_point_from_refuted.
(** to blst and back keeps the point *)
Theorem C105_point_roundtrip : forall q P,
  g1_stands q P -> g1_stands (blst_p1_into_zk_g1projective (zk_g1projective_into_blst_p1 q)) P.
Proof. exact @conv_g1_roundtrip. Qed.
Print Assumptions C105_point_roundtrip.
Example C105_ex : (exists s, represents s (fr_of 5)) /\ (exists s, stands_for s (fp_of 5)) /\
  (exists x y z Z, g1_stands (Proj x y z) g1_gen /\ stands_for z Z /\ Z <> f1 /\ Z <> fneg f1).
Proof. exact conv_cases. Qed.
