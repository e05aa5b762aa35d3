(** * Properties_G2: the second group of the zkcrypto curve *)
From Coq Require Import ZArith List Bool Znumtheory.
From Verif Require Import Base Fld Zr Zp Spec_Scalar Model_Scalar Spec_Fp Spec_Curve Model_Fp Model_Curve Model_Fp2 Model_G2 Spec_CurveCode Tower Ext Spec_Ext Spec_G2 Proof_G2Top Proof_G2Cases.
Import ListNotations.
Local Open Scope Z_scope.

(** ** C94: point arithmetic *)
(** the specification is a group *)
Theorem C94_group : (forall P Q, g2_on_curve P -> g2_on_curve Q -> g2_on_curve (point_add P Q)) /\
  (forall P, g2_on_curve P -> g2_on_curve (point_neg P)) /\
  (forall P Q R, g2_on_curve P -> g2_on_curve Q -> g2_on_curve R ->
     point_add P (point_add Q R) = point_add (point_add P Q) R) /\
  (forall P Q, g2_on_curve P -> g2_on_curve Q -> point_add P Q = point_add Q P) /\
  (forall P, g2_on_curve P -> point_add Infinity P = P) /\
  (forall P, g2_on_curve P -> point_add P (point_neg P) = Infinity).
Proof. exact @g2_group. Qed.
Print Assumptions C94_group.
Theorem C94_points : (forall P, g2_on_curve P -> (exists q, g2_stands q P) /\ (exists q, g2_aff_stands q P)) /\
  (forall q P, g2_stands q P -> g2_on_curve P) /\ (forall q P, g2_aff_stands q P -> g2_on_curve P) /\
  (forall q P P', g2_stands q P -> g2_stands q P' -> P = P') /\
  (forall q P P', g2_aff_stands q P -> g2_aff_stands q P' -> P = P').
Proof. exact @g2_stands_total. Qed.
Print Assumptions C94_points.
(** all inputs, including equal points, opposite points and the identity *)
Theorem C94_ops : (g2_stands proj_identity Infinity /\ g2_aff_stands aff_identity Infinity) /\
  (forall p q P Q, g2_stands p P -> g2_stands q Q ->
     g2_stands (proj_add p q) (point_add P Q) /\ g2_stands (proj_sub p q) (point_add P (point_neg Q)) /\
     g2_stands (proj_neg p) (point_neg P) /\ g2_stands (proj_double p) (point_add P P) /\
     (proj_eq p q = true <-> P = Q) /\ (proj_is_identity p = true <-> P = Infinity)) /\
  (forall p q P Q, g2_stands p P -> g2_aff_stands q Q ->
     g2_stands (proj_add_mixed p q) (point_add P Q) /\ g2_stands (proj_sub_mixed p q) (point_add P (point_neg Q)) /\
     g2_aff_stands (aff_from_proj p) P /\ g2_stands (proj_from_aff q) Q) /\
  (forall p q P Q, g2_aff_stands p P -> g2_aff_stands q Q ->
     g2_aff_stands (aff_neg p) (point_neg P) /\ (aff_eq p q = true <-> P = Q) /\ (aff_is_identity p = true <-> P = Infinity)).
Proof. exact @g2_point_ops. Qed.
Print Assumptions C94_ops.
Theorem C94_sum : forall l L,
  Forall2 g2_stands l L -> g2_stands (proj_sum l) (fold_right point_add Infinity L).
Proof. exact @g2_sum. Qed.
Print Assumptions C94_sum.
Theorem C94_batch_normalize : forall ps Ps,
  Forall2 g2_stands ps Ps ->
  (exists out, batch_normalize ps (length ps) = Ok out /\ Forall2 g2_aff_stands out Ps) /\
  (forall n, n <> length ps -> batch_normalize ps n = Panic).
Proof. exact @g2_normalize. Qed.
Print Assumptions C94_batch_normalize.
Theorem C94_on_curve : (forall x y i (X Y : Fp2), stands_for2 x X -> stands_for2 y Y ->
     (@aff_is_on_curve fp2_ops (@Aff fp2_ops x y i) = true <-> i = true \/ g2_on_curve (Affine X Y))) /\
  (forall x y z (X Y Z : Fp2), stands_for2 x X -> stands_for2 y Y -> stands_for2 z Z ->
     (@proj_is_on_curve fp2_ops (@Proj fp2_ops x y z) = true <-> Z = f0 \/ projective g2_b X Y Z)).
Proof. exact @g2_curve_tests. Qed.
Print Assumptions C94_on_curve.
(** the test of projective points accepts coordinates of no point *)
Theorem C94_on_curve_refuted : exists q : g2_projective, proj_is_on_curve q = true /\ forall P, ~ g2_stands q P.
Proof. exact @g2_curve_test_refuted. Qed.
Print Assumptions C94_on_curve_refuted.
Example C94_ex : exists p q P, g2_stands p P /\ g2_stands q (point_neg P) /\ P <> Infinity /\
  g2_stands (proj_add p q) Infinity /\ g2_stands (proj_double p) (point_add P P).
Proof. exact g2_ops_case. Qed.

(** ** C95: multiplication by a scalar and the subgroup *)
(** all points of the curve, all scalars *)
Theorem C95_mul : forall s (x : Fr) P,
  represents s x ->
  (forall q, g2_stands q P -> g2_stands (g2_mul q s) (point_zmul (val x) P)) /\
  (forall a, g2_aff_stands a P -> g2_stands (g2_mul_affine a s) (point_zmul (val x) P)).
Proof. exact @g2_scalar_mul. Qed.
Print Assumptions C95_mul.
Theorem C95_generator : g2_stands g2_generator g2_gen /\ g2_aff_stands g2_generator_affine g2_gen /\ g2_subgroup g2_gen /\
  (forall n, point_zmul n g2_gen = Infinity <-> (r | n)).
Proof. exact @g2_generator_ok. Qed.
Print Assumptions C95_generator.
Theorem C95_test : forall q P,
  g2_aff_stands q P -> (g2_is_torsion_free q = true <-> g2_subgroup P).
Proof. exact @g2_torsion_test. Qed.
Print Assumptions C95_test.
(** the group that the abstract model of the KZG functions assumes *)
Theorem C95_module : exists (M : gmod Fr) (pt : M -> point Fp2),
  (forall a, g2_subgroup (pt a)) /\ (forall P, g2_subgroup P -> exists a, pt a = P) /\ (forall a c, pt a = pt c -> a = c) /\
  pt g0 = Infinity /\ (forall a c, pt (gadd a c) = point_add (pt a) (pt c)) /\ (forall a, pt (gneg a) = point_neg (pt a)) /\
  (forall x a, pt (smul x a) = point_zmul (val x) (pt a)).
Proof. exact @g2_module. Qed.
Print Assumptions C95_module.
Example C95_ex : (exists s (x : Fr), represents s x /\ val x = r - 1 /\ g2_stands g2_generator g2_gen) /\
  (g2_subgroup g2_gen /\ g2_gen <> Infinity) /\ exists q P, g2_aff_stands q P /\ ~ g2_subgroup P.
Proof. exact (conj g2_mul_case (conj g2_sub_case g2_outside_case)). Qed.

(** ** C96: the Frobenius map and the cofactor *)
Theorem C96_code : forall q P,
  g2_stands q P ->
  g2_stands (g2_psi q) (g2_psi_pt P) /\ g2_stands (g2_psi2 q) (g2_psi_pt (g2_psi_pt P)) /\
  g2_stands (g2_clear_cofactor q)
    (point_add (g2_psi_pt (g2_psi_pt (point_add P P)))
      (point_add (point_zmul (bls_x * bls_x - bls_x - 1) P) (point_zmul (bls_x - 1) (g2_psi_pt P)))).
Proof. exact @g2_psi_code. Qed.
Print Assumptions C96_code.
Theorem C96_endomorphism : (forall P, g2_on_curve P -> g2_on_curve (g2_psi_pt P)) /\
  (forall P Q, g2_on_curve P -> g2_psi_pt (point_add P Q) = point_add (g2_psi_pt P) (g2_psi_pt Q)) /\
  (forall P, g2_subgroup P -> g2_subgroup (g2_psi_pt P)) /\
  (forall a, g2_psi_pt (point_zmul a g2_gen) = point_zmul (bls_x * a) g2_gen).
Proof. exact @g2_psi_endomorphism. Qed.
Print Assumptions C96_endomorphism.
Theorem C96_relation : forall P,
  g2_on_curve P ->
  point_add (g2_psi_pt (g2_psi_pt (g2_psi_pt (g2_psi_pt P)))) P = g2_psi_pt (g2_psi_pt P).
Proof. exact @g2_psi_relation. Qed.
Print Assumptions C96_relation.
Example C96_ex : g2_stands g2_generator g2_gen /\ g2_psi_pt g2_gen = point_zmul bls_x g2_gen /\ g2_psi_pt g2_gen <> g2_gen.
Proof. exact g2_psi_case. Qed.

(** ** C97: encodings *)
Theorem C97_write : forall q P,
  g2_aff_stands q P ->
  (is_bytes 96 (g2_to_compressed q) /\ be_val (g2_to_compressed q) = compressed_val2 P) /\
  (is_bytes 192 (g2_to_uncompressed q) /\ be_val (g2_to_uncompressed q) = uncompressed_val2 P).
Proof. exact @g2_write. Qed.
Print Assumptions C97_write.
Theorem C97_distinct : forall P Q,
  g2_on_curve P -> g2_on_curve Q ->
  (compressed_val2 P = compressed_val2 Q -> P = Q) /\ (uncompressed_val2 P = uncompressed_val2 Q -> P = Q).
Proof. exact @g2_encodings_distinct. Qed.
Print Assumptions C97_distinct.
(** accepted: the encodings of the points of the subgroup, nothing else *)
Theorem C97_read_compressed : forall bs,
  is_bytes 96 bs ->
  (forall P, g2_subgroup P -> be_val bs = compressed_val2 P ->
     exists q, g2_from_compressed bs = Some q /\ g2_aff_stands q P) /\
  ((forall P, g2_subgroup P -> be_val bs <> compressed_val2 P) -> g2_from_compressed bs = None).
Proof. exact @g2_read_compressed. Qed.
Print Assumptions C97_read_compressed.
Theorem C97_read_uncompressed : forall bs,
  is_bytes 192 bs ->
  (forall P, g2_subgroup P -> be_val bs = uncompressed_val2 P ->
     exists q, g2_from_uncompressed bs = Some q /\ g2_aff_stands q P) /\
  ((forall P, g2_subgroup P -> be_val bs <> uncompressed_val2 P) -> g2_from_uncompressed bs = None).
Proof. exact @g2_read_uncompressed. Qed.
Print Assumptions C97_read_uncompressed.
(** accepted: the encodings of the points of the curve *)
Theorem C97_read_compressed_unchecked : forall bs,
  is_bytes 96 bs ->
  (forall P, g2_on_curve P -> be_val bs = compressed_val2 P ->
     exists q, g2_from_compressed_unchecked bs = Some q /\ g2_aff_stands q P) /\
  ((forall P, g2_on_curve P -> be_val bs <> compressed_val2 P) -> g2_from_compressed_unchecked bs = None).
Proof. exact @g2_read_compressed_unchecked. Qed.
Print Assumptions C97_read_compressed_unchecked.
(** accepted: any two coordinates, and the identity *)
Theorem C97_read_uncompressed_unchecked : forall bs,
  is_bytes 192 bs ->
  (be_val bs = 2 ^ 1534 -> g2_from_uncompressed_unchecked bs = Some aff_identity) /\
  (forall X Y : Fp2, be_val bs = val2 X * 2 ^ 768 + val2 Y ->
     exists x y, g2_from_uncompressed_unchecked bs = Some (@Aff fp2_ops x y false) /\ stands_for2 x X /\ stands_for2 y Y) /\
  (be_val bs <> 2 ^ 1534 -> (forall X Y : Fp2, be_val bs <> val2 X * 2 ^ 768 + val2 Y) -> g2_from_uncompressed_unchecked bs = None).
Proof. exact @g2_read_uncompressed_unchecked. Qed.
Print Assumptions C97_read_uncompressed_unchecked.
Theorem C97_round_trip : forall q P,
  g2_aff_stands q P -> g2_subgroup P ->
  (exists q', g2_from_compressed (g2_to_compressed q) = Some q' /\ g2_aff_stands q' P /\ aff_eq q' q = true) /\
  (exists q', g2_from_uncompressed (g2_to_uncompressed q) = Some q' /\ g2_aff_stands q' P /\ aff_eq q' q = true).
Proof. exact @g2_round_trip. Qed.
Print Assumptions C97_round_trip.
Theorem C97_projective : forall q P,
  g2_stands q P -> g2_subgroup P ->
  is_bytes 96 (g2_proj_to_bytes q) /\ be_val (g2_proj_to_bytes q) = compressed_val2 P /\
  exists q', g2_proj_from_bytes (g2_proj_to_bytes q) = Some q' /\ g2_stands q' P /\ proj_eq q' q = true.
Proof. exact @g2_projective_encoding. Qed.
Print Assumptions C97_projective.
Example C97_ex : (exists q, g2_aff_stands q g2_gen /\ g2_subgroup g2_gen) /\
  g2_to_compressed aff_identity = 192 :: repeat 0 95 /\ g2_to_uncompressed aff_identity = 64 :: repeat 0 191 /\
  option_map aff_is_identity (g2_from_compressed_unchecked (192 :: repeat 0 95)) = Some true /\
  option_map aff_is_identity (g2_from_compressed_unchecked (repeat 255 96)) = None /\
  option_map aff_is_identity (g2_from_uncompressed_unchecked (192 :: repeat 0 191)) = None.
Proof. exact g2_encoding_case. Qed.
