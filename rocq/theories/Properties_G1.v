(** * Properties_G1: the first group of the zkcrypto curve *)
From Coq Require Import ZArith List Bool Znumtheory.
From Verif Require Import Base Fld Zr Zp Spec_Scalar Model_Scalar Spec_Fp Spec_Curve Model_Fp Model_Curve Model_G1 Spec_CurveCode Spec_G1 Proof_G1Top.
Import ListNotations.
Local Open Scope Z_scope.

(** ** C86: point arithmetic *)
(** the specification is a group *)
Theorem C86_group : (forall P Q, g1_on_curve P -> g1_on_curve Q -> g1_on_curve (point_add P Q)) /\
  (forall P, g1_on_curve P -> g1_on_curve (point_neg P)) /\
  (forall P Q R, g1_on_curve P -> g1_on_curve Q -> g1_on_curve R ->
     point_add P (point_add Q R) = point_add (point_add P Q) R) /\
  (forall P Q, g1_on_curve P -> g1_on_curve Q -> point_add P Q = point_add Q P) /\
  (forall P, g1_on_curve P -> point_add Infinity P = P) /\
  (forall P, g1_on_curve P -> point_add P (point_neg P) = Infinity).
Proof. exact @g1_group. Qed.
Print Assumptions C86_group.
Theorem C86_points : (forall P, g1_on_curve P -> (exists q, g1_stands q P) /\ (exists q, g1_aff_stands q P)) /\
  (forall q P, g1_stands q P -> g1_on_curve P) /\ (forall q P, g1_aff_stands q P -> g1_on_curve P) /\
  (forall q P P', g1_stands q P -> g1_stands q P' -> P = P') /\
  (forall q P P', g1_aff_stands q P -> g1_aff_stands q P' -> P = P').
Proof. exact @g1_stands_total. Qed.
Print Assumptions C86_points.
(** all inputs, including equal points, opposite points and the identity *)
Theorem C86_ops : (g1_stands proj_identity Infinity /\ g1_aff_stands aff_identity Infinity) /\
  (forall p q P Q, g1_stands p P -> g1_stands q Q ->
     g1_stands (proj_add p q) (point_add P Q) /\ g1_stands (proj_sub p q) (point_add P (point_neg Q)) /\
     g1_stands (proj_neg p) (point_neg P) /\ g1_stands (proj_double p) (point_add P P) /\
     (proj_eq p q = true <-> P = Q) /\ (proj_is_identity p = true <-> P = Infinity)) /\
  (forall p q P Q, g1_stands p P -> g1_aff_stands q Q ->
     g1_stands (proj_add_mixed p q) (point_add P Q) /\ g1_stands (proj_sub_mixed p q) (point_add P (point_neg Q)) /\
     g1_aff_stands (aff_from_proj p) P /\ g1_stands (proj_from_aff q) Q) /\
  (forall p q P Q, g1_aff_stands p P -> g1_aff_stands q Q ->
     g1_aff_stands (aff_neg p) (point_neg P) /\ (aff_eq p q = true <-> P = Q) /\ (aff_is_identity p = true <-> P = Infinity)).
Proof. exact @g1_point_ops. Qed.
Print Assumptions C86_ops.
Theorem C86_sum : forall l L,
  Forall2 g1_stands l L -> g1_stands (proj_sum l) (fold_right point_add Infinity L).
Proof. exact @g1_sum. Qed.
Print Assumptions C86_sum.
Theorem C86_batch_normalize : forall ps Ps,
  Forall2 g1_stands ps Ps ->
  (exists out, batch_normalize ps (length ps) = Ok out /\ Forall2 g1_aff_stands out Ps) /\
  (forall n, n <> length ps -> batch_normalize ps n = Panic).
Proof. exact @g1_normalize. Qed.
Print Assumptions C86_batch_normalize.
Theorem C86_on_curve : (forall x y i (X Y : Fp), stands_for x X -> stands_for y Y ->
     (@aff_is_on_curve fp_ops (@Aff fp_ops x y i) = true <-> i = true \/ g1_on_curve (Affine X Y))) /\
  (forall x y z (X Y Z : Fp), stands_for x X -> stands_for y Y -> stands_for z Z ->
     (@proj_is_on_curve fp_ops (@Proj fp_ops x y z) = true <-> Z = f0 \/ projective g1_b X Y Z)).
Proof. exact @g1_curve_tests. Qed.
Print Assumptions C86_on_curve.
(** the test of projective points accepts coordinates of no point *)
Theorem C86_on_curve_refuted : exists q : g1_projective, proj_is_on_curve q = true /\ forall P, ~ g1_stands q P.
Proof. exact @g1_curve_test_refuted. Qed.
Print Assumptions C86_on_curve_refuted.
Example C86_ex : exists p q P, g1_stands p P /\ g1_stands q (point_neg P) /\ P <> Infinity /\
  g1_stands (proj_add p q) Infinity /\ g1_stands (proj_double p) (point_add P P).
Proof. exact g1_ops_case. Qed.

(** ** C87: multiplication by a scalar *)
(** in the subgroup, in both builds *)
Theorem C87_mul : forall checked p a P s (x : Fr),
  g1_subgroup P -> represents s x -> ~ rounding_carries (val x) ->
  (g1_stands p P -> exists q, g1_mul checked p s = Ok q /\ g1_stands q (point_zmul (val x) P)) /\
  (g1_aff_stands a P -> exists q, g1_mul_affine checked a s = Ok q /\ g1_stands q (point_zmul (val x) P)).
Proof. exact @g1_scalar_mul. Qed.
Print Assumptions C87_mul.
Theorem C87_small : forall k,
  0 <= k < 2 ^ 190 -> ~ rounding_carries k.
Proof. exact @g1_small_scalars. Qed.
Print Assumptions C87_small.
(** with overflow checks the rounding panics when it carries *)
Theorem C87_overflow : forall p s (x : Fr),
  represents s x -> rounding_carries (val x) -> g1_mul true p s = Panic.
Proof. exact @g1_scalar_mul_panics. Qed.
Print Assumptions C87_overflow.
(** without them the product is wrong *)
Theorem C87_overflow_refuted : exists s (x : Fr) q, represents s x /\ g1_subgroup g1_gen /\ g1_stands g1_generator g1_gen /\
  g1_mul false g1_generator s = Ok q /\ ~ g1_stands q (point_zmul (val x) g1_gen).
Proof. exact @g1_scalar_mul_refuted. Qed.
Print Assumptions C87_overflow_refuted.
(** on other points of the curve the product is not the multiple *)
Theorem C87_outside_refuted : exists p s (x : Fr) P, represents s x /\ g1_on_curve P /\ g1_stands p P /\
  point_zmul (val x) P = Infinity /\ forall checked, exists q, g1_mul checked p s = Ok q /\ ~ g1_stands q Infinity.
Proof. exact @g1_scalar_mul_outside_refuted. Qed.
Print Assumptions C87_outside_refuted.
Example C87_ex : (exists s (x : Fr), represents s x /\ val x = 5 /\ ~ rounding_carries (val x) /\ g1_subgroup g1_gen /\ g1_gen <> Infinity) /\
  (exists s (x : Fr), represents s x /\ rounding_carries (val x)).
Proof. exact (conj g1_mul_case g1_carry_case). Qed.

(** ** C88: the subgroup *)
Theorem C88_generator : g1_stands g1_generator g1_gen /\ g1_aff_stands g1_generator_affine g1_gen /\ g1_subgroup g1_gen /\
  (forall n, point_zmul n g1_gen = Infinity <-> (r | n)).
Proof. exact @g1_generator_ok. Qed.
Print Assumptions C88_generator.
Theorem C88_generated : forall P,
  g1_subgroup P <-> exists a, 0 <= a < r /\ P = point_zmul a g1_gen.
Proof. exact @g1_subgroup_generated. Qed.
Print Assumptions C88_generated.
Theorem C88_test : forall checked q P,
  g1_aff_stands q P ->
  exists t, g1_is_torsion_free checked q = Ok t /\ (t = true <-> g1_subgroup P).
Proof. exact @g1_torsion_test. Qed.
Print Assumptions C88_test.
(** the group that the abstract model of the KZG functions assumes *)
Theorem C88_module : exists (M : gmod Fr) (pt : M -> point Fp),
  (forall a, g1_subgroup (pt a)) /\ (forall P, g1_subgroup P -> exists a, pt a = P) /\ (forall a c, pt a = pt c -> a = c) /\
  pt g0 = Infinity /\ (forall a c, pt (gadd a c) = point_add (pt a) (pt c)) /\ (forall a, pt (gneg a) = point_neg (pt a)) /\
  (forall x a, pt (smul x a) = point_zmul (val x) (pt a)).
Proof. exact @g1_module. Qed.
Print Assumptions C88_module.
Example C88_ex : (g1_subgroup g1_gen /\ g1_gen <> Infinity) /\ exists q P, g1_aff_stands q P /\ ~ g1_subgroup P.
Proof. exact (conj g1_sub_case g1_outside_case). Qed.

(** ** C89: encodings *)
Theorem C89_write : forall q P,
  g1_aff_stands q P ->
  (is_bytes 48 (g1_to_compressed q) /\ be_val (g1_to_compressed q) = compressed_val P) /\
  (is_bytes 96 (g1_to_uncompressed q) /\ be_val (g1_to_uncompressed q) = uncompressed_val P).
Proof. exact @g1_write. Qed.
Print Assumptions C89_write.
Theorem C89_distinct : forall P Q,
  g1_on_curve P -> g1_on_curve Q ->
  (compressed_val P = compressed_val Q -> P = Q) /\ (uncompressed_val P = uncompressed_val Q -> P = Q).
Proof. exact @g1_encodings_distinct. Qed.
Print Assumptions C89_distinct.
(** accepted: the encodings of the points of the subgroup, nothing else *)
Theorem C89_read_compressed : forall checked bs,
  is_bytes 48 bs ->
  (forall P, g1_subgroup P -> be_val bs = compressed_val P ->
     exists q, g1_from_compressed checked bs = Ok (Some q) /\ g1_aff_stands q P) /\
  ((forall P, g1_subgroup P -> be_val bs <> compressed_val P) -> g1_from_compressed checked bs = Ok None).
Proof. exact @g1_read_compressed. Qed.
Print Assumptions C89_read_compressed.
Theorem C89_read_uncompressed : forall checked bs,
  is_bytes 96 bs ->
  (forall P, g1_subgroup P -> be_val bs = uncompressed_val P ->
     exists q, g1_from_uncompressed checked bs = Ok (Some q) /\ g1_aff_stands q P) /\
  ((forall P, g1_subgroup P -> be_val bs <> uncompressed_val P) -> g1_from_uncompressed checked bs = Ok None).
Proof. exact @g1_read_uncompressed. Qed.
Print Assumptions C89_read_uncompressed.
(** accepted: the encodings of the points of the curve *)
Theorem C89_read_compressed_unchecked : forall bs,
  is_bytes 48 bs ->
  (forall P, g1_on_curve P -> be_val bs = compressed_val P ->
     exists q, g1_from_compressed_unchecked bs = Some q /\ g1_aff_stands q P) /\
  ((forall P, g1_on_curve P -> be_val bs <> compressed_val P) -> g1_from_compressed_unchecked bs = None).
Proof. exact @g1_read_compressed_unchecked. Qed.
Print Assumptions C89_read_compressed_unchecked.
(** accepted: any two coordinates below p, and the identity *)
Theorem C89_read_uncompressed_unchecked : forall bs,
  is_bytes 96 bs ->
  (be_val bs = 2 ^ 766 -> g1_from_uncompressed_unchecked bs = Some aff_identity) /\
  (forall X Y : Fp, be_val bs = pval X * 2 ^ 384 + pval Y ->
     exists x y, g1_from_uncompressed_unchecked bs = Some (@Aff fp_ops x y false) /\ stands_for x X /\ stands_for y Y) /\
  (be_val bs <> 2 ^ 766 -> (forall X Y : Fp, be_val bs <> pval X * 2 ^ 384 + pval Y) -> g1_from_uncompressed_unchecked bs = None).
Proof. exact @g1_read_uncompressed_unchecked. Qed.
Print Assumptions C89_read_uncompressed_unchecked.
Theorem C89_round_trip : forall checked q P,
  g1_aff_stands q P -> g1_subgroup P ->
  (exists q', g1_from_compressed checked (g1_to_compressed q) = Ok (Some q') /\ g1_aff_stands q' P /\ aff_eq q' q = true) /\
  (exists q', g1_from_uncompressed checked (g1_to_uncompressed q) = Ok (Some q') /\ g1_aff_stands q' P /\ aff_eq q' q = true).
Proof. exact @g1_round_trip. Qed.
Print Assumptions C89_round_trip.
Theorem C89_projective : forall checked q P,
  g1_stands q P -> g1_subgroup P ->
  is_bytes 48 (g1_proj_to_bytes q) /\ be_val (g1_proj_to_bytes q) = compressed_val P /\
  exists q', g1_proj_from_bytes checked (g1_proj_to_bytes q) = Ok (Some q') /\ g1_stands q' P /\ proj_eq q' q = true.
Proof. exact @g1_projective_encoding. Qed.
Print Assumptions C89_projective.
Example C89_ex : (exists q, g1_aff_stands q g1_gen /\ g1_subgroup g1_gen) /\
  g1_to_compressed aff_identity = 192 :: repeat 0 47 /\ g1_to_uncompressed aff_identity = 64 :: repeat 0 95 /\
  option_map aff_is_identity (g1_from_compressed_unchecked (192 :: repeat 0 47)) = Some true /\
  option_map aff_is_identity (g1_from_compressed_unchecked (repeat 255 48)) = None /\
  option_map aff_is_identity (g1_from_uncompressed_unchecked (192 :: repeat 0 95)) = None.
Proof. exact g1_encoding_case. Qed.
