(** * Properties_Pair: the pairing of the zkcrypto curve *)
From Coq Require Import ZArith List Bool.
From Verif Require Import Base Fld Zr Zp Spec_Scalar Model_Scalar Spec_Fp Spec_Curve Model_Fp Model_Curve Model_Fp2 Model_Fp12 Model_G1 Model_G2 Model_Pair Spec_CurveCode Power Tower Ext Spec_Ext Spec_G1 Spec_G2 Spec_Pair Proof_PairTop Proof_PairCases.
Import ListNotations.
Local Open Scope Z_scope.

(** ** C95, C96: more about the subgroup of the second group *)
(** the subgroup consists of the multiples of the generator *)
Theorem C95_cyclic : forall P,
  g2_subgroup P <-> exists a, 0 <= a < r /\ P = point_zmul a g2_gen.
Proof. exact @g2_subgroup_cyclic. Qed.
Print Assumptions C95_cyclic.
(** on the subgroup, and nowhere else, the Frobenius map is the multiplication by the curve parameter *)
Theorem C96_subgroup : forall P,
  g2_subgroup P <-> g2_on_curve P /\ g2_psi_pt P = point_zmul bls_x P.
Proof. exact @g2_psi_subgroup. Qed.
Print Assumptions C96_subgroup.
Example C95_cyclic_ex : g2_subgroup g2_gen /\ g2_gen <> Infinity.
Proof. exact (conj (proj1 (proj2 (proj2 pairing_case))) (proj2 (proj2 (proj2 (proj2 pairing_case))))). Qed.

(** ** C98: the final exponentiation *)
(** the power is exactly three times that of the reduced pairing; zero has no value *)
Theorem C98_power : forall a x,
  stands_for12 a x ->
  (x = f0 -> final_exponentiation a = Panic) /\
  (x <> f0 -> exists b, final_exponentiation a = Ok b /\ stands_for12 b (zpow x final_exponent) /\ gt_member (zpow x final_exponent)).
Proof. exact @final_exp_spec. Qed.
Print Assumptions C98_power.
Theorem C98_product : forall a b x y ea eb,
  stands_for12 a x -> stands_for12 b y -> final_exponentiation a = Ok ea -> final_exponentiation b = Ok eb ->
  final_exponentiation (miller_result_add a b) = Ok (gt_add ea eb).
Proof. exact @final_exp_mul. Qed.
Print Assumptions C98_product.
Example C98_ex : (exists a, stands_for12 a Fp12_root /\ Fp12_root <> f0 /\ Fp12_root <> f1) /\ final_exponentiation fp12_zero = Panic.
Proof. exact final_exp_case. Qed.

(** ** C99: the target group *)
Theorem C99_ops : forall a b x y,
  stands_for12 a x -> stands_for12 b y -> gt_member x -> gt_member y ->
  (stands_for12 (gt_add a b) (fmul x y) /\ gt_member (fmul x y)) /\
  (stands_for12 (gt_neg a) (finv x) /\ gt_member (finv x)) /\
  stands_for12 (gt_sub a b) (fmul x (finv y)) /\
  stands_for12 (gt_double a) (fmul x x) /\
  (gt_eq a b = true <-> x = y) /\ (gt_is_identity a = true <-> x = f1).
Proof. exact @gt_group. Qed.
Print Assumptions C99_ops.
Theorem C99_identity : stands_for12 gt_identity f1 /\ gt_member f1.
Proof. exact @gt_identity_spec. Qed.
Print Assumptions C99_identity.
(** all scalars *)
Theorem C99_mul : forall a x s (k : Fr),
  stands_for12 a x -> represents s k -> stands_for12 (gt_mul a s) (zpow x (val k)) /\ (gt_member x -> gt_member (zpow x (val k))).
Proof. exact @gt_scalar_mul. Qed.
Print Assumptions C99_mul.
(** scalars act as a module *)
Theorem C99_module : forall (x : Fp12) (j k : Fr),
  gt_member x ->
  zpow x (val (fadd j k)) = fmul (zpow x (val j)) (zpow x (val k)) /\ zpow x (val (fmul j k)) = zpow (zpow x (val j)) (val k).
Proof. exact @gt_exponents. Qed.
Print Assumptions C99_module.
Theorem C99_sum : forall l L,
  Forall2 stands_for12 l L -> stands_for12 (gt_sum l) (fold_left fmul L f1).
Proof. exact @gt_sum_spec. Qed.
Print Assumptions C99_sum.
(** the random element is always the identity *)
Theorem C99_random_refuted : gt_random = Ok gt_identity.
Proof. exact @gt_random_constant. Qed.
Print Assumptions C99_random_refuted.
Example C99_ex : stands_for12 gt_identity f1 /\ gt_member f1 /\ exists s (k : Fr), represents s k /\ val k = r - 1.
Proof. exact gt_case. Qed.

(** ** C100: the pairing *)
(** all points of the first curve, all points of the second subgroup, including both identities *)
Theorem C100_code : forall p q P Q,
  g1_aff_stands p P -> g2_aff_stands q Q -> g2_subgroup Q ->
  exists v, pairing_fn p q = Ok v /\ stands_for12 v (pairing_value P Q).
Proof. exact @pairing_code. Qed.
Print Assumptions C100_code.
(** prepared points; any number of pairs, including none *)
Theorem C100_prepared : forall ts Ts,
  Forall2 (fun t T => g1_aff_stands (fst t) (fst T) /\ g2_aff_stands (snd t) (snd T) /\ g2_subgroup (snd T)) ts Ts ->
  exists prs l v, Forall2 (fun t pr => g2_prepare (snd t) = Ok pr) ts prs /\ multi_miller_loop (combine (map fst ts) prs) = Ok l /\
    final_exponentiation l = Ok v /\ stands_for12 v (pairing_product Ts).
Proof. exact @multi_pairing_code. Qed.
Print Assumptions C100_prepared.
Theorem C100_member : forall P Q,
  g1_on_curve P -> g2_on_curve Q -> gt_member (pairing_value P Q).
Proof. exact @pairing_member. Qed.
Print Assumptions C100_member.
Theorem C100_identity : forall P Q,
  pairing_value Infinity Q = f1 /\ pairing_value P Infinity = f1.
Proof. exact @pairing_identity. Qed.
Print Assumptions C100_identity.
Theorem C100_additive : (forall P P' Q, g1_on_curve P -> g1_on_curve P' -> g2_subgroup Q -> pairing_value (point_add P P') Q = fmul (pairing_value P Q) (pairing_value P' Q)) /\
  (forall P Q Q', g1_on_curve P -> g2_subgroup Q -> g2_subgroup Q' -> pairing_value P (point_add Q Q') = fmul (pairing_value P Q) (pairing_value P Q')).
Proof. exact @pairing_additive. Qed.
Print Assumptions C100_additive.
Theorem C100_bilinear : forall P Q n,
  g1_on_curve P -> g2_subgroup Q ->
  pairing_value (point_zmul n P) Q = zpow (pairing_value P Q) n /\ pairing_value P (point_zmul n Q) = zpow (pairing_value P Q) n.
Proof. exact @pairing_multiples. Qed.
Print Assumptions C100_bilinear.
Example C100_ex : g1_aff_stands g1_generator_affine g1_gen /\ g2_aff_stands g2_generator_affine g2_gen /\ g2_subgroup g2_gen /\ g1_gen <> Infinity /\ g2_gen <> Infinity.
Proof. exact pairing_case. Qed.

(** ** C101: comparison of pairings *)
Theorem C101_verify : forall a1 a2 b1 b2 A1 A2 B1 B2,
  g1_stands a1 A1 -> g2_stands a2 A2 -> g1_stands b1 B1 -> g2_stands b2 B2 -> g2_subgroup A2 -> g2_subgroup B2 ->
  exists v, zk_pairings_verify a1 a2 b1 b2 = Ok v /\ (v = true <-> pairing_value A1 A2 = pairing_value B1 B2).
Proof. exact @pairings_verify_code. Qed.
Print Assumptions C101_verify.
Example C101_ex : exists a1 a2 b1 b2, g1_stands a1 (point_zmul 6 g1_gen) /\ g2_stands a2 g2_gen /\ g1_stands b1 (point_zmul 2 g1_gen) /\ g2_stands b2 (point_zmul 3 g2_gen) /\
  zk_pairings_verify a1 a2 b1 b2 = Ok true.
Proof. exact verify_case. Qed.
