(** * Properties_Points: the point types of the blst, Arkworks, mcl and ckzg crates (C110)

    [p1_stands], [p2_stands] (Spec_ZkConv.v, Spec_Points.v): the words are Jacobian coordinates of
    the point, in Montgomery form.  [lib_ok] says what the library behind a type is relied upon to
    do; [methods_ok] what the methods of the type do. *)
From Coq Require Import ZArith List Bool.
From Verif Require Import Base Fld Zr Zp Model_Scalar Spec_Scalar Spec_Fp Spec_Curve Model_Fp Model_Fp2 Model_ZkConv Model_Points
  Spec_G1 Power Tower Ext Spec_Ext Spec_G2 Spec_ZkConv Spec_Points Proof_Points.
Import ListNotations.
Local Open Scope Z_scope.

(** ** constants: the identity, the standard generators and their opposites *)
Theorem C110_blst_constants : p1_stands fs_g1_identity Infinity /\ p1_stands fs_g1_default Infinity /\ p2_stands fs_g2_default Infinity /\
  p1_stands fs_g1_generator g1_gen /\ p1_stands fs_g1_negative_generator (point_neg g1_gen) /\
  p2_stands fs_g2_generator g2_gen /\ p2_stands fs_g2_negative_generator (point_neg g2_gen).
Proof. exact @fs_constants. Qed.
Print Assumptions C110_blst_constants.
(** [default] of the second group is not written *)
Theorem C110_ark_constants : p1_stands ark_g1_identity Infinity /\ p1_stands ark_g1_default Infinity /\ ark_g2_default = Panic /\
  p1_stands ark_g1_generator g1_gen /\ p1_stands ark_g1_negative_generator (point_neg g1_gen) /\
  p2_stands ark_g2_generator g2_gen /\ p2_stands ark_g2_negative_generator (point_neg g2_gen).
Proof. exact @ark_constants. Qed.
Print Assumptions C110_ark_constants.
(** also those built from decimal strings *)
Theorem C110_mcl_constants : p1_stands mcl_g1_identity Infinity /\ p1_stands mcl_g1_default Infinity /\ p2_stands mcl_g2_default Infinity /\
  p1_stands mcl_g1_generator g1_gen /\ p1_stands mcl_g1_negative_generator (point_neg g1_gen) /\ p1_stands mcl_g1_gen g1_gen /\
  p2_stands mcl_g2_gen g2_gen /\ p2_stands mcl_g2_negative_generator (point_neg g2_gen).
Proof. exact @mcl_constants. Qed.
Print Assumptions C110_mcl_constants.
Theorem C110_ckzg_constants : p1_stands ckzg_g1_identity Infinity /\ p1_stands ckzg_g1_default Infinity /\ p2_stands ckzg_g2_default Infinity /\
  p1_stands ckzg_g1_negative_generator (point_neg g1_gen) /\ p2_stands ckzg_g2_negative_generator (point_neg g2_gen).
Proof. exact @ckzg_constants. Qed.
Print Assumptions C110_ckzg_constants.

(** ** points from words (mcl) *)
(** the words are read as integers *)
Theorem C110_mcl_from_words : forall u0 u1 u2 n0 n1 n2 P,
  limbs6 u0 n0 -> limbs6 u1 n1 -> limbs6 u2 n2 -> n0 < p -> n1 < p -> n2 < p ->
  g1_on_curve P -> jacobian (fp_of n0) (fp_of n1) (fp_of n2) P -> p1_stands (mcl_from_arr_64 u0 u1 u2) P.
Proof. exact @mcl_from_words. Qed.
Print Assumptions C110_mcl_from_words.
Theorem C110_mcl_from_words_high : forall u0 u1 u2 n0 n1 n2,
  limbs6 u0 n0 -> limbs6 u1 n1 -> limbs6 u2 n2 -> p <= n2 ->
  p1_stands (mcl_from_arr_64 u0 u1 u2) Infinity.
Proof. exact @mcl_from_words_high. Qed.
Print Assumptions C110_mcl_from_words_high.
(** not as the words of a point of the crate *)
Theorem C110_mcl_from_words_refuted : let '(P1 x y z) := mcl_g1_generator in
  p1_stands mcl_g1_generator g1_gen /\ ~ p1_stands (mcl_from_arr_64 x y z) g1_gen.
Proof. exact @mcl_from_words_refuted. Qed.
Print Assumptions C110_mcl_from_words_refuted.

(** ** conversions (Arkworks) *)
Theorem C110_ark_conversions : (forall q P, ark_g1_stands q P <-> p1_stands (pc_g1projective_into_blst_p1 q) P) /\
  (forall q P, p1_stands q P <-> ark_g1_stands (blst_p1_into_pc_g1projective q) P) /\
  (forall q P, ark_g2_stands q P <-> p2_stands (pc_g2projective_into_blst_p2 q) P) /\
  (forall q P, p2_stands q P <-> ark_g2_stands (blst_p2_into_pc_g2projective q) P) /\
  (forall q, blst_p1_into_pc_g1projective (pc_g1projective_into_blst_p1 q) = q) /\ (forall q, pc_g1projective_into_blst_p1 (blst_p1_into_pc_g1projective q) = q) /\
  (forall q, blst_p2_into_pc_g2projective (pc_g2projective_into_blst_p2 q) = q) /\ (forall q, pc_g2projective_into_blst_p2 (blst_p2_into_pc_g2projective q) = q).
Proof. exact @ark_conversions. Qed.
Print Assumptions C110_ark_conversions.

(** ** methods *)
Theorem C110_blst_methods : (forall L, lib_ok p1_stands L -> methods_ok p1_stands (fs_add_or_dbl L) (fs_dbl L) (fs_sub L) (fs_equals L)) /\
  (forall L, lib_ok p2_stands L -> methods_ok p2_stands (fs_add_or_dbl L) (fs_dbl L) (fs_sub L) (fs_equals L)).
Proof. exact @blst_methods. Qed.
Print Assumptions C110_blst_methods.
Theorem C110_mcl_methods : (forall L, lib_ok p1_stands L -> methods_ok p1_stands (mcl_add_or_dbl L) (mcl_dbl L) (mcl_sub L) (mcl_equals L)) /\
  (forall L, lib_ok p2_stands L -> methods_ok p2_stands (mcl_add_or_dbl L) (mcl_dbl L) (mcl_sub L) (mcl_equals L)).
Proof. exact @mcl_point_methods. Qed.
Print Assumptions C110_mcl_methods.
Theorem C110_ckzg_methods : (forall L, lib_ok p1_stands L -> methods_ok p1_stands (ckzg_g1_add_or_dbl L) (ckzg_dbl L) (ckzg_sub L) (ckzg_equals L)) /\
  (forall L, lib_ok p2_stands L -> methods_ok p2_stands (ckzg_g2_add_or_dbl L) (ckzg_dbl L) (ckzg_sub L) (ckzg_equals L)).
Proof. exact @ckzg_methods. Qed.
Print Assumptions C110_ckzg_methods.
Theorem C110_ark_g1_methods : forall A B,
  lib_ok ark_g1_stands A -> lib_ok p1_stands B ->
  methods_ok p1_stands (ark_g1_add_or_dbl A) (ark_g1_dbl A) (ark_g1_sub A) (ark_g1_equals B).
Proof. exact @ark_g1_methods. Qed.
Print Assumptions C110_ark_g1_methods.
Theorem C110_ark_g2_methods : forall A B,
  lib_ok ark_g2_stands A -> lib_ok p2_stands B ->
  methods_ok p2_stands (ark_g2_add_or_dbl A) (ark_g2_dbl A) (ark_g2_sub A) (ark_g2_equals B).
Proof. exact @ark_g2_methods. Qed.
Print Assumptions C110_ark_g2_methods.
Theorem C110_is_inf : forall a P,
  p1_stands a P -> forall L, lib_ok p1_stands L ->
  (fs_is_inf L a = true <-> P = Infinity) /\ (mcl_g1_is_inf L a = true <-> P = Infinity) /\ (ckzg_is_inf L a = true <-> P = Infinity) /\
  (ark_g1_is_inf a = true <-> P = Infinity).
Proof. exact @points_is_inf. Qed.
Print Assumptions C110_is_inf.
Theorem C110_mul : forall s (x : Fr),
  represents s x ->
  (forall L a A, lib_ok p1_stands L -> p1_stands a A -> g1_subgroup A ->
     p1_stands (mcl_mul L a s) (point_zmul (val x) A) /\ p1_stands (ckzg_mul L a s) (point_zmul (val x) A)) /\
  (forall L a A, lib_ok p2_stands L -> p2_stands a A -> g2_subgroup A ->
     p2_stands (mcl_mul L a s) (point_zmul (val x) A) /\ p2_stands (ckzg_mul L a s) (point_zmul (val x) A)) /\
  (forall L a A, lib_ok ark_g1_stands L -> p1_stands a A -> g1_subgroup A -> p1_stands (ark_g1_mul L a s) (point_zmul (val x) A)) /\
  (forall L a A, lib_ok ark_g2_stands L -> p2_stands a A -> g2_subgroup A -> p2_stands (ark_g2_mul L a s) (point_zmul (val x) A)).
Proof. exact @points_mul. Qed.
Print Assumptions C110_mul.
(** the receiver of [add_or_dbl] *)
Theorem C110_receiver : (forall T (L : point_lib T) a b, snd (fs_add_or_dbl L a b) = a /\ snd (mcl_add_or_dbl L a b) = a /\
    snd (ckzg_g1_add_or_dbl L a b) = a /\ snd (ckzg_g2_add_or_dbl L a b) = a).
Proof. exact @receiver_kept. Qed.
Print Assumptions C110_receiver.
(** in Arkworks it is overwritten with the sum *)
Theorem C110_ark_receiver_g1_refuted : forall L a b A B,
  lib_ok ark_g1_stands L -> p1_stands a A -> p1_stands b B ->
  let after := snd (ark_g1_add_or_dbl L a b) in
  p1_stands after (point_add A B) /\ (p1_stands after A <-> B = Infinity).
Proof. exact @ark_receiver1. Qed.
Print Assumptions C110_ark_receiver_g1_refuted.
Theorem C110_ark_receiver_g2_refuted : forall L a b A B,
  lib_ok ark_g2_stands L -> p2_stands a A -> p2_stands b B ->
  let after := snd (ark_g2_add_or_dbl L a b) in
  p2_stands after (point_add A B) /\ (p2_stands after A <-> B = Infinity).
Proof. exact @ark_receiver2. Qed.
Print Assumptions C110_ark_receiver_g2_refuted.

Example C110_ex : (lib_ok p1_stands blst_lib1 /\ lib_ok p2_stands blst_lib2 /\ lib_ok ark_g1_stands ark_lib1 /\ lib_ok ark_g2_stands ark_lib2) /\
  (p1_stands ark_g1_generator g1_gen /\ g1_subgroup g1_gen /\ g1_gen <> Infinity) /\ (p2_stands ark_g2_generator g2_gen /\ g2_subgroup g2_gen /\ g2_gen <> Infinity) /\
  (exists s (x : Fr), represents s x /\ val x = 5) /\
  (exists u0 u1 n0 n1, limbs6 u0 n0 /\ limbs6 u1 n1 /\ limbs6 (FP 1 0 0 0 0 0) 1 /\ n0 < p /\ n1 < p /\ 1 < p /\
    g1_on_curve (Affine (fp_of n0) (fp_of n1)) /\ jacobian (fp_of n0) (fp_of n1) (fp_of 1) (Affine (fp_of n0) (fp_of n1))) /\
  (let m := 18446744073709551615 in limbs6 (FP m m m m m m) (2 ^ 384 - 1) /\ p <= 2 ^ 384 - 1).
Proof. exact points_case. Qed.
