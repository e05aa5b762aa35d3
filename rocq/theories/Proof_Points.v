(** * Proof_Points: the point types of the blst, Arkworks, mcl and ckzg crates *)
From Coq Require Import ZArith List Bool Lia.
From Verif Require Import Base Fld Tables Zr Zp Spec_Scalar Model_Scalar Proof_Scalar Proof_Scalar2 Proof_Scalar5 Spec_Fp Model_Fp Proof_FpRep Proof_FpTop Spec_Curve Proof_Curve Model_Curve Model_Fp2 Model_G1 Model_G2 Spec_CurveCode Proof_CurveCode
  Spec_G1 Proof_G1Base Proof_G1Gen Proof_G1Top Model_ZkConv Spec_ZkConv Model_ZkWords Model_Points Power Tower Ext Spec_Ext Proof_Fp2 Proof_ExtTop Spec_G2 Proof_G2Base Proof_G2Top Spec_Points Proof_PointsGen Proof_ZkWords Proof_ZkWordsTop.
Import ListNotations.
Local Open Scope Z_scope.

(** ** the two readings of a coordinate *)
Lemma jac_rep {F : Type} {K : fld} (b : K) (r1 r2 : F -> K -> Prop) (E : forall s x, r1 s x <-> r2 s x) x y z P :
  jac_stands b r1 x y z P -> jac_stands b r2 x y z P.
Proof.
  intros (C & X & Y & Z & RX & RY & RZ & A). split; [exact C|]. exists X, Y, Z.
  split; [exact (proj1 (E _ _) RX)|]. split; [exact (proj1 (E _ _) RY)|]. split; [exact (proj1 (E _ _) RZ)|]. exact A.
Qed.
Notation jac1 := (jac_stands (F:=fp_ops) b4 frep).
Notation jac2 := (jac_stands (F:=fp2_ops) bq rep2).
Lemma j1 x y z P : p1_stands (P1 x y z) P <-> jac1 x y z P.
Proof.
  split; intros H.
  - refine (jac_rep b4 stands_for frep stands_for_frep _ _ _ _ _). exact H.
  - refine (jac_rep b4 frep stands_for (fun s x => iff_sym (stands_for_frep s x)) _ _ _ _ H).
Qed.
Lemma j2 x y z P : p2_stands (P2 x y z) P <-> jac2 x y z P.
Proof.
  split; intros H.
  - refine (jac_rep bq stands_for2 rep2 stands_for2_rep _ _ _ _ _). exact H.
  - refine (jac_rep bq rep2 stands_for2 (fun s x => iff_sym (stands_for2_rep s x)) _ _ _ _ H).
Qed.
Lemma p1_unique q P Q : p1_stands q P -> p1_stands q Q -> P = Q.
Proof. destruct q. intros A B. apply j1 in A. apply j1 in B. exact (jac_unique fp_ops_ok _ _ _ _ _ A B). Qed.
Lemma p2_unique q P Q : p2_stands q P -> p2_stands q Q -> P = Q.
Proof. destruct q. intros A B. apply j2 in A. apply j2 in B. exact (jac_unique fp2_ops_ok _ _ _ _ _ A B). Qed.

(** ** constants *)
Lemma p1_of_zk x y P : g1_stands (@Proj fp_ops x y fp_one) P -> p1_stands (P1 x y fp_one) P.
Proof. intros H. apply Proof_G1Top.pst in H. apply j1. exact (jac_of_proj_one fp_ops_ok _ _ _ H). Qed.
Lemma p2_of_zk x y P : g2_stands (@Proj fp2_ops x y fp2_one) P -> p2_stands (P2 x y fp2_one) P.
Proof. intros H. apply Proof_G2Top.pst in H. apply j2. exact (jac_of_proj_one fp2_ops_ok _ _ _ H). Qed.
Lemma p1_gen : p1_stands fs_g1_generator g1_gen.
Proof. exact (p1_of_zk _ _ _ (proj1 (proj2 words_g1_methods))). Qed.
Lemma p1_neg : p1_stands fs_g1_negative_generator (point_neg g1_gen).
Proof. exact (p1_of_zk _ _ _ (proj1 (proj2 (proj2 words_g1_methods)))). Qed.
Lemma p2_gen : p2_stands fs_g2_generator g2_gen.
Proof. exact (p2_of_zk _ _ _ (proj1 words_g2_methods)). Qed.
Lemma p2_neg : p2_stands fs_g2_negative_generator (point_neg g2_gen).
Proof. exact (p2_of_zk _ _ _ (proj1 (proj2 words_g2_methods))). Qed.
Lemma p1_id : p1_stands fs_g1_identity Infinity.
Proof. apply j1. exact (jac_zero fp_ops_ok _ _ _ _ (rep_zero _ _ _ _ fp_ops_ok) (rep_zero _ _ _ _ fp_ops_ok)). Qed.
Lemma p2_id : p2_stands fs_g2_default Infinity.
Proof. apply j2. exact (jac_zero fp2_ops_ok _ _ _ _ (rep_zero _ _ _ _ fp2_ops_ok) (rep_zero _ _ _ _ fp2_ops_ok)). Qed.
Theorem fs_constants : p1_stands fs_g1_identity Infinity /\ p1_stands fs_g1_default Infinity /\ p2_stands fs_g2_default Infinity /\
  p1_stands fs_g1_generator g1_gen /\ p1_stands fs_g1_negative_generator (point_neg g1_gen) /\
  p2_stands fs_g2_generator g2_gen /\ p2_stands fs_g2_negative_generator (point_neg g2_gen).
Proof. exact (conj p1_id (conj p1_id (conj p2_id (conj p1_gen (conj p1_neg (conj p2_gen p2_neg)))))). Qed.
Theorem ark_constants : p1_stands ark_g1_identity Infinity /\ p1_stands ark_g1_default Infinity /\ ark_g2_default = Panic /\
  p1_stands ark_g1_generator g1_gen /\ p1_stands ark_g1_negative_generator (point_neg g1_gen) /\
  p2_stands ark_g2_generator g2_gen /\ p2_stands ark_g2_negative_generator (point_neg g2_gen).
Proof. exact (conj p1_id (conj p1_id (conj eq_refl (conj p1_gen (conj p1_neg (conj p2_gen p2_neg)))))). Qed.
Theorem ckzg_constants : p1_stands ckzg_g1_identity Infinity /\ p1_stands ckzg_g1_default Infinity /\ p2_stands ckzg_g2_default Infinity /\
  p1_stands ckzg_g1_negative_generator (point_neg g1_gen) /\ p2_stands ckzg_g2_negative_generator (point_neg g2_gen).
Proof. exact (conj p1_id (conj p1_id (conj p2_id (conj p1_neg p2_neg)))). Qed.

(** ** mcl: decimal strings *)
Lemma split_word z : 0 <= z mod 2 ^ 64 < 2 ^ 64 /\ z = z mod 2 ^ 64 + 2 ^ 64 * (z / 2 ^ 64).
Proof. split; [apply Z.mod_pos_bound; reflexivity|]. pose proof (Z.div_mod z (2 ^ 64) ltac:(discriminate)). lia. Qed.
Lemma words6_ok m : 0 <= m < 2 ^ 384 ->
  limbs6 (FP (m mod 2 ^ 64) (m / 2 ^ 64 mod 2 ^ 64) (m / 2 ^ 128 mod 2 ^ 64) (m / 2 ^ 192 mod 2 ^ 64) (m / 2 ^ 256 mod 2 ^ 64) (m / 2 ^ 320 mod 2 ^ 64)) m.
Proof.
  intros H.
  replace (m / 2 ^ 128) with (m / 2 ^ 64 / 2 ^ 64) by (rewrite Z.div_div by (discriminate || reflexivity); reflexivity).
  replace (m / 2 ^ 192) with (m / 2 ^ 64 / 2 ^ 64 / 2 ^ 64) by (rewrite !Z.div_div by (discriminate || reflexivity); reflexivity).
  replace (m / 2 ^ 256) with (m / 2 ^ 64 / 2 ^ 64 / 2 ^ 64 / 2 ^ 64) by (rewrite !Z.div_div by (discriminate || reflexivity); reflexivity).
  replace (m / 2 ^ 320) with (m / 2 ^ 64 / 2 ^ 64 / 2 ^ 64 / 2 ^ 64 / 2 ^ 64) by (rewrite !Z.div_div by (discriminate || reflexivity); reflexivity).
  assert (T : m / 2 ^ 64 / 2 ^ 64 / 2 ^ 64 / 2 ^ 64 / 2 ^ 64 / 2 ^ 64 = 0) by (rewrite !Z.div_div by (discriminate || reflexivity); apply Z.div_small; exact H).
  destruct (split_word m) as [B0 E0]. set (m1 := m / 2 ^ 64) in *. destruct (split_word m1) as [B1 E1]. set (m2 := m1 / 2 ^ 64) in *.
  destruct (split_word m2) as [B2 E2]. set (m3 := m2 / 2 ^ 64) in *. destruct (split_word m3) as [B3 E3]. set (m4 := m3 / 2 ^ 64) in *.
  destruct (split_word m4) as [B4 E4]. set (m5 := m4 / 2 ^ 64) in *. destruct (split_word m5) as [B5 E5]. rewrite T in E5.
  cbn [limbs6]. split; [exact B0|]. split; [exact B1|]. split; [exact B2|]. split; [exact B3|]. split; [exact B4|]. split; [exact B5|].
  cbn [limbs_val]. lia.
Qed.
Lemma mont_words_ok n : 0 <= n < p -> stands_for (mont_words n) (fp_of n).
Proof.
  intros H. apply stands_for_lit. rewrite (Z.mod_small n p H). apply words6_ok.
  split; [apply Z.mod_pos_bound; reflexivity|]. apply Z.lt_trans with p; [apply Z.mod_pos_bound; reflexivity|reflexivity].
Qed.
Lemma mcl_generators : mcl_g1_gen = fs_g1_generator /\ mcl_g2_gen = fs_g2_generator.
Proof. split; vm_compute; reflexivity. Qed.
Theorem mcl_constants : p1_stands mcl_g1_identity Infinity /\ p1_stands mcl_g1_default Infinity /\ p2_stands mcl_g2_default Infinity /\
  p1_stands mcl_g1_generator g1_gen /\ p1_stands mcl_g1_negative_generator (point_neg g1_gen) /\ p1_stands mcl_g1_gen g1_gen /\
  p2_stands mcl_g2_gen g2_gen /\ p2_stands mcl_g2_negative_generator (point_neg g2_gen).
Proof.
  destruct mcl_generators as [E1 E2]. rewrite E1, E2.
  exact (conj p1_id (conj p1_id (conj p2_id (conj p1_gen (conj p1_neg (conj p1_gen (conj p2_gen p2_neg))))))).
Qed.
Lemma words_sum u n : limbs6 u n -> arr64_6_to_g1_sum u = n /\ 0 <= n.
Proof. destruct u. cbn [limbs6 limbs_val arr64_6_to_g1_sum]. lia. Qed.
Theorem mcl_from_words u0 u1 u2 n0 n1 n2 P : limbs6 u0 n0 -> limbs6 u1 n1 -> limbs6 u2 n2 -> n0 < p -> n1 < p -> n2 < p ->
  g1_on_curve P -> jacobian (fp_of n0) (fp_of n1) (fp_of n2) P -> p1_stands (mcl_from_arr_64 u0 u1 u2) P.
Proof.
  intros L0 L1 L2 I0 I1 I2 C J. unfold mcl_from_arr_64.
  destruct (words_sum _ _ L0) as [-> G0]. destruct (words_sum _ _ L1) as [-> G1]. destruct (words_sum _ _ L2) as [-> G2].
  unfold mcl_set_str. rewrite (proj2 (Z.ltb_lt _ _) I0), (proj2 (Z.ltb_lt _ _) I1), (proj2 (Z.ltb_lt _ _) I2).
  cbn [p1_stands]. split; [exact C|]. exists (fp_of n0), (fp_of n1), (fp_of n2).
  split; [apply mont_words_ok; lia|]. split; [apply mont_words_ok; lia|]. split; [apply mont_words_ok; lia|]. exact J.
Qed.
Lemma set_str_stands n : 0 <= n -> exists x : Fp, stands_for (mcl_set_str n zero_fp) x /\ (p <= n -> x = f0).
Proof.
  intros H. unfold mcl_set_str. destruct (n <? p) eqn:E.
  - apply Z.ltb_lt in E. exists (fp_of n). split; [apply mont_words_ok; lia|]. intros G. exfalso. lia.
  - exists (f0 : Fp). split; [|reflexivity]. apply stands_for_frep. exact (rep_zero _ _ _ _ fp_ops_ok).
Qed.
(** a word array at or above the modulus leaves the coordinate at zero: the point at infinity, if it is the third *)
Theorem mcl_from_words_high u0 u1 u2 n0 n1 n2 : limbs6 u0 n0 -> limbs6 u1 n1 -> limbs6 u2 n2 -> p <= n2 ->
  p1_stands (mcl_from_arr_64 u0 u1 u2) Infinity.
Proof.
  intros L0 L1 L2 H. unfold mcl_from_arr_64.
  destruct (words_sum _ _ L0) as [-> G0]. destruct (words_sum _ _ L1) as [-> G1]. destruct (words_sum _ _ L2) as [-> G2].
  destruct (set_str_stands _ G0) as (x & SX & _). destruct (set_str_stands _ G1) as (y & SY & _). destruct (set_str_stands _ G2) as (z & SZ & E).
  cbn [p1_stands]. split; [exact I|]. exists x, y, z. split; [exact SX|]. split; [exact SY|]. split; [exact SZ|].
  split; [reflexivity|]. intros N. exfalso. exact (N (E H)).
Qed.
(** the words of a point of the crate are not what it reads *)
Lemma set_str_ok n : 0 <= n < p -> stands_for (mcl_set_str n zero_fp) (fp_of n).
Proof. intros [A B]. unfold mcl_set_str. rewrite (proj2 (Z.ltb_lt _ _) B). apply mont_words_ok. lia. Qed.
Lemma stands_unique s (x y : Fp) : stands_for s x -> stands_for s y -> x = y.
Proof. intros A B. apply stands_for_frep in A. apply stands_for_frep in B. exact (frep_unique _ _ _ A B). Qed.
Lemma from_words_x n0 n1 n2 gx gy : 0 <= n0 < p -> 0 <= n2 < p -> n2 <> 0 -> (gx * (n2 * n2) mod p =? n0 mod p) = false ->
  ~ p1_stands (P1 (mcl_set_str n0 zero_fp) (mcl_set_str n1 zero_fp) (mcl_set_str n2 zero_fp)) (Affine (fp_of gx) (fp_of gy)).
Proof.
  intros I0 I2 N2 NE (_ & X & Y & Z & SX & _ & SZ & _ & J1).
  rewrite (stands_unique _ _ _ SX (set_str_ok _ I0)), (stands_unique _ _ _ SZ (set_str_ok _ I2)) in J1.
  assert (NZ : fp_of n2 <> f0). { rewrite <- Fp_of_0. apply fp_of_neq. rewrite (Z.mod_small _ _ I2). change (0 mod p) with 0. apply Z.eqb_neq. exact N2. }
  specialize (J1 NZ). apply (f_equal px) in J1. cbn [px] in J1.
  apply (fp_of_neq _ _ NE). rewrite !fp_of_mul. exact (jac_x_back _ _ _ NZ J1).
Qed.
Theorem mcl_from_words_refuted : let '(P1 x y z) := mcl_g1_generator in
  p1_stands mcl_g1_generator g1_gen /\ ~ p1_stands (mcl_from_arr_64 x y z) g1_gen.
Proof.
  split; [exact p1_gen|]. unfold mcl_from_arr_64, g1_gen. apply from_words_x.
  - vm_compute. split; congruence.
  - vm_compute. split; congruence.
  - vm_compute. discriminate.
  - vm_compute. reflexivity.
Qed.

(** ** Arkworks: conversions *)
Theorem ark_conversions :
  (forall q P, ark_g1_stands q P <-> p1_stands (pc_g1projective_into_blst_p1 q) P) /\
  (forall q P, p1_stands q P <-> ark_g1_stands (blst_p1_into_pc_g1projective q) P) /\
  (forall q P, ark_g2_stands q P <-> p2_stands (pc_g2projective_into_blst_p2 q) P) /\
  (forall q P, p2_stands q P <-> ark_g2_stands (blst_p2_into_pc_g2projective q) P) /\
  (forall q, blst_p1_into_pc_g1projective (pc_g1projective_into_blst_p1 q) = q) /\ (forall q, pc_g1projective_into_blst_p1 (blst_p1_into_pc_g1projective q) = q) /\
  (forall q, blst_p2_into_pc_g2projective (pc_g2projective_into_blst_p2 q) = q) /\ (forall q, pc_g2projective_into_blst_p2 (blst_p2_into_pc_g2projective q) = q).
Proof.
  split; [intros [[x] [y] [z]] P; exact (iff_refl _)|]. split; [intros [x y z] P; exact (iff_refl _)|].
  split; [intros [[[x0] [x1]] [[y0] [y1]] [[z0] [z1]]] P; exact (iff_refl _)|]. split; [intros [[x0 x1] [y0 y1] [z0 z1]] P; exact (iff_refl _)|].
  split; [intros [[x] [y] [z]]; reflexivity|]. split; [intros [x y z]; reflexivity|].
  split; [intros [[[x0] [x1]] [[y0] [y1]] [[z0] [z1]]]; reflexivity|]. intros [[x0 x1] [y0 y1] [z0 z1]]. reflexivity.
Qed.
Lemma to_ark1 q P : p1_stands q P -> ark_g1_stands (blst_p1_into_pc_g1projective q) P.
Proof. exact (proj1 (proj1 (proj2 ark_conversions) q P)). Qed.
Lemma of_ark1 q P : ark_g1_stands q P -> p1_stands (pc_g1projective_into_blst_p1 q) P.
Proof. exact (proj1 (proj1 ark_conversions q P)). Qed.
Lemma to_ark2 q P : p2_stands q P -> ark_g2_stands (blst_p2_into_pc_g2projective q) P.
Proof. exact (proj1 (proj1 (proj2 (proj2 (proj2 ark_conversions))) q P)). Qed.
Lemma of_ark2 q P : ark_g2_stands q P -> p2_stands (pc_g2projective_into_blst_p2 q) P.
Proof. exact (proj1 (proj1 (proj2 (proj2 ark_conversions)) q P)). Qed.

(** ** methods *)
Theorem ark_g1_methods A B : lib_ok ark_g1_stands A -> lib_ok p1_stands B ->
  methods_ok p1_stands (ark_g1_add_or_dbl A) (ark_g1_dbl A) (ark_g1_sub A) (ark_g1_equals B).
Proof.
  intros OA OB. split.
  - intros a b P Q HP HQ. exact (of_ark1 _ _ (ok_add _ _ OA _ _ _ _ (to_ark1 _ _ HP) (to_ark1 _ _ HQ))).
  - intros a P HP. exact (of_ark1 _ _ (ok_double _ _ OA _ _ (to_ark1 _ _ HP))).
  - intros a b P Q HP HQ. exact (of_ark1 _ _ (ok_sub _ _ OA _ _ _ _ (to_ark1 _ _ HP) (to_ark1 _ _ HQ))).
  - exact (ok_equal _ _ OB).
Qed.
Theorem ark_g2_methods A B : lib_ok ark_g2_stands A -> lib_ok p2_stands B ->
  methods_ok p2_stands (ark_g2_add_or_dbl A) (ark_g2_dbl A) (ark_g2_sub A) (ark_g2_equals B).
Proof.
  intros OA OB. split.
  - intros a b P Q HP HQ. exact (of_ark2 _ _ (ok_add _ _ OA _ _ _ _ (to_ark2 _ _ HP) (to_ark2 _ _ HQ))).
  - intros a P HP. exact (of_ark2 _ _ (ok_double _ _ OA _ _ (to_ark2 _ _ HP))).
  - intros a b P Q HP HQ. exact (of_ark2 _ _ (ok_sub _ _ OA _ _ _ _ (to_ark2 _ _ HP) (to_ark2 _ _ HQ))).
  - exact (ok_equal _ _ OB).
Qed.
Lemma p1_on_curve q P : p1_stands q P -> g1_on_curve P.
Proof. destruct q. intros [C _]. exact C. Qed.
Lemma p2_on_curve q P : p2_stands q P -> g2_on_curve P.
Proof. destruct q. intros [C _]. exact C. Qed.
Theorem blst_methods : (forall L, lib_ok p1_stands L -> methods_ok p1_stands (fs_add_or_dbl L) (fs_dbl L) (fs_sub L) (fs_equals L)) /\
  (forall L, lib_ok p2_stands L -> methods_ok p2_stands (fs_add_or_dbl L) (fs_dbl L) (fs_sub L) (fs_equals L)).
Proof. split; intros L; apply fs_methods. Qed.
Theorem mcl_point_methods : (forall L, lib_ok p1_stands L -> methods_ok p1_stands (mcl_add_or_dbl L) (mcl_dbl L) (mcl_sub L) (mcl_equals L)) /\
  (forall L, lib_ok p2_stands L -> methods_ok p2_stands (mcl_add_or_dbl L) (mcl_dbl L) (mcl_sub L) (mcl_equals L)).
Proof. split; intros L; apply mcl_methods. Qed.
Theorem ckzg_methods : (forall L, lib_ok p1_stands L -> methods_ok p1_stands (ckzg_g1_add_or_dbl L) (ckzg_dbl L) (ckzg_sub L) (ckzg_equals L)) /\
  (forall L, lib_ok p2_stands L -> methods_ok p2_stands (ckzg_g2_add_or_dbl L) (ckzg_dbl L) (ckzg_sub L) (ckzg_equals L)).
Proof.
  split; intros L OK; [|apply ckzg_g2_methods; exact OK]. apply ckzg_g1_methods; [exact OK|].
  intros a b A B HA HB. exact (point_add_comm b4 Fp_two Fp_NoTwo _ _ (p1_on_curve _ _ HB) (p1_on_curve _ _ HA)).
Qed.
Lemma zero_words l0 l1 l2 l3 l4 l5 (z : Fp) : stands_for (FP l0 l1 l2 l3 l4 l5) z ->
  ((l0 =? 0) && (l1 =? 0) && (l2 =? 0) && (l3 =? 0) && (l4 =? 0) && (l5 =? 0) = true <-> z = f0).
Proof.
  intros S. rewrite !andb_true_iff, !Z.eqb_eq. split.
  - intros (((((-> & ->) & ->) & ->) & ->) & ->). exact (stands_unique _ _ _ S (proj2 (stands_for_frep _ _) (rep_zero _ _ _ _ fp_ops_ok))).
  - intros ->. assert (E : (pval (f0 : Fp) * 2 ^ 384) mod p = 0) by (vm_compute; reflexivity).
    unfold stands_for in S. rewrite E in S. cbn [limbs6 limbs_val] in S. lia.
Qed.
Theorem points_is_inf a P : p1_stands a P -> forall L, lib_ok p1_stands L ->
  (fs_is_inf L a = true <-> P = Infinity) /\ (mcl_g1_is_inf L a = true <-> P = Infinity) /\ (ckzg_is_inf L a = true <-> P = Infinity) /\
  (ark_g1_is_inf a = true <-> P = Infinity).
Proof.
  intros H L OK. split; [exact (ok_is_inf _ _ OK _ _ H)|]. split; [exact (ok_equal _ _ OK _ _ _ _ H p1_id)|]. split; [exact (ok_is_inf _ _ OK _ _ H)|].
  destruct a as [x y z]. destruct H as (_ & X & Y & Z & _ & _ & SZ & J0 & J1). destruct z as [l0 l1 l2 l3 l4 l5].
  change (ark_g1_is_inf (P1 x y (FP l0 l1 l2 l3 l4 l5))) with ((l0 =? 0) && (l1 =? 0) && (l2 =? 0) && (l3 =? 0) && (l4 =? 0) && (l5 =? 0)).
  rewrite (zero_words _ _ _ _ _ _ _ SZ). split; [exact J0|]. intros E. destruct (feqb Z f0) eqn:G; [apply feqb_spec in G; exact G|].
  apply feqb_false in G. rewrite (J1 G) in E. discriminate E.
Qed.
Theorem points_mul s (x : Fr) : represents s x ->
  (forall L a A, lib_ok p1_stands L -> p1_stands a A -> g1_subgroup A ->
     p1_stands (mcl_mul L a s) (point_zmul (val x) A) /\ p1_stands (ckzg_mul L a s) (point_zmul (val x) A)) /\
  (forall L a A, lib_ok p2_stands L -> p2_stands a A -> g2_subgroup A ->
     p2_stands (mcl_mul L a s) (point_zmul (val x) A) /\ p2_stands (ckzg_mul L a s) (point_zmul (val x) A)) /\
  (forall L a A, lib_ok ark_g1_stands L -> p1_stands a A -> g1_subgroup A -> p1_stands (ark_g1_mul L a s) (point_zmul (val x) A)) /\
  (forall L a A, lib_ok ark_g2_stands L -> p2_stands a A -> g2_subgroup A -> p2_stands (ark_g2_mul L a s) (point_zmul (val x) A)).
Proof.
  intros RX. split; [|split; [|split]].
  - intros L a A OK HA SA. pose proof (ok_mul _ _ OK _ _ _ _ HA (proj2 SA) RX) as G. exact (conj G G).
  - intros L a A OK HA SA. pose proof (ok_mul _ _ OK _ _ _ _ HA (proj2 SA) RX) as G. exact (conj G G).
  - intros L a A OK HA SA. exact (of_ark1 _ _ (ok_mul _ _ OK _ _ _ _ (to_ark1 _ _ HA) (proj2 SA) RX)).
  - intros L a A OK HA SA. exact (of_ark2 _ _ (ok_mul _ _ OK _ _ _ _ (to_ark2 _ _ HA) (proj2 SA) RX)).
Qed.

(** ** the receiver of [add_or_dbl] *)
Theorem receiver_kept : (forall T (L : point_lib T) a b, snd (fs_add_or_dbl L a b) = a /\ snd (mcl_add_or_dbl L a b) = a /\
    snd (ckzg_g1_add_or_dbl L a b) = a /\ snd (ckzg_g2_add_or_dbl L a b) = a).
Proof. intros T L a b. repeat split. Qed.
Lemma add_moves {K : fld} (bb : K) (H2 : fadd f1 f1 <> (f0 : K)) (NT : forall x : K, fadd (fmul (fmul x x) x) bb <> f0) P Q :
  on_curve bb P -> on_curve bb Q -> point_add P Q = P -> Q = Infinity.
Proof.
  intros CP CQ E. pose proof (point_neg_on_curve bb _ CP) as CN.
  assert (G : point_add (point_neg P) (point_add P Q) = Infinity) by (rewrite E, (point_add_comm bb H2 NT _ _ CN CP); apply point_add_neg_r).
  rewrite (point_add_assoc bb H2 NT _ _ _ CN CP CQ), (point_add_comm bb H2 NT _ _ CN CP), point_add_neg_r in G. exact G.
Qed.
Theorem ark_receiver1 L a b A B : lib_ok ark_g1_stands L -> p1_stands a A -> p1_stands b B ->
  let after := snd (ark_g1_add_or_dbl L a b) in
  p1_stands after (point_add A B) /\ (p1_stands after A <-> B = Infinity).
Proof.
  intros OK HA HB after. assert (S : p1_stands after (point_add A B)) by exact (of_ark1 _ _ (ok_add _ _ OK _ _ _ _ (to_ark1 _ _ HA) (to_ark1 _ _ HB))).
  split; [exact S|]. split.
  - intros G. exact (add_moves b4 Fp_two Fp_NoTwo _ _ (p1_on_curve _ _ HA) (p1_on_curve _ _ HB) (p1_unique _ _ _ S G)).
  - intros ->. rewrite point_add_0_r in S. exact S.
Qed.
Theorem ark_receiver2 L a b A B : lib_ok ark_g2_stands L -> p2_stands a A -> p2_stands b B ->
  let after := snd (ark_g2_add_or_dbl L a b) in
  p2_stands after (point_add A B) /\ (p2_stands after A <-> B = Infinity).
Proof.
  intros OK HA HB after. assert (S : p2_stands after (point_add A B)) by exact (of_ark2 _ _ (ok_add _ _ OK _ _ _ _ (to_ark2 _ _ HA) (to_ark2 _ _ HB))).
  split; [exact S|]. split.
  - intros G. exact (add_moves bq Fp2_two Fp2_NoTwo _ _ (p2_on_curve _ _ HA) (p2_on_curve _ _ HB) (p2_unique _ _ _ S G)).
  - intros ->. rewrite point_add_0_r in S. exact S.
Qed.

(** ** there are such libraries *)
Definition scalar_nat (s : scalar) : nat := Z.to_nat (bytes_val (to_bytes s)).
Lemma scalar_nat_ok s (x : Fr) : represents s x -> Z.of_nat (scalar_nat s) = val x.
Proof. intros R. unfold scalar_nat. rewrite (proj1 (proj2 (C42_encode_proof _ _ R))). apply Z2Nat.id. apply val_range. Qed.
Definition blst_lib1 : point_lib blst_p1 := hom_lib (F:=fp_ops) (fun a => let '(P1 x y z) := a in (x, y, z)) (fun t => let '(x, y, z) := t in P1 x y z) scalar_nat.
Definition blst_lib2 : point_lib blst_p2 := hom_lib (F:=fp2_ops) (fun a => let '(P2 x y z) := a in (x, y, z)) (fun t => let '(x, y, z) := t in P2 x y z) scalar_nat.
Definition ark_lib1 : point_lib ark_g1 := hom_lib (F:=fp_ops) (fun a => let '(ArkG1 (Fq x) (Fq y) (Fq z)) := a in (x, y, z)) (fun t => let '(x, y, z) := t in ArkG1 (Fq x) (Fq y) (Fq z)) scalar_nat.
Definition ark_lib2 : point_lib ark_g2 := hom_lib (F:=fp2_ops)
  (fun a => let '(ArkG2 (Fq2 (Fq x0) (Fq x1)) (Fq2 (Fq y0) (Fq y1)) (Fq2 (Fq z0) (Fq z1))) := a in (FP2 x0 x1, FP2 y0 y1, FP2 z0 z1))
  (fun t => let '(FP2 x0 x1, FP2 y0 y1, FP2 z0 z1) := t in ArkG2 (Fq2 (Fq x0) (Fq x1)) (Fq2 (Fq y0) (Fq y1)) (Fq2 (Fq z0) (Fq z1))) scalar_nat.
Theorem libs_exist : lib_ok p1_stands blst_lib1 /\ lib_ok p2_stands blst_lib2 /\ lib_ok ark_g1_stands ark_lib1 /\ lib_ok ark_g2_stands ark_lib2.
Proof.
  split; [|split; [|split]].
  - apply (hom_lib_ok fp_ops_ok Fp_two Fp_NoTwo); [| |exact scalar_nat_ok].
    + intros [x y z] P H. exact (proj1 (j1 _ _ _ _) H).
    + intros x y z P H. exact (proj2 (j1 _ _ _ _) H).
  - apply (hom_lib_ok fp2_ops_ok Fp2_two Fp2_NoTwo); [| |exact scalar_nat_ok].
    + intros [x y z] P H. exact (proj1 (j2 _ _ _ _) H).
    + intros x y z P H. exact (proj2 (j2 _ _ _ _) H).
  - apply (hom_lib_ok fp_ops_ok Fp_two Fp_NoTwo); [| |exact scalar_nat_ok].
    + intros [[x] [y] [z]] P H. exact (proj1 (j1 _ _ _ _) H).
    + intros x y z P H. exact (proj2 (j1 _ _ _ _) H).
  - apply (hom_lib_ok fp2_ops_ok Fp2_two Fp2_NoTwo); [| |exact scalar_nat_ok].
    + intros [[[x0] [x1]] [[y0] [y1]] [[z0] [z1]]] P H. exact (proj1 (j2 _ _ _ _) H).
    + intros [x0 x1] [y0 y1] [z0 z1] P H. exact (proj2 (j2 _ _ _ _) H).
Qed.
Lemma from_words_case : let one := FP 1 0 0 0 0 0 in
  exists u0 u1 n0 n1, limbs6 u0 n0 /\ limbs6 u1 n1 /\ limbs6 one 1 /\ n0 < p /\ n1 < p /\ 1 < p /\
    g1_on_curve (Affine (fp_of n0) (fp_of n1)) /\ jacobian (fp_of n0) (fp_of n1) (fp_of 1) (Affine (fp_of n0) (fp_of n1)).
Proof.
  set (W := fun m => FP (m mod 2 ^ 64) (m / 2 ^ 64 mod 2 ^ 64) (m / 2 ^ 128 mod 2 ^ 64) (m / 2 ^ 192 mod 2 ^ 64) (m / 2 ^ 256 mod 2 ^ 64) (m / 2 ^ 320 mod 2 ^ 64)).
  intros one. set (n0 := 0x17f1d3a73197d7942695638c4fa9ac0fc3688c4f9774b905a14e3a3f171bac586c55e83ff97a1aeffb3af00adb22c6bb).
  set (n1 := 0x08b3f481e3aaa0f1a09e30ed741d8ae4fcf5e095d5d00af600db18cb2c04b3edd03cc744a2888ae40caa232946c5e7e1).
  exists (W n0), (W n1), n0, n1. split; [apply words6_ok; vm_compute; split; congruence|]. split; [apply words6_ok; vm_compute; split; congruence|].
  split; [vm_compute; repeat split; congruence|]. split; [reflexivity|]. split; [reflexivity|]. split; [reflexivity|].
  split; [exact (p1_on_curve _ _ p1_gen)|]. rewrite Fp_of_1. split; [intros E; exfalso; exact (f1_neq_0 E)|].
  intros _. rewrite div_one_sq, div_one_cu, !div_one. reflexivity.
Qed.
Lemma points_case : (lib_ok p1_stands blst_lib1 /\ lib_ok p2_stands blst_lib2 /\ lib_ok ark_g1_stands ark_lib1 /\ lib_ok ark_g2_stands ark_lib2) /\
  (p1_stands ark_g1_generator g1_gen /\ g1_subgroup g1_gen /\ g1_gen <> Infinity) /\ (p2_stands ark_g2_generator g2_gen /\ g2_subgroup g2_gen /\ g2_gen <> Infinity) /\
  (exists s (x : Fr), represents s x /\ val x = 5) /\
  (exists u0 u1 n0 n1, limbs6 u0 n0 /\ limbs6 u1 n1 /\ limbs6 (FP 1 0 0 0 0 0) 1 /\ n0 < p /\ n1 < p /\ 1 < p /\
    g1_on_curve (Affine (fp_of n0) (fp_of n1)) /\ jacobian (fp_of n0) (fp_of n1) (fp_of 1) (Affine (fp_of n0) (fp_of n1))) /\
  (let m := 18446744073709551615 in limbs6 (FP m m m m m m) (2 ^ 384 - 1) /\ p <= 2 ^ 384 - 1).
Proof.
  split; [exact libs_exist|]. split; [split; [exact p1_gen|split; [exact (proj1 (proj2 (proj2 g1_generator_ok)))|discriminate]]|].
  split; [split; [exact p2_gen|split; [exact (proj1 (proj2 (proj2 g2_generator_ok)))|discriminate]]|].
  split; [destruct g1_mul_case as (s & x & RX & V & _); exists s, x; exact (conj RX V)|].
  split; [exact from_words_case|]. vm_compute. repeat split; congruence.
Qed.
