(** * Proof_ZkConv: conversions between the types of the zkcrypto backend and those of blst *)
From Coq Require Import ZArith List Bool Lia Field.
From Verif Require Import Base Fld Tables Zr Zp Spec_Scalar Model_Scalar Proof_Scalar Proof_Scalar2 Proof_Scalar5 Spec_Fp Model_Fp Proof_Fp Proof_FpRep Proof_FpTop Spec_Curve Proof_Curve
  Model_Curve Model_G1 Spec_CurveCode Spec_G1 Proof_G1Base Proof_G1Gen Proof_G1Top Model_ZkConv Spec_ZkConv.
Import ListNotations.
Local Open Scope Z_scope.

Lemma low_word l0 m : 0 <= l0 < 2 ^ 64 -> (l0 + 2 ^ 64 * m) mod 2 ^ 64 = l0.
Proof. intros B. rewrite Z.mul_comm, Z_mod_plus_full. apply Z.mod_small. exact B. Qed.
(** ** field arithmetic *)
Section Coordinates.
Context {K : fld} (b : K).
Add Field Kcv : (fld_field K).
Local Open Scope fld_scope.
Lemma point_of_scaled (X Y Z c : K) : c <> 0 -> point_of (X / c) (Y / c) (Z / c) = point_of X Y Z.
Proof.
  intros C. unfold point_of. destruct (feqb Z 0) eqn:E.
  - apply feqb_spec in E. subst Z. replace (0 / c) with (0 : K) by (field; exact C). rewrite (proj2 (feqb_spec _ _ _) eq_refl). reflexivity.
  - apply feqb_false in E. destruct (feqb (Z / c) 0) eqn:E'.
    + exfalso. apply E. apply feqb_spec in E'. transitivity (Z / c * c); [field; exact C|]. rewrite E'. ring.
    + replace (X / c / (Z / c)) with (X / Z) by (field; split; assumption). replace (Y / c / (Z / c)) with (Y / Z) by (field; split; assumption). reflexivity.
Qed.
Lemma projective_scaled (X Y Z c : K) : c <> 0 -> projective b X Y Z -> projective b (X / c) (Y / c) (Z / c).
Proof.
  intros C [E N]. split.
  - transitivity (Y * Y * Z / (c * c * c)); [field; exact C|]. rewrite E. field. exact C.
  - intros (A & B & D). apply N. assert (U : forall t, t / c = 0 -> t = 0) by (intros t H; transitivity (t / c * c); [field; exact C|rewrite H; ring]). auto.
Qed.
(** the homogeneous coordinates read as Jacobian ones, and conversely *)
Lemma square_one (Z : K) : Z * Z = 1 -> Z = 1 \/ Z = - (1).
Proof.
  intros E. assert (H : (Z - 1) * (Z + 1) = 0) by (transitivity (Z * Z - 1); [ring|rewrite E; ring]).
  apply fmul_eq_0 in H. destruct H as [H|H]; [left; transitivity (Z - 1 + 1); [ring|rewrite H; ring]|right; transitivity (Z + 1 - 1); [ring|rewrite H; ring]].
Qed.
Lemma factor_one (x c : K) : x * c = x -> c = 1 \/ x = 0.
Proof.
  intros E. assert (H : x * (c - 1) = 0) by (transitivity (x * c - x); [ring|rewrite E; ring]).
  apply fmul_eq_0 in H. destruct H as [H|H]; [right; exact H|left; transitivity (c - 1 + 1); [ring|rewrite H; ring]].
Qed.
Lemma minus_one_square : - (1) * - (1) = (1 : K). Proof. ring. Qed.
Lemma fixed_iff (x y Z : K) : y <> 0 -> (x * Z = x /\ y * (Z * Z) = y) <-> (Z = 1 \/ (x = 0 /\ Z = - (1))).
Proof.
  intros NY. split.
  - intros [A B]. apply factor_one in B. destruct B as [B|B]; [|exfalso; exact (NY B)]. apply square_one in B.
    destruct B as [B|B]; [left; exact B|]. apply factor_one in A. destruct A as [A|A]; [left; exact A|right; split; [exact A|exact B]].
  - intros [->|[-> ->]]; split; ring.
Qed.
Lemma fixed_inv (x y Z : K) : Z <> 0 -> (x / Z = x /\ y / (Z * Z) = y) <-> (x * Z = x /\ y * (Z * Z) = y).
Proof.
  intros NZ. assert (NZ2 : Z * Z <> 0) by (intros H; apply fmul_eq_0 in H; tauto).
  split; intros [A B]; split.
  - rewrite <- A at 1. field. exact NZ.
  - rewrite <- B at 1. field. exact NZ.
  - rewrite <- A at 1. field. exact NZ.
  - rewrite <- B at 1. field. exact NZ.
Qed.
Lemma homogeneous_as_jacobian (X Y Z : K) : Z <> 0 -> X / (Z * Z) = X / Z / Z /\ Y / (Z * Z * Z) = Y / Z / (Z * Z).
Proof. intros NZ. split; field; exact NZ. Qed.
Lemma jacobian_as_homogeneous (X Y Z : K) : Z <> 0 -> X / Z = X / (Z * Z) * Z /\ Y / Z = Y / (Z * Z * Z) * (Z * Z).
Proof. intros NZ. split; field; exact NZ. Qed.
Lemma jacobian_projective (x y X Y Z : K) : Z <> 0 -> y * y = x * x * x + b -> x = X / Z -> y = Y / Z -> projective b X Y Z.
Proof.
  intros NZ E EX EY. split; [|intros (_ & _ & H); exact (NZ H)].
  assert (X = x * Z) by (rewrite EX; field; exact NZ). assert (Y = y * Z) by (rewrite EY; field; exact NZ). subst X Y.
  transitivity (y * y * (Z * Z * Z)); [ring|]. rewrite E. ring.
Qed.
Lemma divide_not (x c : K) : c <> 0 -> c <> 1 -> x <> 0 -> x / c <> x.
Proof.
  intros C0 C1 X H. assert (E : x * c = x) by (rewrite <- H at 1; field; exact C0).
  apply factor_one in E. tauto.
Qed.
Lemma zero_product (y : K) : 0 * y = 0. Proof. ring. Qed.
Lemma zero_quotient (y : K) : y <> 0 -> 0 / y = 0. Proof. intros H. field. exact H. Qed.
Lemma affine_inj (x y x' y' : K) : Affine x y = Affine x' y' -> x = x' /\ y = y'.
Proof. intros H. injection H. auto. Qed.
Lemma affine_eq (x y x' y' : K) : x = x' -> y = y' -> Affine x y = Affine x' y'.
Proof. intros -> ->. reflexivity. Qed.
Lemma point_of_inf (X Y Z : K) : point_of X Y Z = Infinity -> Z = 0.
Proof. unfold point_of. destruct (feqb Z 0) eqn:E; [intros _; apply feqb_spec; exact E|discriminate]. Qed.
Lemma point_of_aff (X Y Z x y : K) : point_of X Y Z = Affine x y -> Z <> 0 /\ x = X / Z /\ y = Y / Z.
Proof. unfold point_of. destruct (feqb Z 0) eqn:E; [discriminate|]. apply feqb_false in E. intros H. apply affine_inj in H. destruct H as [A B]. repeat split; auto. Qed.
Lemma point_of_intro (X Y Z x y : K) : Z <> 0 -> x = X / Z -> y = Y / Z -> point_of X Y Z = Affine x y.
Proof. intros N -> ->. unfold point_of. destruct (feqb Z 0) eqn:E; [apply feqb_spec in E; contradiction|reflexivity]. Qed.
Lemma scaled_point (X Y Z : K) : Z <> 0 -> Y * Y = X * X * X + b -> projective b (X * Z) (Y * Z) Z /\ point_of (X * Z) (Y * Z) Z = Affine X Y.
Proof.
  intros NZ C. assert (EX : X = X * Z / Z) by (field; exact NZ). assert (EY : Y = Y * Z / Z) by (field; exact NZ). split.
  - exact (jacobian_projective X Y _ _ Z NZ C EX EY).
  - exact (point_of_intro _ _ _ _ _ NZ EX EY).
Qed.
End Coordinates.

(** ** scalars and polynomials *)
Lemma head_rel {A B} (R : A -> B -> Prop) a b l m : Forall2 R (a :: l) (b :: m) -> R a b.
Proof. intros H. inversion H. assumption. Qed.
Theorem conv_scalar s (x : Fr) : represents s x -> represents (zk_fr_into_blst_fr s) x /\ represents (blst_fr_into_zk_fr s) x /\
  blst_fr_into_zk_fr (zk_fr_into_blst_fr s) = s /\ zk_fr_into_blst_fr (blst_fr_into_zk_fr s) = s.
Proof.
  intros R. assert (B : represents (blst_fr_into_zk_fr s) x).
  { unfold blst_fr_into_zk_fr, blst_uint64_from_fr. pose proof (C49_reduce_proof s x R) as L. destruct (reduce s) as [l0 l1 l2 l3].
    pose proof (proj1 (C42_words_proof _ _ _ _ _ L)) as H. rewrite fr_of_val in H. exact H. }
  destruct (proj2 C41_representation_proof x) as (t & _ & U). pose proof (U _ B) as E1. pose proof (U _ R) as E2.
  split; [exact R|]. split; [exact B|]. unfold zk_fr_into_blst_fr. split; congruence.
Qed.
Theorem conv_poly_to l (xs : list Fr) : Forall2 represents l xs -> Forall2 represents (pc_poly_into_blst_poly l) xs.
Proof. unfold pc_poly_into_blst_poly. rewrite map_id. auto. Qed.
Theorem conv_poly_from l (xs : list Fr) : Forall2 represents l xs ->
  Forall2 represents (blst_poly_into_zk_poly l) (map (fun x => fr_of (((val x * 2 ^ 256) mod r) mod 2 ^ 64)) xs).
Proof.
  induction 1 as [|s x l xs R F IH]; cbn [blst_poly_into_zk_poly map]; constructor; [|exact IH].
  destruct s as [l0 l1 l2 l3]. unfold represents in R. pose proof (proj2 (C42_words_proof _ _ _ _ _ R)) as H.
  set (n := ((val x * 2 ^ 256) mod r)%Z) in *. clearbody n. destruct R as (B0 & _ & _ & _ & E).
  replace (n mod 2 ^ 64) with l0; [exact H|]. rewrite E. cbn [limbs_val]. symmetry. apply low_word. exact B0.
Qed.
Theorem conv_poly_from_refuted : exists l (xs : list Fr), Forall2 represents l xs /\ ~ Forall2 represents (blst_poly_into_zk_poly l) xs.
Proof.
  destruct (proj2 C41_representation_proof f0) as (s0 & R0 & _).
  assert (R1 : represents one f1) by exact (proj1 (proj2 (proj2 (proj2 (proj2 (proj2 (proj2 (proj2 (C41_operations_proof _ _ _ _ R0 R0))))))))).
  exists [one], [f1]. split; [constructor; [exact R1|constructor]|]. intros H. pose proof (head_rel _ _ _ _ _ H) as A.
  pose proof (proj2 (C41_operations_proof _ _ _ _ A R1)) as E.
  apply proj2, proj2, proj2, proj2, proj2, proj2, proj2 in E. pose proof (proj2 E eq_refl) as Q. vm_compute in Q. discriminate Q.
Qed.

(** ** base field *)
Lemma two384 : fp_of (2 ^ 384) = RP. Proof. reflexivity. Qed.
Theorem conv_fp s (x : Fp) : stands_for s x -> stands_for (zk_fp_into_blst_fp s) x /\ stands_for (blst_fp_into_zk_fp s) (fdiv x (fp_of (2 ^ 384))).
Proof.
  intros S. split; [exact S|]. apply stands_for_frep in S. destruct s as [a0 a1 a2 a3 a4 a5].
  destruct (fp_reduce_spec _ _ _ _ _ _ _ S) as [C V]. unfold blst_fp_into_zk_fp, blst_uint64_from_fp.
  pose proof (fcanonical_frep _ C) as F. rewrite V, fp_of_pval in F. rewrite two384. exact (proj2 (stands_for_frep _ _) F).
Qed.
Lemma R_not_one : RP <> f1.
Proof. intros H. apply (f_equal pval) in H. vm_compute in H. discriminate H. Qed.
Theorem conv_fp_refuted s (x : Fp) : stands_for s x -> x <> f0 -> ~ stands_for (blst_fp_into_zk_fp s) x.
Proof.
  intros S N H. pose proof (proj2 (conv_fp s x S)) as A. apply (divide_not (K:=Fp) x (fp_of (2 ^ 384))).
  - rewrite two384. exact RP_neq_0.
  - rewrite two384. exact R_not_one.
  - exact N.
  - exact (proj1 (proj2 fp_one_to_one) _ _ _ A H).
Qed.

(** ** points *)
Lemma ordinate (x y : Fp) : on_curve b4 (Affine x y) -> y <> f0.
Proof. intros C H. apply (Fp_NoTwo x). rewrite <- C, H. apply (zero_product (K:=Fp)). Qed.
Theorem conv_g1_to x y z P (Z : Fp) : g1_stands (Proj x y z) P -> stands_for z Z ->
  (P = Infinity -> p1_stands (zk_g1projective_into_blst_p1 (Proj x y z)) P) /\
  (forall X Y, P = Affine X Y -> (p1_stands (zk_g1projective_into_blst_p1 (Proj x y z)) P <-> Z = f1 \/ (X = f0 /\ Z = fneg f1))).
Proof.
  intros S SZ. pose proof (proj1 (proj2 g1_stands_total) _ _ S) as C. destruct S as (X0 & Y0 & Z0 & SX & SY & SZ0 & PR & E).
  assert (EZ : Z0 = Z) by exact (proj1 (proj2 fp_one_to_one) _ _ _ SZ0 SZ). rewrite EZ in *. clear EZ SZ0 Z0. split.
  - intros ->. split; [exact I|]. exists X0, Y0, Z. split; [exact SX|]. split; [exact SY|]. split; [exact SZ|].
    apply point_of_inf in E. split; [reflexivity|]. intros N. elim (N E).
  - intros X Y ->. apply point_of_aff in E. destruct E as (NZ & EX & EY). pose proof (ordinate X Y C) as NY.
    destruct (homogeneous_as_jacobian (K:=Fp) X0 Y0 Z NZ) as [J1 J2]. rewrite <- EX in J1. rewrite <- EY in J2.
    rewrite <- (fixed_iff (K:=Fp) X Y Z NY), <- (fixed_inv (K:=Fp) X Y Z NZ). split.
    + intros (_ & X1 & Y1 & Z1 & S1 & S2 & S3 & J). 
      assert (E1 : X1 = X0) by exact (proj1 (proj2 fp_one_to_one) _ _ _ S1 SX). assert (E2 : Y1 = Y0) by exact (proj1 (proj2 fp_one_to_one) _ _ _ S2 SY).
      assert (E3 : Z1 = Z) by exact (proj1 (proj2 fp_one_to_one) _ _ _ S3 SZ). rewrite E1, E2, E3 in J.
      pose proof (proj2 J NZ) as Q. apply affine_inj in Q. rewrite J1, J2 in Q. destruct Q as [Q1 Q2]. split; [symmetry; exact Q1|symmetry; exact Q2].
    + intros [Q1 Q2]. split; [exact C|]. exists X0, Y0, Z. split; [exact SX|]. split; [exact SY|]. split; [exact SZ|]. split; [intros H; elim (NZ H)|].
      intros _. rewrite J1, J2. apply affine_eq; symmetry; assumption.
Qed.
Theorem conv_g1_from x y z P (Z : Fp) : p1_stands (P1 x y z) P -> stands_for z Z ->
  (P = Infinity -> proj_is_identity (blst_p1_into_zk_g1projective (P1 x y z)) = true) /\
  (forall X Y, P = Affine X Y -> (g1_stands (blst_p1_into_zk_g1projective (P1 x y z)) P <-> Z = f1 \/ (X = f0 /\ Z = fneg f1))).
Proof.
  intros (C & X0 & Y0 & Z0 & SX & SY & SZ0 & J) SZ.
  assert (EZ : Z0 = Z) by exact (proj1 (proj2 fp_one_to_one) _ _ _ SZ0 SZ). rewrite EZ in *. clear EZ SZ0 Z0.
  pose proof (proj2 (conv_fp _ _ SX)) as TX. pose proof (proj2 (conv_fp _ _ SY)) as TY. pose proof (proj2 (conv_fp _ _ SZ)) as TZ. rewrite two384 in *.
  assert (DZ : Z = f0 \/ Z <> f0) by (destruct (feqb Z f0) eqn:D; [left; apply feqb_spec; exact D|right; apply feqb_false; exact D]).
  split.
  - intros EP. destruct DZ as [D|D]; [|exfalso; pose proof (proj2 J D) as Q; rewrite EP in Q; discriminate Q].
    cbn [blst_p1_into_zk_g1projective proj_is_identity]. apply (proj2 (fp_equality _ _ _ _ TZ TZ)). rewrite D. apply (zero_quotient (K:=Fp)). exact RP_neq_0.
  - intros X Y ->. destruct DZ as [D|NZ]; [exfalso; pose proof (proj1 J D) as Q; discriminate Q|].
    pose proof (proj2 J NZ) as Q. apply affine_inj in Q. destruct Q as [EX EY]. pose proof (ordinate X Y C) as NY.
    destruct (jacobian_as_homogeneous (K:=Fp) X0 Y0 Z NZ) as [J1 J2]. rewrite <- EX in J1. rewrite <- EY in J2.
    rewrite <- (fixed_iff (K:=Fp) X Y Z NY). split.
    + intros (X1 & Y1 & Z1 & S1 & S2 & S3 & _ & E).
      assert (E1 : X1 = fdiv X0 RP) by exact (proj1 (proj2 fp_one_to_one) _ _ _ S1 TX). assert (E2 : Y1 = fdiv Y0 RP) by exact (proj1 (proj2 fp_one_to_one) _ _ _ S2 TY).
      assert (E3 : Z1 = fdiv Z RP) by exact (proj1 (proj2 fp_one_to_one) _ _ _ S3 TZ). rewrite E1, E2, E3 in E.
      rewrite (point_of_scaled (K:=Fp) X0 Y0 Z RP RP_neq_0) in E. apply point_of_aff in E. destruct E as (_ & A & B). split.
      * exact (eq_sym (eq_trans A J1)).
      * exact (eq_sym (eq_trans B J2)).
    + intros [Q1 Q2]. exists (fdiv X0 RP), (fdiv Y0 RP), (fdiv Z RP). split; [exact TX|]. split; [exact TY|]. split; [exact TZ|]. split.
      * apply (projective_scaled (K:=Fp) b4 X0 Y0 Z RP RP_neq_0). apply (jacobian_projective (K:=Fp) b4 X Y X0 Y0 Z NZ C).
        -- exact (eq_sym (eq_trans J1 Q1)).
        -- exact (eq_sym (eq_trans J2 Q2)).
      * rewrite (point_of_scaled (K:=Fp) X0 Y0 Z RP RP_neq_0). apply (point_of_intro (K:=Fp)); [exact NZ| |].
        -- exact (eq_sym (eq_trans J1 Q1)).
        -- exact (eq_sym (eq_trans J2 Q2)).
Qed.
Theorem conv_g1_roundtrip q P : g1_stands q P -> g1_stands (blst_p1_into_zk_g1projective (zk_g1projective_into_blst_p1 q)) P.
Proof.
  destruct q as [x y z]. intros (X & Y & Z & SX & SY & SZ & PR & E).
  pose proof (proj2 (conv_fp _ _ SX)) as TX. pose proof (proj2 (conv_fp _ _ SY)) as TY. pose proof (proj2 (conv_fp _ _ SZ)) as TZ. rewrite two384 in *.
  exists (fdiv X RP), (fdiv Y RP), (fdiv Z RP). split; [exact TX|]. split; [exact TY|]. split; [exact TZ|]. split.
  - exact (projective_scaled (K:=Fp) b4 X Y Z RP RP_neq_0 PR).
  - rewrite (point_of_scaled (K:=Fp) X Y Z RP RP_neq_0). exact E.
Qed.

(** ** cases *)
Lemma conv_cases : (exists s, represents s (fr_of 5)) /\ (exists s, stands_for s (fp_of 5)) /\
  (exists x y z Z, g1_stands (Proj x y z) g1_gen /\ stands_for z Z /\ Z <> f1 /\ Z <> fneg f1).
Proof.
  split; [destruct (proj2 C41_representation_proof (fr_of 5)) as (s & R & _); exists s; exact R|].
  split; [exact (proj1 fp_one_to_one (fp_of 5))|].
  assert (SG : exists X Y, g1_gen = Affine X Y /\ on_curve b4 (Affine X Y)) by (do 2 eexists; split; [reflexivity|exact (proj1 (proj1 (proj2 (proj2 g1_generator_ok))))]).
  destruct SG as (X & Y & EG & C). set (Z := fp_of 2).
  assert (NZ : Z <> f0) by (intros H; apply (f_equal pval) in H; vm_compute in H; discriminate H).
  destruct (proj1 fp_one_to_one (fmul X Z)) as [x SX]. destruct (proj1 fp_one_to_one (fmul Y Z)) as [y SY]. destruct (proj1 fp_one_to_one Z) as [z SZ].
  exists x, y, z, Z. split; [|split; [exact SZ|split; intros H; apply (f_equal pval) in H; vm_compute in H; discriminate H]].
  exists (fmul X Z), (fmul Y Z), Z. split; [exact SX|]. split; [exact SY|]. split; [exact SZ|].
  destruct (scaled_point (K:=Fp) b4 X Y Z NZ C) as [A B]. split; [exact A|]. rewrite EG. exact B.
Qed.
