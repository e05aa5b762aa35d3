(** * Proof_G1Thm: scalar multiplication in the subgroup and the subgroup test *)
From Coq Require Import ZArith List Bool Lia.
From Verif Require Import Base Fld Zr Zp Spec_Scalar Model_Scalar Proof_Scalar Proof_Scalar2 Spec_Fp Spec_Curve Model_Fp Model_Curve Model_G1
  Proof_FpRep Proof_FpTop Spec_CurveCode Proof_Curve Proof_CurveCode Proof_CurveMul Proof_Endo Proof_G1Base Proof_GLV Proof_Recode
  Proof_G1Mul Proof_Chain Proof_G1Gen Proof_G1Sub Proof_G1Total.
Import ListNotations.
Local Open Scope Z_scope.

Definition inr (P : point Fp) : Prop := on_curve b4 P /\ point_zmul r P = Infinity.
Lemma inr_phi P : inr P -> phi P = point_zmul glv_lambda P.
Proof. intros [C O]. apply subgroup_eigen; assumption. Qed.
Lemma comb_inr P a c : inr P -> comb P a c = point_zmul (a + c * glv_lambda) P.
Proof.
  intros H. unfold comb. rewrite (inr_phi P H). destruct H as [C _].
  rewrite <- G1_ZMUL by exact C. rewrite <- G1_ZADD by exact C. reflexivity.
Qed.
Theorem multiply_in checked p P by_ k : pstands p P -> inr P -> is_bytes 32 by_ -> bytes_val by_ = k -> k < 2 ^ 255 ->
  glv_carry k = false -> exists q, g1_multiply checked p by_ = Ok q /\ pstands q (point_zmul k P).
Proof.
  intros H I B V L NC. destruct (g1_multiply_ok checked p P by_ k H B V L NC) as (q & E & S).
  exists q. split; [exact E|]. rewrite (comb_inr P _ _ I) in S.
  replace (k - glv_h k * glv_lambda + glv_h k * glv_lambda) with k in S by ring. exact S.
Qed.

(** ** the unchecked build at a scalar where the rounding carries *)
Definition bad_k : Z := 2 ^ 64 * glv_lambda - 1.
Lemma bad_carry : glv_carry bad_k = true.
Proof. vm_compute. reflexivity. Qed.
Theorem multiply_bad p by_ : pstands p G1gen -> is_bytes 32 by_ -> bytes_val by_ = bad_k ->
  exists q n, g1_multiply false p by_ = Ok q /\ pstands q (point_zmul n G1gen) /\ (n - bad_k) mod r <> 0.
Proof.
  intros H B V.
  assert (H0 : glv_h' bad_k = 0) by (vm_compute; reflexivity).
  pose proof (glv_recoding_ok false by_ bad_k B V ltac:(reflexivity)) as G.
  rewrite H0 in G. rewrite andb_false_r in G.
  destruct G as (s1 & k1 & k2 & G & B1 & B2 & V2 & SG); [lia|reflexivity|].
  replace (bad_k - 0 * glv_lambda) with bad_k in SG by ring.
  destruct SG as [(-> & V1) | (_ & V1)].
  - destruct (g1_multiply_gen false p G1gen by_ 0 k1 k2 H G B1 B2 (or_introl eq_refl)) as (q & E & S).
    rewrite V1, V2 in S. exists q, (half_mul bad_k). split; [exact E|]. split.
    + change (sgn 0 * half_mul bad_k) with (1 * half_mul bad_k) in S. rewrite Z.mul_1_l in S.
      replace (half_mul 0) with 0 in S by (vm_compute; reflexivity). rewrite comb_P in S. exact S.
    + vm_compute. discriminate.
  - exfalso. assert (0 <= bytes_val k1) by (apply bytes_val_nonneg; apply B1). assert (0 < bad_k) by reflexivity. lia.
Qed.
Lemma gen_zmul_inj m n : point_zmul m G1gen = point_zmul n G1gen -> (m - n) mod r = 0.
Proof.
  intros E. apply (pt_zmul_prime_order (b:=b4) Fp_two Fp_NoTwo r (m - n) G1gen G1gen_on r_prime gen_order); [|exact G1gen_finite].
  rewrite zmul_sub by exact G1gen_on. rewrite E. apply point_add_neg_r.
Qed.

(** ** outside the subgroup: the point (0, 2) of order 3 *)
Definition P3 : point Fp := apt 0 2.
Lemma P3_on : on_curve b4 P3.
Proof. apply apt_on. vm_compute. reflexivity. Qed.
Lemma P3_phi : phi P3 = P3.
Proof. unfold P3, apt, endo. f_equal. Qed.
Lemma P3_double : point_add P3 P3 = point_neg P3.
Proof.
  unfold P3, apt. rewrite (double_slope _ _ (fp_of 0)).
  - unfold third. cbn [point_neg]. rewrite <- fp_of_neg, <- fp_of_mul, <- !fp_of_sub, <- fp_of_mul, <- fp_of_sub. f_equal.
  - rewrite <- Fp_of_1, <- fp_of_add, <- fp_of_mul, <- Fp_of_0. apply fp_of_neq. vm_compute. reflexivity.
  - rewrite <- Fp_of_1, <- !fp_of_add, <- !fp_of_mul. f_equal.
Qed.
Lemma P3_order n : point_zmul (3 * n) P3 = Infinity.
Proof.
  rewrite Z.mul_comm, G1_ZMUL by exact P3_on. change 3 with (1 + 1 + 1). rewrite !G1_ZADD, !G1_ONE by exact P3_on.
  rewrite P3_double. rewrite C_ by (try apply NON_; exact P3_on). rewrite point_add_neg_r.
  apply (pt_zmul_inf (b:=b4) Fp_two Fp_NoTwo).
Qed.
Theorem multiply_outside checked p by_ : pstands p P3 -> is_bytes 32 by_ -> bytes_val by_ = glv_lambda ->
  (exists q, g1_multiply checked p by_ = Ok q /\ pstands q P3) /\ point_zmul glv_lambda P3 = Infinity /\ P3 <> Infinity.
Proof.
  intros H B V. split; [|split].
  - destruct (g1_multiply_ok checked p P3 by_ glv_lambda H B V ltac:(reflexivity) ltac:(vm_compute; reflexivity)) as (q & E & S).
    exists q. split; [exact E|]. replace (glv_h glv_lambda) with 1 in S by (vm_compute; reflexivity).
    replace (glv_lambda - 1 * glv_lambda) with 0 in S by ring. rewrite comb_phi, P3_phi, G1_ONE in S by exact P3_on. exact S.
  - change glv_lambda with (3 * (glv_lambda / 3)). apply P3_order.
  - discriminate.
Qed.

(** ** the subgroup test *)
Lemma r_bytes : is_bytes 32 FQ_MODULUS_BYTES /\ bytes_val FQ_MODULUS_BYTES = r.
Proof. split; [split; [reflexivity|]|vm_compute; reflexivity]. repeat constructor; discriminate. Qed.
Lemma r_glv : glv_carry r = false /\ glv_h r = glv_lambda.
Proof. split; vm_compute; reflexivity. Qed.
Theorem torsion_free_ok checked q P : astands q P ->
  exists t, g1_is_torsion_free checked q = Ok t /\ (t = true <-> point_zmul r P = Infinity).
Proof.
  intros H. pose proof (aff_stands_on_curve _ _ H) as C. apply (Proof_CurveCode.proj_from_aff_ok fp_ops_ok) in H.
  destruct r_bytes as [B V]. destruct r_glv as [NC GH].
  destruct (g1_multiply_ok checked _ P _ r H B V ltac:(reflexivity) NC) as (q' & E & S).
  unfold g1_is_torsion_free. rewrite E. cbn [bind]. exists (proj_is_identity q'). split; [reflexivity|].
  rewrite (proj_is_identity_ok fp_ops_ok q' _ S). rewrite GH.
  replace (r - glv_lambda * glv_lambda) with (glv_lambda + 1) by (rewrite <- r_lambda; ring).
  unfold comb. rewrite <- subgroup_eigen by exact C.
  apply (eigen_test (b:=b4) Fp_two Fp_three Fp_NoTwo beta beta_root glv_lambda P C).
Qed.
(** on any coordinates it returns *)
Theorem torsion_free_total checked x y i X Y : frep x X -> frep y Y ->
  exists t, g1_is_torsion_free checked (@Aff fp_ops x y i) = Ok t.
Proof.
  intros RX RY. destruct r_bytes as [B V]. destruct r_glv as [NC GH].
  pose proof (glv_recoding_ok checked _ r B V ltac:(reflexivity)) as G. unfold glv_h' in G. rewrite NC in G. cbn [andb] in G.
  rewrite GH in G. destruct G as (s1 & k1 & k2 & G & B1 & B2 & _); [discriminate|reflexivity|].
  destruct (g1_multiply_total checked (proj_from_aff (@Aff fp_ops x y i)) FQ_MODULUS_BYTES s1 k1 k2) as (q & E); [|exact G|exact B1|exact B2|].
  - cbn [proj_from_aff pwf]. split; [exists X; exact RX|]. split; [exists Y; exact RY|].
    destruct i; cbn [select]; [apply (cwf_zero fp_ops_ok)|apply (cwf_one fp_ops_ok)].
  - unfold g1_is_torsion_free. rewrite E. cbn [bind]. eexists. reflexivity.
Qed.
(** ** clearing the cofactor multiplies by 1 + |x| *)
Theorem clear_cofactor_ok p P : pstands p P -> pstands (g1_clear_cofactor p) (point_zmul (1 + BLS_X) P).
Proof.
  intros H. pose proof (proj_stands_on_curve _ _ H) as C. unfold g1_clear_cofactor.
  pose proof (proj_mul_by_x_ok fp_ops_ok Fp_two Fp_NoTwo p P H) as M.
  pose proof (proj_sub_ok fp_ops_ok Fp_two Fp_NoTwo _ _ _ _ H M) as S.
  rewrite G1_ZADD, G1_ONE by exact C. rewrite <- G1_ZOPP in S by exact C. exact S.
Qed.
