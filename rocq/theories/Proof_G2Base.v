(** * Proof_G2Base: the curve y^2 = x^3 + 4(1 + u) over the quadratic extension *)
From Coq Require Import ZArith List Bool Lia Ring Field.
From Verif Require Import Base Fld Zp Spec_Fp Spec_Curve Model_Fp Model_Curve Model_Fp2 Model_G2
  Proof_FpRep Proof_FpTop Proof_G1Base Spec_CurveCode Proof_Curve Proof_CurveCode Proof_CurveMul Power Tower Ext Spec_Ext Proof_Fp2 Proof_Fp6 Proof_Fp12 Spec_G2.
Import ListNotations.
Local Open Scope Z_scope.

Section Alg.
Context {K : fld}.
Add Field Kg2 : (fld_field K).
Local Open Scope fld_scope.
(** -4(1+u) = (1+u)^5, so a cube root of it gives one of 1 + u *)
Lemma fifth_cube (s b x : K) : s <> 0 -> b = - (s * s * s * s * s) -> x * x * x + b = 0 ->
  exists y, y * y * y = s.
Proof.
  intros N B H. assert (E : x * x * x = s * s * s * s * s).
  { transitivity (x * x * x + b - b); [ring|]. rewrite H, B. ring. }
  assert (X : x <> 0).
  { intros ->. assert (Z : s * (s * (s * (s * s))) = 0) by (transitivity (s * s * s * s * s); [ring|rewrite <- E; ring]).
    repeat (apply mul_zero in Z; destruct Z as [Z|Z]; [exact (N Z)|]). exact (N Z). }
  exists (s * s / x). transitivity (s * s * s * s * s * s / (x * x * x)); [field; exact X|]. rewrite E. field. exact N.
Qed.
Lemma mul_3b_gen (b x : K) : x * (b + b + b) = (1 + 1 + 1) * b * x. Proof. ring. Qed.
Context (ND : forall x : K, x * x <> - (1)).
Local Notation Q := (quad_fld (- (1)) ND).
Add Field Qg2 : (fld_field Q).
Lemma xi_fifth : (Quad (1 + 1 + 1 + 1) (1 + 1 + 1 + 1) : Q)
  = - ((Quad 1 1 : Q) * (Quad 1 1 : Q) * (Quad 1 1 : Q) * (Quad 1 1 : Q) * (Quad 1 1 : Q)).
Proof.
  change (@Quad K (1 + 1 + 1 + 1) (1 + 1 + 1 + 1) = quad_neg (quad_mul (- (1)) (quad_mul (- (1)) (quad_mul (- (1)) (quad_mul (- (1)) (@Quad K 1 1) (Quad 1 1)) (Quad 1 1)) (Quad 1 1)) (Quad 1 1))).
  unfold quad_neg, quad_mul. cbn [q0 q1]. apply (f_equal2 Quad); ring.
Qed.
Lemma quad_two : (1 + 1 : K) <> 0 -> (1 + 1 : Q) <> 0.
Proof. intros N E. apply N. exact (f_equal (fun x : quad K => q0 x) E). Qed.
Lemma quad_three : (1 + 1 + 1 : K) <> 0 -> (1 + 1 + 1 : Q) <> 0.
Proof. intros N E. apply N. exact (f_equal (fun x : quad K => q0 x) E). Qed.
Lemma quad_one_one : (Quad 1 1 : Q) <> 0.
Proof. intros E. apply (@f1_neq_0 K). exact (f_equal (fun x : quad K => q0 x) E). Qed.
End Alg.

Lemma b4_sum : b4 = fadd (fadd (fadd f1 f1) f1) f1.
Proof. unfold b4. change 4 with (1 + 1 + 1 + 1). rewrite !fp_of_add, Fp_of_1. reflexivity. Qed.
Definition bq : Fp2 := g2_b.
Lemma bq_xi : bq = fneg (fmul (fmul (fmul (fmul xi xi) xi) xi) xi).
Proof.
  unfold bq, g2_b. fold b4. rewrite b4_sum. exact (xi_fifth (K:=Fp) Fp_minus_one).
Qed.
Lemma Fp2_two : (fadd f1 f1 : Fp2) <> f0.
Proof. exact (quad_two (K:=Fp) Fp_minus_one Fp_two). Qed.
Lemma Fp2_three : (fadd (fadd f1 f1) f1 : Fp2) <> f0.
Proof.
  apply (quad_three (K:=Fp) Fp_minus_one). rewrite <- Fp_of_1, <- !fp_of_add, <- Fp_of_0. apply fp_of_neq. vm_compute. reflexivity.
Qed.
Lemma Fp2_NoTwo (x : Fp2) : fadd (fmul (fmul x x) x) bq <> f0.
Proof.
  intros H. destruct (fifth_cube xi bq x (quad_one_one (K:=Fp) Fp_minus_one) bq_xi H) as [y E]. exact (xi_noncube y E).
Qed.

Lemma rep2_B : rep2 g2_B bq.
Proof.
  split; cbn [g2_B fp2_c0 fp2_c1]; apply stands_for_frep; apply stands_for_lit; vm_compute; repeat split; congruence.
Qed.
Lemma fp2_ops_ok : fops_ok fp2_ops Fp2 bq rep2.
Proof.
  split.
  - exact rep2_unique.
  - exact rep2_zero.
  - exact rep2_one.
  - exact rep2_add.
  - exact rep2_sub.
  - exact rep2_neg.
  - exact rep2_mul.
  - exact rep2_square.
  - exact rep2_eq.
  - exact rep2_is_zero.
  - exact rep2_invert.
  - intros s x H. change (fo_mul_by_3b (s : fp2_ops)) with (fp2_mul s g2_B3).
    eapply rep2_to; [exact (mul_3b_gen (K:=Fp2) bq x)|].
    apply rep2_mul; [exact H|]. unfold g2_B3. apply rep2_add; [apply rep2_add|]; exact rep2_B.
  - exact rep2_B.
Qed.
Notation pstands2 := (proj_stands (F:=fp2_ops) bq rep2).
Notation astands2 := (aff_stands (F:=fp2_ops) bq rep2).
Definition A2_ := point_add_assoc bq Fp2_two Fp2_NoTwo.
Definition C2_ := point_add_comm bq Fp2_two Fp2_NoTwo.
Definition ON2_ := point_add_on_curve bq Fp2_two Fp2_NoTwo.
Definition NON2_ := point_neg_on_curve bq.
Definition G2_ZADD := pt_zmul_add (b:=bq) Fp2_two Fp2_NoTwo.
Definition G2_ZMUL := pt_zmul_mul (b:=bq) Fp2_two Fp2_NoTwo.
Definition G2_ZOPP := pt_zmul_opp (b:=bq) Fp2_two Fp2_NoTwo.
Definition G2_ZON := zmul_on_curve (b:=bq) Fp2_two Fp2_NoTwo.
Definition G2_ONE := pt_zmul_1 (b:=bq).
Definition G2_INF := pt_zmul_inf (b:=bq) Fp2_two Fp2_NoTwo.
Definition G2_NEGR := pt_zmul_neg_r (b:=bq) Fp2_two Fp2_NoTwo.
Definition G2_ZADDR := pt_zmul_add_r (b:=bq) Fp2_two Fp2_NoTwo.
