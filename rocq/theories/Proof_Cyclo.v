(** * Proof_Cyclo: even powers of the Frobenius map *)
From Coq Require Import ZArith List Bool Lia Ring Field.
From Verif Require Import Base Fld Tables Zp Spec_Fp Model_Scalar Model_Fp Proof_FpRep Proof_FpTop Proof_G1Base Power Tower Ext Model_Fp2 Model_Fp12 Spec_Ext Proof_Fp2 Proof_Fp6 Proof_Fp12.
Import ListNotations.
Local Open Scope Z_scope.

Lemma two_sixth_root : fadd (fsub (fmul two_sixth two_sixth) two_sixth) f1 = f0.
Proof.
  unfold two_sixth. rewrite <- Fp_of_1, <- fp_of_mul, <- fp_of_sub, <- fp_of_add, <- Fp_of_0. apply fp_of_eq. vm_compute. reflexivity.
Qed.
Section Norms.
Context {K : fld} (ND : forall x : K, fmul x x <> fneg f1).
Add Field Kno : (fld_field K).
Local Open Scope fld_scope.
Notation Q := (quad_fld (- (1) : K) ND).
Lemma norm_real (t : K) : (Quad t (- t) : Q) * (Quad t (- - t) : Q) = (Quad ((1 + 1) * (t * t)) 0 : Q).
Proof. cbn. unfold quad_mul. cbn [q0 q1]. apply (f_equal2 Quad); ring. Qed.
Lemma norm_imag (t : K) : (Quad 0 (- t) : Q) * (Quad 0 (- - t) : Q) = (Quad (t * t) 0 : Q).
Proof. cbn. unfold quad_mul. cbn [q0 q1]. apply (f_equal2 Quad); ring. Qed.
Lemma norm_neg (t : K) : (Quad (- t) 0 : Q) * (Quad (- t) (- 0) : Q) = (Quad (t * t) 0 : Q).
Proof. cbn. unfold quad_mul. cbn [q0 q1]. apply (f_equal2 Quad); ring. Qed.
Lemma six_pow2 (t : K) : t * t - t + 1 = 0 -> t * t = t - 1.
Proof. intros H. apply fsub_eq_0. transitivity (t * t - t + 1); [ring|exact H]. Qed.
Lemma six_pow3 (t : K) : t * t - t + 1 = 0 -> t * (t * t) = - (1).
Proof. intros H. apply six_pow2 in H. rewrite H. transitivity (t * t - t); [ring|]. rewrite H. ring. Qed.
End Norms.

Section Sigma.
Context {K : fld} (xi : K) (NX : forall x : K, fmul (fmul x x) x <> xi).
Notation C := (cubic_fld xi NX).
Context (ND : forall x : C, fmul x x <> cubic_root xi NX).
Notation Q := (quad_fld (cubic_root xi NX : C) ND).
Add Field Ksig : (fld_field K).
Local Open Scope fld_scope.
(** multiply the coefficient of w^i by z^i *)
Definition sig6 (z : K) (x : C) : C := Cubic (k0 x) (z * z * k1 x) (z * z * (z * z) * k2 x).
Definition sig (z : K) (x : Q) : Q := Quad (sig6 z (q0 x)) (@fmul C (cubic_of z) (sig6 z (q1 x))).
Lemma sig_sig z y x : sig z (sig y x) = sig (z * y) x.
Proof.
  destruct x as [[a0 a1 a2] [b0 b1 b2]]. unfold sig. cbn [q0 q1].
  apply (f_equal2 Quad); cbn; unfold sig6, cubic_mul, cubic_of; cbn [k0 k1 k2]; apply (f_equal3 Cubic); ring.
Qed.
Lemma sig_m1 x : sig (- (1)) x = (quad_conj x : Q).
Proof.
  destruct x as [[a0 a1 a2] [b0 b1 b2]]. unfold sig, quad_conj. cbn [q0 q1].
  apply (f_equal2 Quad); cbn; unfold sig6, cubic_mul, cubic_of, cubic_neg; cbn [k0 k1 k2]; apply (f_equal3 Cubic); ring.
Qed.
Lemma sig_1 x : sig 1 x = x.
Proof.
  destruct x as [[a0 a1 a2] [b0 b1 b2]]. unfold sig. cbn [q0 q1].
  apply (f_equal2 Quad); cbn; unfold sig6, cubic_mul, cubic_of; cbn [k0 k1 k2]; apply (f_equal3 Cubic); ring.
Qed.
Context (conj : K -> K) (Cm : forall x y, conj (x * y) = conj x * conj y) (Cc : forall x, conj (conj x) = x).
Context (C0 : conj 0 = 0) (Ca : forall x y, conj (x + y) = conj x + conj y) (Cxi : xi <> 0).
Context (g g2 g4 z : K) (Hg : g * conj g = z) (Hg2 : g2 * conj g2 = z * z) (Hg4 : g4 * conj g4 = z * z * (z * z)).
Definition fr6 (x : C) : C := Cubic (conj (k0 x)) (g2 * conj (k1 x)) (g4 * conj (k2 x)).
Definition fr12 (x : Q) : Q := Quad (fr6 (q0 x)) (@fmul C (cubic_of g) (fr6 (q1 x))).
Lemma fr6_twice x : fr6 (fr6 x) = sig6 z x.
Proof.
  destruct x as [a0 a1 a2]. unfold fr6, sig6. cbn [k0 k1 k2]. rewrite !Cm, !Cc, <- Hg4, <- Hg2. apply (f_equal3 Cubic); ring.
Qed.
Lemma scale6 (y : K) (x : C) : @fmul C (cubic_of y) x = Cubic (y * k0 x) (y * k1 x) (y * k2 x).
Proof. destruct x as [a0 a1 a2]. cbn. unfold cubic_mul, cubic_of. cbn [k0 k1 k2]. apply (f_equal3 Cubic); ring. Qed.
Lemma fr6_scale y x : fr6 (@fmul C (cubic_of y) x) = @fmul C (cubic_of (conj y)) (fr6 x).
Proof. rewrite !scale6. unfold fr6. cbn [k0 k1 k2]. rewrite !Cm. apply (f_equal3 Cubic); ring. Qed.
Lemma fr12_twice x : fr12 (fr12 x) = sig z x.
Proof.
  unfold fr12, sig. cbn [q0 q1]. rewrite fr6_scale, !fr6_twice. apply (f_equal2 Quad); [reflexivity|].
  rewrite !scale6. unfold sig6. cbn [k0 k1 k2]. rewrite <- Hg. apply (f_equal3 Cubic); ring.
Qed.
End Sigma.

Definition z6 : Fp2 := Fp2_of two_sixth.
Definition sigma : Fp2 -> Fp12 -> Fp12 := sig xi xi_noncube v_nonsquare.
Section Z6.
Context {K : fld} (ND : forall x : K, fmul x x <> fneg f1).
Add Field Kz6 : (fld_field K).
Local Open Scope fld_scope.
Notation Q := (quad_fld (- (1) : K) ND).
Lemma real_root (t : K) : t * t - t + 1 = 0 -> (Quad t 0 : Q) * (Quad t 0 : Q) - (Quad t 0 : Q) + 1 = (0 : Q).
Proof.
  intros H. cbn. unfold quad_mul, quad_sub, quad_add. cbn [q0 q1]. apply (f_equal2 Quad).
  - transitivity (t * t - t + 1); [ring|exact H].
  - ring.
Qed.
End Z6.
Lemma z6_root : fadd (fsub (fmul z6 z6) z6) f1 = f0.
Proof. exact (real_root Fp_minus_one two_sixth two_sixth_root). Qed.
Lemma gamma_norm : fmul gamma (Fp2_conj gamma) = z6.
Proof.
  refine (eq_trans (norm_real Fp_minus_one two_twelfth) _). exact (f_equal (fun t => Quad t (f0 : Fp)) two_twelfth_square).
Qed.
Lemma z6_square : fmul z6 z6 = Quad (fmul two_sixth two_sixth) (f0 : Fp).
Proof. exact (real_mul_real Fp_minus_one two_sixth two_sixth). Qed.
Lemma gamma2_norm : fmul gamma2 (Fp2_conj gamma2) = fmul z6 z6.
Proof. rewrite z6_square. exact (norm_imag Fp_minus_one two_sixth). Qed.
Lemma gamma4_norm : fmul gamma4 (Fp2_conj gamma4) = fmul (fmul z6 z6) (fmul z6 z6).
Proof.
  rewrite z6_square. refine (eq_trans (norm_neg Fp_minus_one (fmul two_sixth two_sixth)) _).
  exact (eq_sym (real_mul_real Fp_minus_one (fmul two_sixth two_sixth) (fmul two_sixth two_sixth))).
Qed.
Lemma Fp12_pow_p2 (x : Fp12) : zpow x (p ^ 2) = sigma z6 x.
Proof.
  rewrite Z.pow_2_r, zpow_mul_nn by (vm_compute; congruence). rewrite !Fp12_frobenius.
  exact (fr12_twice xi xi_noncube v_nonsquare Fp2_conj Fp2_conj_mul Fp2_conj_conj gamma gamma2 gamma4 z6 gamma_norm gamma2_norm gamma4_norm x).
Qed.
Lemma Fp12_pow_p4 (x : Fp12) : zpow x (p ^ 4) = sigma (fmul z6 z6) x.
Proof.
  replace (p ^ 4) with (p ^ 2 * p ^ 2) by (rewrite <- Z.pow_add_r by lia; reflexivity).
  rewrite zpow_mul_nn by (apply Z.pow_nonneg; vm_compute; congruence). rewrite !Fp12_pow_p2. exact (sig_sig xi xi_noncube v_nonsquare z6 z6 x).
Qed.
Lemma Fp12_pow_p6 (x : Fp12) : zpow x (p ^ 6) = Fp12_conj x.
Proof.
  replace (p ^ 6) with (p ^ 4 * p ^ 2) by (rewrite <- Z.pow_add_r by lia; reflexivity).
  rewrite zpow_mul_nn by (apply Z.pow_nonneg; vm_compute; congruence). rewrite Fp12_pow_p4, Fp12_pow_p2.
  refine (eq_trans (sig_sig xi xi_noncube v_nonsquare z6 (fmul z6 z6) x) _).
  rewrite (six_pow3 (z6 : Fp2) z6_root). exact (sig_m1 xi xi_noncube v_nonsquare x).
Qed.
Lemma Fp12_conj_conj (x : Fp12) : Fp12_conj (Fp12_conj x) = x.
Proof. exact (quad_conj_conj x). Qed.
Lemma Fp12_pow_p12 (x : Fp12) : zpow x (p ^ 12) = x.
Proof.
  replace (p ^ 12) with (p ^ 6 * p ^ 6) by (rewrite <- Z.pow_add_r by lia; reflexivity).
  rewrite zpow_mul_nn by (apply Z.pow_nonneg; vm_compute; congruence). rewrite !Fp12_pow_p6. apply Fp12_conj_conj.
Qed.
