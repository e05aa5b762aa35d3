(** * Proof_ExtCases: instances of the statements about the tower of fields *)
From Coq Require Import ZArith List Bool Lia Ring Field.
From Verif Require Import Base Fld Tables Zp Spec_Scalar Spec_Fp Model_Scalar Model_Fp Proof_FpRep Proof_FpTop Proof_G1Base Power Tower Ext Model_Fp2 Model_Fp12 Spec_Ext Proof_Fp2 Proof_Fp6 Proof_Fp12 Proof_Cyclo Proof_ExtTop.
Import ListNotations.
Local Open Scope Z_scope.

Lemma fp12_conjugation a (x : Fp12) : stands_for12 a x -> stands_for12 (fp12_conjugate a) (zpow x (p ^ 6)).
Proof. rewrite !stands_for12_rep, Fp12_pow_p6. exact (r12_conj a x). Qed.

Section Gen.
Context {K : fld}.
Add Field Kcs : (fld_field K).
Local Open Scope fld_scope.
Lemma K_one : (1 : K) <> 0. Proof. exact (F_1_neq_0 (fld_th K)). Qed.
Lemma neg_add (x : K) : - (1) + 1 = (0 : K). Proof. ring. Qed.
Lemma neg_self_two (x : K) : - x = x -> (1 + 1) * x = 0.
Proof. intros H. transitivity (x + x); [ring|]. rewrite <- H at 1. ring. Qed.
Lemma fneg_involutive (x : K) : - - x = x. Proof. ring. Qed.
Lemma fneg_0 : - (0 : K) = 0. Proof. ring. Qed.
Lemma one_square : (1 : K) * 1 = 1. Proof. ring. Qed.
End Gen.
Lemma Fp_one_neq : (f1 : Fp) <> f0. Proof. exact K_one. Qed.
Lemma fp2_arith_case : exists a (x : Fp2), stands_for2 a x /\ x <> f0 /\ fmul x x = fneg f1 /\
  fp2_eq (fp2_mul a a) (fp2_neg fp2_one) = true /\ fp2_is_zero (fp2_add (fp2_square a) fp2_one) = true.
Proof.
  exists (FP2 fp_zero fp_one), Fp2_u.
  assert (A : stands_for2 (FP2 fp_zero fp_one) Fp2_u) by exact (conj (proj1 fp_constants) (proj2 fp_constants)).
  split; [exact A|]. split; [intros E; exact (Fp_one_neq (f_equal (fun x : Fp2 => q1 x) E))|]. split; [exact Fp2_u_square|].
  apply stands_for2_rep in A. split.
  - rewrite (rep2_eq _ _ _ _ (rep2_mul _ _ _ _ A A) (rep2_neg _ _ rep2_one)). apply feqb_spec. exact Fp2_u_square.
  - rewrite (rep2_is_zero _ _ (rep2_add _ _ _ _ (rep2_square _ _ A) rep2_one)). apply feqb_spec. rewrite Fp2_u_square. exact (neg_add (K:=Fp2) f0).
Qed.
Lemma Fp2_lt_total (x : Fp2) : x <> f0 -> Fp2_lt (fneg x) x \/ Fp2_lt (fneg (fneg x)) (fneg x).
Proof.
  destruct x as [x0 x1]. intros N. unfold Fp2_lt. cbn [q0 q1].
  change (q1 (fneg (Quad x0 x1 : Fp2))) with (fneg x1). change (q0 (fneg (Quad x0 x1 : Fp2))) with (fneg x0).
  change (q1 (fneg (fneg (Quad x0 x1 : Fp2)))) with (fneg (fneg x1)). change (q0 (fneg (fneg (Quad x0 x1 : Fp2)))) with (fneg (fneg x0)).
  rewrite (fneg_involutive x0), (fneg_involutive x1).
  destruct (Z.lt_trichotomy (pval (fneg x1)) (pval x1)) as [L|[E|G]]; [left; left; exact L| |right; left; exact G].
  assert (Z1 : x1 = f0) by (apply pval_neg_same; exact E). subst x1.
  destruct (Z.lt_trichotomy (pval (fneg x0)) (pval x0)) as [L|[E0|G]].
  - left. right. split; [apply pval_inj; exact E|exact L].
  - contradiction N. rewrite (proj1 (pval_neg_same x0) E0). reflexivity.
  - right. right. split; [apply pval_inj; symmetry; exact E|exact G].
Qed.
Lemma fp2_root_cases : (exists a (y : Fp2), stands_for2 a y /\ exists x, fmul x x = y /\ x <> f0) /\
  (exists a (y : Fp2), stands_for2 a y /\ ~ exists x, fmul x x = y) /\
  (exists a (x : Fp2), stands_for2 a x /\ Fp2_lt (fneg x) x) /\ (exists a (x : Fp2), stands_for2 a x /\ ~ Fp2_lt (fneg x) x).
Proof.
  split; [|split; [|split]].
  - destruct (stands_for2_exists (fneg f1)) as [a A]. exists a, (fneg f1). split; [exact A|]. exists Fp2_u. split; [exact Fp2_u_square|].
    intros E; exact (Fp_one_neq (f_equal (fun x : Fp2 => q1 x) E)).
  - destruct (stands_for2_exists xi) as [a A]. exists a, xi. split; [exact A|]. intros [x E]. exact (xi_nonsquare x E).
  - destruct (Fp2_lt_total f1 (K_one (K:=Fp2))) as [L|L].
    + destruct (stands_for2_exists f1) as [a A]. exists a, f1. split; [exact A|exact L].
    + destruct (stands_for2_exists (fneg f1)) as [a A]. exists a, (fneg f1). split; [exact A|exact L].
  - exists fp2_zero, f0. split; [exact (proj2 (stands_for2_rep _ _) rep2_zero)|].
    assert (E : fneg (f0 : Fp) = f0) by exact (fneg_0 (K:=Fp)).
    intros [L|[_ L]].
    + change (pval (fneg (f0 : Fp)) < pval (f0 : Fp)) in L. rewrite E in L. lia.
    + change (pval (fneg (f0 : Fp)) < pval (f0 : Fp)) in L. rewrite E in L. lia.
Qed.
Lemma ext_arith_cases : (exists a (x : Fp6), stands_for6 a x /\ x <> f0 /\ x <> f1 /\ fmul (fmul x x) x = Fp6_of xi) /\
  (exists a (x : Fp12), stands_for12 a x /\ x <> f0 /\ x <> f1 /\ fmul x x = Fp12_of Fp6_v).
Proof.
  split.
  - destruct (stands_for6_exists Fp6_v) as [a A]. exists a, Fp6_v. split; [exact A|]. split; [|split; [|exact v_cube]].
    + intros E. exact (K_one (K:=Fp2) (f_equal (fun x : Fp6 => k1 x) E)).
    + intros E. exact (K_one (K:=Fp2) (f_equal (fun x : Fp6 => k1 x) E)).
  - destruct (stands_for12_exists Fp12_w) as [a A]. exists a, Fp12_w. split; [exact A|]. split; [|split; [|exact w_square]].
    + intros E. exact (K_one (K:=Fp6) (f_equal (fun x : Fp12 => q1 x) E)).
    + intros E. exact (K_one (K:=Fp6) (f_equal (fun x : Fp12 => q1 x) E)).
Qed.
Lemma ext_frobenius_cases : (exists x : Fp2, zpow x p <> x) /\ (exists x : Fp12, zpow x (p ^ 6) <> x).
Proof.
  split.
  - exists Fp2_u. rewrite Fp2_frobenius. intros E.
    assert (F : fneg (f1 : Fp) = f1) by exact (f_equal (fun x : Fp2 => q1 x) E).
    exact (Fp_minus_one_not_one F).
  - exists Fp12_w. rewrite Fp12_pow_p6. intros E.
    assert (F : fneg (f1 : Fp) = f1) by exact (f_equal (fun x : Fp12 => q0 (k0 (q1 x))) E).
    exact (Fp_minus_one_not_one F).
Qed.
