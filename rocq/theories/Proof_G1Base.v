(** * Proof_G1Base: the curve y^2 = x^3 + 4 over the base field *)
From Coq Require Import ZArith List Bool Lia Znumtheory Zpow_facts Ring Field.
From Verif Require Import Base Fld Fermat Zp Spec_Fp Spec_Curve Model_Fp Model_Curve Model_G1
  Proof_Fp Proof_FpRep Proof_FpTop Spec_CurveCode Proof_Curve Proof_CurveCode.
Import ListNotations.
Local Open Scope Z_scope.

Section Alg.
Context {K : fld}.
Add Field Kbase : (fld_field K).
Local Open Scope fld_scope.
Lemma sum_zero_neg (u v : K) : u + v = 0 -> u = - v.
Proof. intros H. replace u with (u + v - v) by ring. rewrite H. ring. Qed.
Lemma minus_four_cube (x : K) : (1 + 1 : K) <> 0 -> x * x * x + (1 + 1 + 1 + 1) = 0 ->
  let y := x * x * finv (1 + 1) in y * y * y = 1 + 1.
Proof.
  intros N H y. apply sum_zero_neg in H. unfold y.
  replace (x * x * finv (1 + 1) * (x * x * finv (1 + 1)) * (x * x * finv (1 + 1)))
    with (x * x * x * (x * x * x) * (finv (1 + 1) * finv (1 + 1) * finv (1 + 1))) by ring.
  rewrite H. field. exact N.
Qed.
Lemma zero_scale (w : K) : 0 * w = 0. Proof. ring. Qed.
Lemma scale_comm (x w : K) : w * x = x * w. Proof. ring. Qed.
Lemma zero_cube : (0 : K) * 0 * 0 = 0. Proof. ring. Qed.
Lemma twelve (x : K) : x + x + (x + x) + (x + x + (x + x)) + (x + x + (x + x)) = (1 + 1 + 1) * (1 + 1 + 1 + 1) * x.
Proof. ring. Qed.
End Alg.

Definition b4 : Fp := fp_of 4.

Lemma Fp_of_1 : (fp_of 1 : Fp) = f1. Proof. reflexivity. Qed.
Lemma Fp_of_0 : (fp_of 0 : Fp) = f0. Proof. reflexivity. Qed.

(** distinct small integers are distinct field elements *)
Lemma fp_of_neq a b : (a mod p =? b mod p) = false -> fp_of a <> fp_of b.
Proof.
  intros H E. apply (f_equal pval) in E. rewrite !pval_fp_of in E. rewrite E, Z.eqb_refl in H. discriminate.
Qed.

Lemma Fp_two : (fadd f1 f1 : Fp) <> f0.
Proof. rewrite <- Fp_of_1, <- fp_of_add, <- Fp_of_0. apply fp_of_neq. vm_compute. reflexivity. Qed.

Lemma Fp_cube_power (x : Fp) e : 0 <= e -> Fp_pow (fmul (fmul x x) x) e = Fp_pow x (3 * e).
Proof.
  intros He. rewrite !Fp_pow_mul by assumption. rewrite <- !Fp_pow_add by lia. f_equal. lia.
Qed.

Lemma Fp_pow_powmod a e : 0 <= e -> Fp_pow (fp_of a) e = fp_of (powmod a e p).
Proof.
  intros He. pose proof p_pos as P. unfold Fp_pow. rewrite pval_fp_of, powmod_spec by assumption.
  rewrite fp_of_mod. apply fp_of_eq. symmetry. apply Zpower_mod. exact P.
Qed.

Lemma p_third_ok : 3 * p_third = p - 1 /\ 0 <= p_third.
Proof. split; vm_compute; congruence. Qed.
(** 2 is not a cube *)
Lemma two_not_cube (x : Fp) : fmul (fmul x x) x <> fp_of 2.
Proof.
  intros E. pose proof p_third_ok as [T P].
  assert (N : x <> f0).
  { intros ->. rewrite zero_cube in E.
    rewrite <- Fp_of_0 in E. revert E. apply fp_of_neq. vm_compute. reflexivity. }
  pose proof (Fp_cube_power x p_third P) as G.
  rewrite T, Fp_pow_fermat in G by exact N. rewrite E in G.
  rewrite (Fp_pow_powmod _ _ P), two_third in G. rewrite <- Fp_of_1 in G.
  revert G. apply fp_of_neq. vm_compute. reflexivity.
Qed.
(** no point of order two: if -4 = x^3 then 2 = (x^2 / 2)^3 *)
Lemma Fp_NoTwo (x : Fp) : fadd (fmul (fmul x x) x) b4 <> f0.
Proof.
  intros H. apply (two_not_cube (fmul (fmul x x) (finv (fadd f1 f1)))).
  change (fp_of 2) with (fp_of (1 + 1)). rewrite fp_of_add, Fp_of_1.
  apply minus_four_cube; [exact Fp_two|]. rewrite <- Fp_of_1, <- !fp_of_add. exact H.
Qed.

Lemma fp_ops_ok : fops_ok fp_ops Fp b4 frep.
Proof.
  split.
  - exact frep_unique.
  - exact frep_zero.
  - exact frep_one.
  - exact frep_add.
  - exact frep_sub.
  - exact frep_neg.
  - exact frep_mul.
  - exact frep_square.
  - exact fp_eq_feqb.
  - exact fp_is_zero_feqb.
  - intros s x H. destruct (fp_invert_spec s x H) as [A B].
    change (fo_invert (s : fp_ops)) with (fp_invert s).
    destruct (fdec x f0) as [E|E].
    + rewrite (A E). exact E.
    + destruct (B E) as (t & -> & T). exact (conj E T).
  - intros s x H. change (fo_mul_by_3b (s : fp_ops)) with (g1_mul_by_3b s). unfold g1_mul_by_3b.
    replace (fmul (fmul (fadd (fadd f1 f1) f1) b4) x)
      with (fadd (fadd (fadd (fadd x x) (fadd x x)) (fadd (fadd x x) (fadd x x))) (fadd (fadd x x) (fadd x x))).
    + repeat (apply frep_add); exact H.
    + unfold b4. change 4 with (1 + 1 + 1 + 1). rewrite !fp_of_add, Fp_of_1. apply twelve.
  - apply stands_for_frep. apply stands_for_lit. vm_compute. repeat split; congruence.
Qed.
