(** * Proof_Gt: the operations of the target group *)
From Coq Require Import ZArith List Bool Lia Ring Field.
From Verif Require Import Base Fld Tables Zr Group Zp Spec_Fp Spec_Scalar Model_Scalar Proof_Scalar Proof_Scalar2 Model_Fp Proof_FpRep Proof_FpTop Proof_G1Base Model_Curve Model_Fp2 Model_Fp12 Model_Pair Spec_Ext Proof_Fp2 Proof_Fp6 Proof_Fp12 Proof_ExtTop Proof_G1Top Proof_G2Enc Power Tower Ext Proof_Cyclo Proof_FinalExp Spec_Pair.
Import ListNotations.
Local Open Scope Z_scope.

Section Mem.
Context {K : fld}.
Add Field Kmem : (fld_field K).
Lemma root_nonzero (x : K) n : 0 < n -> zpow x n = f1 -> x <> f0.
Proof. intros N E X. subst x. rewrite zpow_0_l in E by exact N. apply (@f1_neq_0 K). symmetry. exact E. Qed.
Lemma root_mul (x y : K) n : zpow x n = f1 -> zpow y n = f1 -> zpow (fmul x y) n = f1.
Proof. intros X Y. rewrite zpow_mul_base, X, Y. ring. Qed.
Lemma root_inv (x : K) n : zpow x n = f1 -> zpow (finv x) n = f1.
Proof. intros X. rewrite zpow_inv, X. apply finv1. Qed.
Lemma root_multiple (x : K) n m : x <> f0 -> zpow x n = f1 -> zpow x (n * m) = f1.
Proof. intros N X. rewrite zpow_mul by exact N. rewrite X. apply zpow_1_l. Qed.
Lemma zpow_mod (x : K) n m : x <> f0 -> zpow x n = f1 -> n <> 0 -> zpow x (m mod n) = zpow x m.
Proof.
  intros X E N. rewrite (Z.div_mod m n N) at 2. rewrite zpow_add by exact X. rewrite (root_multiple x n (m / n) X E). ring.
Qed.
Lemma one_l (x : K) : fmul f1 x = x. Proof. ring. Qed.
Lemma inv_l_unit (x : K) : x <> f0 -> fmul x (finv x) = f1. Proof. intros X. field. exact X. Qed.
Lemma fold_mul (l : list K) : forall a, fold_left fmul l a = fmul a (fold_left fmul l f1).
Proof.
  induction l as [|x l IH]; intros a; cbn [fold_left]; [ring|]. rewrite IH, (IH (fmul f1 x)). ring.
Qed.
End Mem.
Lemma r_pos : 0 < r. Proof. reflexivity. Qed.
Lemma gt_nonzero x : gt_member x -> x <> f0.
Proof. exact (root_nonzero (K:=Fp12) x r r_pos). Qed.
Lemma gt_cyc x : gt_member x -> cyc x.
Proof.
  intros G. pose proof (gt_nonzero x G) as X. split; [exact X|]. rewrite <- (proj1 r_divides). exact (root_multiple (K:=Fp12) x r _ X G).
Qed.
Lemma final_member (x : Fp12) : x <> f0 -> gt_member (zpow x final_exponent).
Proof.
  intros X. unfold gt_member. rewrite <- zpow_mul by exact X. rewrite Z.mul_comm, final_exponent_r, Z.mul_comm.
  apply (root_multiple (K:=Fp12)); [exact X|]. apply Fp12_fermat, X.
Qed.
Lemma gt_fold a (x : Fp12) bits : r12 a x -> forall acc n, 0 <= n -> r12 acc (zpow x n) ->
  r12 (fold_left (fun acc (bit : bool) => let acc := gt_double acc in fp12_select acc (gt_add acc a) bit) bits acc) (zpow x (msb_val n bits)).
Proof.
  intros A. induction bits as [|b bits IH]; intros acc n N H; [exact H|]. cbn [fold_left msb_val]. apply IH; [destruct b; lia|].
  pose proof (r12_square _ _ H) as S. pose proof (r12_mul _ _ _ _ S A) as M.
  refine (r12_to _ _ _ (r12_select _ _ _ _ b S M) _). destruct b.
  - rewrite (zpow_add_nn (K:=Fp12)) by lia. rewrite (zpow_1 (K:=Fp12)). replace (2 * n) with (n + n) by ring. rewrite (zpow_add_nn (K:=Fp12)) by lia. reflexivity.
  - replace (2 * n + 0) with (n + n) by ring. rewrite (zpow_add_nn (K:=Fp12)) by lia. reflexivity.
Qed.
Lemma gt_mul_ok a (x : Fp12) s (k : Fr) : r12 a x -> represents s k -> r12 (gt_mul a s) (zpow x (val k)).
Proof.
  intros A S. unfold gt_mul. destruct (scalar_bytes s k S) as [B V].
  refine (r12_to _ _ _ (gt_fold a x _ A gt_identity 0 (Z.le_refl 0) (r12_to _ _ _ r12_one (eq_sym (zpow_0 x)))) _).
  rewrite (skip_first _ B), V. rewrite Z.mod_small; [reflexivity|]. pose proof (val_range k). split; [apply H|].
  apply Z.lt_trans with r; [apply H|reflexivity].
Qed.
