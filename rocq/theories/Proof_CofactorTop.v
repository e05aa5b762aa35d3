(** * Proof_CofactorTop: the cofactors, in terms of the specification *)
From Coq Require Import ZArith List Bool Lia Znumtheory.
From Verif Require Import Base Fld Zr Zp Spec_Fp Spec_Curve Model_Fp Model_Curve Model_G1 Model_Fp2 Model_G2 Spec_CurveCode Proof_CurveCode
  Proof_Curve Proof_CurveMul Proof_Endo Proof_Twist Proof_G1Base Proof_GLV Proof_G1Mul Proof_G1Gen Proof_G1Sub Spec_G1 Proof_G1Thm Proof_G1Top
  Proof_Subgroups Proof_Cofactor Power Tower Ext Spec_Ext Proof_Fp2 Spec_G2 Proof_G2Base Proof_G2Psi Proof_G2Sub Proof_G2Top Proof_PsiLin
  Proof_Cofactor2 Spec_Cofactor.
Import ListNotations.
Local Open Scope Z_scope.

Section Count.
Context {K : fld} {b : K} (H2 : fadd f1 f1 <> (f0 : K)) (NoTwo : forall x : K, fadd (fmul (fmul x x) x) b <> f0).
Lemma counted_sub (H : point K -> Prop) n e (A : point K -> Prop) : sub (b:=b) H n e -> (forall P, A P <-> H P) -> counted n A.
Proof.
  intros S E. destruct (sub_enum _ _ _ S) as (f & F & J & T). exists f. split; [|split].
  - intros i I. apply E, F, I.
  - exact J.
  - intros P HP. apply T, E, HP.
Qed.
Lemma counted_gen G q : prime q -> on_curve b G -> point_zmul q G = Infinity -> G <> Infinity ->
  counted q (fun P => exists k, P = point_zmul k G).
Proof.
  intros PR CG OG NG. pose proof (prime_ge_2 _ PR) as Q2. exists (fun i => point_zmul i G). split; [|split].
  - intros i _. exists i. reflexivity.
  - intros i j I J E. apply (mod_range_eq q); [lia|lia|].
    apply (pt_zmul_prime_order (b:=b) H2 NoTwo q _ G CG PR OG); [|exact NG].
    rewrite (zmul_sub' (b:=b) H2 NoTwo) by exact CG. rewrite E. apply point_add_neg_r.
  - intros P (k & ->). exists (k mod q). split; [apply Z.mod_pos_bound; lia|].
    apply (pt_zmul_mod (b:=b) H2 NoTwo); [exact CG|lia|exact OG].
Qed.
Lemma counted_iff n (A B : point K -> Prop) : (forall P, A P <-> B P) -> counted n A -> counted n B.
Proof.
  intros E (f & F & J & T). exists f. split; [intros i I; apply E, F, I|]. split; [exact J|]. intros P HP. apply T, E, HP.
Qed.
End Count.

(** ** the first group *)
Lemma g1_cofactor_eq : g1_cofactor = cofactor.
Proof. vm_compute. reflexivity. Qed.
Theorem g1_counts : counted (p - bls_x) g1_on_curve /\ counted r g1_subgroup /\ p - bls_x = g1_cofactor * r.
Proof.
  assert (E : p - bls_x = g1_cofactor * r) by (vm_compute; reflexivity).
  split; [|split; [|exact E]].
  - rewrite E, g1_cofactor_eq. apply (counted_sub _ _ _ _ whole_sub). intros P. split; [exact (whole_all P)|].
    intros W. exact (sub_on _ _ _ whole_sub P W).
  - apply (counted_iff _ (fun P => exists k, P = point_zmul k G1gen)).
    + intros P. split.
      * intros (k & ->). split; [apply G1_ZON, G1gen_on|]. rewrite <- G1_ZMUL by exact G1gen_on.
        rewrite Z.mul_comm, G1_ZMUL, gen_order by exact G1gen_on. apply (pt_zmul_inf (b:=b4) Fp_two Fp_NoTwo).
      * intros H. destruct (proj1 (g1_subgroup_generated P) H) as (k & _ & E1). exists k. exact E1.
    + apply (counted_gen Fp_two Fp_NoTwo G1gen r r_prime G1gen_on gen_order). discriminate.
Qed.
Lemma one_minus : 1 - bls_x = 1 + BLS_X.
Proof. reflexivity. Qed.
Theorem g1_clearing q P : g1_stands q P -> g1_stands (g1_clear_cofactor q) (g1_clear P) /\ g1_subgroup (g1_clear P).
Proof.
  intros H. apply Proof_G1Top.pst in H. pose proof (proj_stands_on_curve _ _ H) as C. unfold g1_clear. rewrite one_minus. split.
  - apply Proof_G1Top.pst. exact (clear_cofactor_ok q P H).
  - exact (clear1_image P C).
Qed.
Theorem g1_cleared checked q P : g1_stands q P ->
  g1_is_torsion_free checked (aff_from_proj (g1_clear_cofactor q)) = Ok true.
Proof.
  intros H. destruct (g1_clearing q P H) as [A B]. apply Proof_G1Top.pst in A. pose proof (aff_from_proj_ok fp_ops_ok _ _ A) as D.
  apply Proof_G1Top.ast in D. destruct (g1_torsion_test checked _ _ D) as (t & E & T). rewrite E. f_equal. apply T. exact B.
Qed.
Theorem g1_fibres Q : g1_subgroup Q -> counted g1_cofactor (fun P => g1_on_curve P /\ g1_clear P = Q).
Proof.
  intros [C O]. rewrite g1_cofactor_eq. destruct (clear1_fibre Q C O) as (g & A & J & T). exists g. split; [|split].
  - intros i I. unfold g1_clear. rewrite one_minus. exact (A i I).
  - exact J.
  - unfold g1_clear. rewrite one_minus. intros P [CP E]. exact (T P CP E).
Qed.

(** ** the second group *)
Lemma g2_clear_eq P : g2_on_curve P -> g2_clear P = clear2 P.
Proof.
  intros C. unfold g2_clear. rewrite <- (clear2_code P C).
  assert (E : forall R, g2_psi_pt (g2_psi_pt R) = psi (psi R)).
  { intros R. transitivity (psi (g2_psi_pt R)); [apply psi_spec|exact (f_equal psi (psi_spec R))]. }
  rewrite (E (point_add P P)), (psi_spec P). reflexivity.
Qed.
Lemma g2_cofactor_eq : g2_cofactor = cofactor2.
Proof. reflexivity. Qed.
Theorem g2_counts : counted (g2_cofactor * r) g2_on_curve /\ counted r g2_subgroup.
Proof.
  split.
  - rewrite g2_cofactor_eq. apply (counted_sub _ _ _ _ whole2_sub). intros P. split; [exact (whole2_all P)|].
    intros W. exact (sub_on _ _ _ whole2_sub P W).
  - apply (counted_iff _ (fun P => exists k, P = point_zmul k G2gen)).
    + intros P. split.
      * intros (k & ->). split; [apply G2_ZON, G2gen_on|]. rewrite <- G2_ZMUL by exact G2gen_on.
        rewrite Z.mul_comm, G2_ZMUL, gen2_order by exact G2gen_on. apply G2_INF.
      * intros [C O]. destruct (g2_multiples P C O) as (k & _ & E1). exists k. exact E1.
    + exact (counted_gen Fp2_two Fp2_NoTwo G2gen r r_prime G2gen_on gen2_order G2gen_finite).
Qed.
Theorem g2_clearing q P : g2_stands q P -> g2_stands (g2_clear_cofactor q) (g2_clear P) /\ g2_subgroup (g2_clear P).
Proof.
  intros H. split; [exact (proj2 (proj2 (g2_psi_code q P H)))|].
  apply Proof_G2Top.pst in H. pose proof (proj_stands_on_curve _ _ H) as C. rewrite (g2_clear_eq P C). exact (clear2_image P C).
Qed.
Theorem g2_cleared q P : g2_stands q P -> g2_is_torsion_free (aff_from_proj (g2_clear_cofactor q)) = true.
Proof.
  intros H. destruct (g2_clearing q P H) as [A B]. apply Proof_G2Top.pst in A. pose proof (aff_from_proj_ok fp2_ops_ok _ _ A) as D.
  apply Proof_G2Top.ast in D. exact (proj2 (g2_torsion_test _ _ D) B).
Qed.
Theorem g2_fibres Q : g2_subgroup Q -> counted g2_cofactor (fun P => g2_on_curve P /\ g2_clear P = Q).
Proof.
  intros [C O]. rewrite g2_cofactor_eq. destruct (clear2_fibre Q C O) as (g & A & J & T). exists g. split; [|split].
  - intros i I. destruct (A i I) as [CI E]. split; [exact CI|]. rewrite (g2_clear_eq _ CI). exact E.
  - exact J.
  - intros P [CP E]. rewrite (g2_clear_eq P CP) in E. exact (T P CP E).
Qed.
