(** * Proof_G2Cases: concrete cases for the properties of the second group *)
From Coq Require Import ZArith List Bool Lia Znumtheory.
From Verif Require Import Base Fld Zr Zp Spec_Scalar Model_Scalar Proof_Scalar Proof_Scalar2 Proof_Scalar5 Spec_Fp Spec_Curve Model_Fp Model_Curve Model_Fp2 Model_G2
  Proof_FpRep Proof_FpTop Spec_CurveCode Proof_Curve Proof_CurveCode Proof_CurveMul Proof_G1Base Proof_G1Top
  Power Tower Ext Spec_Ext Proof_Fp2 Proof_ExtTop Spec_G2 Proof_G2Base Proof_G2Enc Proof_Chain2 Cert_G2 Proof_G2Psi Proof_G2Top.
Import ListNotations.
Local Open Scope Z_scope.

(** a point of order 13 *)
Definition P13 : point Fp2 := apt2 t2x0 t2x1 t2y0 t2y1.
Lemma P13_on : on_curve bq P13.
Proof. apply apt2_on. vm_compute. reflexivity. Qed.
Lemma run_13 : run2 t2x0 t2x1 t2y0 t2y1 chain2_13 (St2 t2x0 t2x1 t2y0 t2y1 1) = Some (St2 t2x0 t2x1 (p - t2y0) (p - t2y1) 12).
Proof. vm_compute. reflexivity. Qed.
Lemma P13_order : point_zmul 13 P13 = Infinity.
Proof.
  pose proof P13_on as C. pose proof (chain2_ok _ _ _ _ C _ _ _ _ _ _ run_13) as E. fold P13 in E.
  change 13 with (12 + 1). rewrite (G2_ZADD 12 1 P13 C), (G2_ONE P13 C), E.
  assert (N : apt2 t2x0 t2x1 (p - t2y0) (p - t2y1) = point_neg P13).
  { unfold P13, apt2, point_neg. apply f_equal. transitivity (lit2 (0 - t2y0) (0 - t2y1)).
    - apply lit2_eq; vm_compute; reflexivity.
    - rewrite lit2_sub, lit2_0. symmetry. apply fneg_as_sub. }
  rewrite N. rewrite (C2_ _ _ (NON2_ _ C) C). apply point_add_neg_r.
Qed.
Lemma g2_outside_case : exists q P, g2_aff_stands q P /\ ~ g2_subgroup P.
Proof.
  destruct (proj2 (proj1 g2_stands_total P13 P13_on)) as [q H]. exists q, P13. split; [exact H|]. intros [_ O].
  assert (E : r mod 13 = 0).
  { apply (Proof_CurveMul.pt_zmul_prime_order (b:=bq) Fp2_two Fp2_NoTwo 13 r P13 P13_on); [|exact P13_order|exact O|discriminate].
    apply prime_intro; [lia|]. intros n N. apply Zgcd_1_rel_prime. assert (n = 1 \/ n = 2 \/ n = 3 \/ n = 4 \/ n = 5 \/ n = 6 \/ n = 7 \/ n = 8 \/ n = 9 \/ n = 10 \/ n = 11 \/ n = 12) as K by lia.
    repeat (destruct K as [->|K]; [reflexivity|]). subst n. reflexivity. }
  revert E. vm_compute. discriminate.
Qed.
Lemma g2_ops_case : exists p q P, g2_stands p P /\ g2_stands q (point_neg P) /\ P <> Infinity /\
  g2_stands (proj_add p q) Infinity /\ g2_stands (proj_double p) (point_add P P).
Proof.
  pose proof (proj2 (pst _ _) (proj1 gen2_rep)) as H. exists g2_generator, (proj_neg g2_generator), G2gen.
  destruct g2_point_ops as (_ & O & _). destruct (O _ _ _ _ H H) as (_ & _ & N & D & _). destruct (O _ _ _ _ H N) as (A & _).
  rewrite point_add_neg_r in A. split; [exact H|]. split; [exact N|]. split; [discriminate|]. split; [exact A|exact D].
Qed.
Lemma g2_mul_case : exists s (x : Fr), represents s x /\ val x = r - 1 /\ g2_stands g2_generator g2_gen.
Proof.
  destruct (bad_scalar (r - 1)) as (s & x & R & V); [split; vm_compute; congruence|]. exists s, x. split; [exact R|]. split; [exact V|].
  apply pst. exact (proj1 gen2_rep).
Qed.
Lemma g2_sub_case : g2_subgroup g2_gen /\ g2_gen <> Infinity.
Proof. split; [exact (conj G2gen_on gen2_order)|discriminate]. Qed.
Lemma zmul_pred n (P : point Fp2) : on_curve bq P -> point_zmul n P = P -> point_zmul (n - 1) P = Infinity.
Proof.
  intros C F. replace (n - 1) with (n + - (1)) by lia. rewrite (G2_ZADD n (- (1)) P C), F.
  rewrite (G2_ZOPP 1 P C), (G2_ONE P C). apply point_add_neg_r.
Qed.
Lemma g2_psi_case : g2_stands g2_generator g2_gen /\ g2_psi_pt g2_gen = point_zmul bls_x g2_gen /\ g2_psi_pt g2_gen <> g2_gen.
Proof.
  split; [apply pst; exact (proj1 gen2_rep)|].
  assert (E : g2_psi_pt g2_gen = point_zmul bls_x g2_gen) by (rewrite psi_spec; exact psi_gen).
  split; [exact E|]. intros F. rewrite E in F.
  pose proof (zmul_pred bls_x g2_gen G2gen_on F) as D.
  apply (proj1 (proj2 (proj2 (proj2 g2_generator_ok)) _)) in D. apply Z.mod_divide in D; [|discriminate].
  revert D. vm_compute. discriminate.
Qed.
Lemma g2_encoding_case : (exists q, g2_aff_stands q g2_gen /\ g2_subgroup g2_gen) /\
  g2_to_compressed aff_identity = 192 :: repeat 0 95 /\ g2_to_uncompressed aff_identity = 64 :: repeat 0 191 /\
  option_map aff_is_identity (g2_from_compressed_unchecked (192 :: repeat 0 95)) = Some true /\
  option_map aff_is_identity (g2_from_compressed_unchecked (repeat 255 96)) = None /\
  option_map aff_is_identity (g2_from_uncompressed_unchecked (192 :: repeat 0 191)) = None.
Proof.
  split; [exists g2_generator_affine; split; [apply ast; exact (proj2 gen2_rep)|exact (conj G2gen_on gen2_order)]|].
  vm_compute. repeat split.
Qed.
