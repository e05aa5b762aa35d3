(** * Proof_G1Gen: the generator is an eigenvector of the endomorphism *)
From Coq Require Import ZArith List Bool Lia.
From Verif Require Import Base Fld Zr Zp Spec_Curve Model_Curve Model_G1 Proof_FpRep Proof_FpTop Spec_CurveCode Proof_Curve Proof_CurveMul Proof_Endo
  Proof_G1Base Proof_GLV Proof_G1Mul Proof_Chain Cert_G1.
Import ListNotations.
Local Open Scope Z_scope.

(** one addition of different points, with its slope *)
Lemma apt_add x y x2 y2 m k1 k2 k3 : m * (x2 - x) = y2 - y + k1 * p -> ((x2 - x) mod p =? 0) = false ->
  point_add (apt x y) (apt x2 y2)
  = apt (m * m - x - x2 + k2 * p) (m * (x - (m * m - x - x2 + k2 * p)) - y + k3 * p).
Proof.
  intros H N. rewrite apt_third. apply add_slope.
  - rewrite <- fp_of_sub, <- Fp_of_0. apply fp_of_neq. exact N.
  - apply (f_equal fp_of) in H. rewrite fp_of_plus_p in H. rewrite fp_of_mul, !fp_of_sub in H. exact H.
Qed.

Definition G1gen : point Fp := apt gx gy.
Lemma G1gen_on : on_curve b4 G1gen.
Proof. apply apt_on. vm_compute. reflexivity. Qed.
Lemma ax_on : on_curve b4 (apt ax ay).
Proof. apply apt_on. vm_compute. reflexivity. Qed.
Lemma run_x : run gx gy chain_x (gx, gy, 1) = Some (ax, ay, BLS_X).
Proof. vm_compute. reflexivity. Qed.
Lemma run_xx : run ax ay chain_xx (ax, ay, 1) = Some (lx, ly, BLS_X).
Proof. vm_compute. reflexivity. Qed.
Lemma gen_sum : point_add (phi G1gen) G1gen = apt lx ly.
Proof.
  assert (E : phi G1gen = apt 0x8dc871d10797b5a25bde7201bbfa0785d137ce284469115be39e624c5fa86c95c11019fdc94281f53de9bf71abf187b gy).
  { unfold G1gen, apt, endo, beta. rewrite <- fp_of_mul. f_equal. apply fp_of_eq. vm_compute. reflexivity. }
  rewrite E. unfold G1gen.
  rewrite (apt_add _ _ _ _ 0x0 (0x0) (0x2) (0x1)) by (vm_compute; reflexivity).
  apply apt_eq; vm_compute; reflexivity.
Qed.
Theorem gen_eigen : phi G1gen = point_zmul glv_lambda G1gen.
Proof.
  pose proof G1gen_on as C. pose proof (endo_on_curve beta beta_root _ C) as CP.
  pose proof (chain_ok gx gy C _ _ _ _ run_x) as E1.
  pose proof (chain_ok ax ay ax_on _ _ _ _ run_xx) as E2.
  fold G1gen in E1. rewrite <- E1 in E2. rewrite <- G1_ZMUL in E2 by exact C. rewrite <- gen_sum in E2.
  change (BLS_X * BLS_X) with (glv_lambda + 1) in E2. rewrite G1_ZADD, G1_ONE in E2 by exact C.
  pose proof (G1_ZON glv_lambda _ C) as CL.
  rewrite (point_add_comm b4 Fp_two Fp_NoTwo _ _ CL C), (point_add_comm b4 Fp_two Fp_NoTwo _ _ CP C) in E2.
  symmetry. eapply (pt_cancel (b:=b4) Fp_two Fp_NoTwo); [exact C|exact CL|exact CP|exact E2].
Qed.
Lemma G1gen_finite : G1gen <> Infinity.
Proof. discriminate. Qed.
Lemma r_lambda : glv_lambda * glv_lambda + glv_lambda + 1 = r.
Proof. reflexivity. Qed.
Theorem gen_order : point_zmul r G1gen = Infinity.
Proof.
  rewrite <- r_lambda. apply (eigen_order (b:=b4) Fp_two Fp_three Fp_NoTwo beta beta_root); [exact G1gen_on|exact gen_eigen].
Qed.
Lemma gen_rep : pstands g1_generator G1gen /\ astands g1_generator_affine G1gen.
Proof.
  assert (X : frep g1_gen_x (fp_of gx)) by (apply stands_for_frep, stands_for_lit; vm_compute; repeat split; congruence).
  assert (Y : frep g1_gen_y (fp_of gy)) by (apply stands_for_frep, stands_for_lit; vm_compute; repeat split; congruence).
  assert (A : astands g1_generator_affine G1gen).
  { exists (fp_of gx), (fp_of gy). split; [exact X|]. split; [exact Y|]. split; [exact G1gen_on|reflexivity]. }
  split; [|exact A]. exact (Proof_CurveCode.proj_from_aff_ok fp_ops_ok _ _ A).
Qed.
