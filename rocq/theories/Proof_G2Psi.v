(** * Proof_G2Psi: the maps psi and psi2 and the order of the generator *)
From Coq Require Import ZArith List Bool Lia Znumtheory.
From Verif Require Import Base Fld Zr Zp Spec_Fp Spec_Curve Model_Fp Model_Curve Model_Fp2 Model_G2 Proof_FpRep Proof_FpTop Proof_G1Base
  Spec_CurveCode Proof_Curve Proof_CurveCode Proof_CurveMul Proof_Endo Proof_Twist Power Tower Ext Spec_Ext Proof_Fp2 Spec_G2 Proof_G2Base Proof_Chain2 Cert_G2.
Import ListNotations.
Local Open Scope Z_scope.

Section Alg.
Context {K : fld}.
Add Field Kpsi : (fld_field K).
Local Open Scope fld_scope.
Lemma div_by_inv (x g c : K) : c * g = 1 -> x / g = c * x.
Proof.
  intros H. unfold fdiv. rewrite (finv_unique g c); [ring|]. rewrite <- H. ring.
Qed.
Lemma inv_nonzero (c g : K) : c * g = 1 -> c <> 0.
Proof. intros H E. apply (@f1_neq_0 K). rewrite <- H, E. ring. Qed.
Lemma cube_assoc (c : K) : c * c * c * c * c * c = c * c * (c * c) * (c * c). Proof. ring. Qed.
Lemma inv_square (c g : K) : c * g = 1 -> c * c * (g * g) = 1.
Proof. intros H. transitivity (c * g * (c * g)); [ring|]. rewrite H. ring. Qed.
Lemma inv_cube (c g : K) : c * g = 1 -> c * c * c * (g * g * g) = 1.
Proof. intros H. transitivity (c * g * (c * g) * (c * g)); [ring|]. rewrite H. ring. Qed.
Lemma pow_three (g : K) : zpow g 3 = g * g * g.
Proof. change 3%Z with (Z.of_nat 3). rewrite zpow_of_nat. cbn [fpow]. ring. Qed.
Lemma comm_prod (a b : K) : a * b = b * a. Proof. ring. Qed.
Lemma neg_from (a x : K) : a = - (1) -> a * x = - x. Proof. intros ->. ring. Qed.
Lemma mul_assoc_l (a b c : K) : a * (b * c) = a * b * c. Proof. ring. Qed.
Context (d : K).
Lemma qconj_add (x y : quad K) : quad_conj (quad_add x y) = quad_add (quad_conj x) (quad_conj y).
Proof. unfold quad_conj, quad_add. cbn [q0 q1]. apply (f_equal2 Quad); ring. Qed.
Lemma qconj_mul (x y : quad K) : quad_conj (quad_mul d x y) = quad_mul d (quad_conj x) (quad_conj y).
Proof. unfold quad_conj, quad_mul. cbn [q0 q1]. apply (f_equal2 Quad); ring. Qed.
Lemma qconj_one : quad_conj (Quad 1 0) = Quad (1 : K) 0.
Proof. unfold quad_conj. cbn [q0 q1]. apply (f_equal2 Quad); ring. Qed.
Lemma qconj_conj (x : quad K) : quad_conj (quad_conj x) = x.
Proof. destruct x as [a b']. unfold quad_conj. cbn [q0 q1]. apply (f_equal2 Quad); ring. Qed.
End Alg.
Lemma conj_add (x y : Fp2) : Fp2_conj (fadd x y) = fadd (Fp2_conj x) (Fp2_conj y).
Proof. exact (qconj_add (K:=Fp) x y). Qed.
Lemma conj_mul (x y : Fp2) : Fp2_conj (fmul x y) = fmul (Fp2_conj x) (Fp2_conj y).
Proof. exact (qconj_mul (K:=Fp) (fneg f1) x y). Qed.
Lemma conj_one : Fp2_conj f1 = f1.
Proof. exact (qconj_one (K:=Fp)). Qed.
Lemma conj_conj (x : Fp2) : Fp2_conj (Fp2_conj x) = x.
Proof. exact (qconj_conj (K:=Fp) x). Qed.

(** psi scales by c^2 and c^3, where c is the inverse of xi^((p-1)/6) *)
Definition c0_ : Z := 0x5b2cfd9013a5fd8df47fa6b48b1e045f39816240c0b8fee8beadf4d8e9c0566c63a3e6e257f87329b18fae980078116.
Definition psi_c : Fp2 := lit2 c0_ c0_.
Definition cx1_ : Z := 0x1a0111ea397fe699ec02408663d4de85aa0d857d89759ad4897d29650fb85f9b409427eb4f49fffd8bfd00000000aaad.
Definition cy0_ : Z := 0x135203e60180a68ee2e9c448d77a2cd91c3dedd930b1cf60ef396489f61eb45e304466cf3e67fa0af1ee7b04121bdea2.
Definition cy1_ : Z := 0x6af0e0437ff400b6831e36d6bd17ffe48395dabc2d3435e77f76e17009241c5ee67992f72ec05f4c81084fbede3cc09.
Lemma psi_c2 : fmul psi_c psi_c = lit2 0 cx1_.
Proof. unfold psi_c. rewrite <- lit2_mul. apply lit2_eq; vm_compute; reflexivity. Qed.
Lemma psi_c3 : fmul (fmul psi_c psi_c) psi_c = lit2 cy0_ cy1_.
Proof. rewrite psi_c2. unfold psi_c. rewrite <- lit2_mul. apply lit2_eq; vm_compute; reflexivity. Qed.
Lemma psi_c_gamma : fmul psi_c gamma = f1.
Proof.
  assert (G : gamma = lit2 0x1904d3bf02bb0667c231beb4202c0d1f0fd603fd3cbd5f4f7b2443d784bab9c4f67ea53d63e7813d8d0775ed92235fb8
                           (- 0x1904d3bf02bb0667c231beb4202c0d1f0fd603fd3cbd5f4f7b2443d784bab9c4f67ea53d63e7813d8d0775ed92235fb8)).
  { exact (lit2_conj 0x1904d3bf02bb0667c231beb4202c0d1f0fd603fd3cbd5f4f7b2443d784bab9c4f67ea53d63e7813d8d0775ed92235fb8 _). }
  rewrite G. unfold psi_c. rewrite <- lit2_mul, <- lit2_1. apply lit2_eq; vm_compute; reflexivity.
Qed.
Lemma psi_c_nz : psi_c <> f0.
Proof. exact (inv_nonzero (K:=Fp2) psi_c gamma psi_c_gamma). Qed.
Lemma psi_c6 : fmul (fmul (fmul (fmul (fmul (fmul psi_c psi_c) psi_c) psi_c) psi_c) psi_c) (Fp2_conj bq) = bq.
Proof.
  rewrite (cube_assoc (K:=Fp2) psi_c), psi_c2. change bq with (lit2 4 4). rewrite lit2_conj, <- !lit2_mul.
  apply lit2_eq; vm_compute; reflexivity.
Qed.
Notation psi := (twist (K:=Fp2) Fp2_conj psi_c).
Definition psi_on := twist_on_curve (K:=Fp2) (b:=bq) Fp2_conj psi_c conj_add conj_mul psi_c6.
Definition psi_neg := twist_neg (K:=Fp2) Fp2_conj psi_c conj_add.
Definition psi_add := twist_add (K:=Fp2) (b:=bq) Fp2_conj psi_c conj_one conj_add conj_mul psi_c_nz Fp2_two Fp2_NoTwo.
Definition psi_zmul := twist_zmul (K:=Fp2) (b:=bq) Fp2_conj psi_c conj_one conj_add conj_mul psi_c_nz Fp2_two Fp2_NoTwo.
Definition psi_point_of := twist_point_of (K:=Fp2) (b:=bq) Fp2_conj psi_c conj_one conj_add conj_mul psi_c_nz psi_c6.

Lemma xi_half : zpow xi ((p - 1) / 2) = fmul (fmul gamma gamma) gamma.
Proof.
  destruct p_48 as [E H]. replace ((p - 1) / 2) with (24 * p48 + 21) by (rewrite E; apply Z.div_unique_exact; lia).
  replace (24 * p48 + 21) with ((8 * p48 + 7) * 3) by lia. rewrite zpow_mul_nn by lia. rewrite xi_p_sixth. exact (pow_three (K:=Fp2) gamma).
Qed.
Lemma xi_third : zpow xi ((p - 1) / 3) = fmul gamma gamma.
Proof.
  destruct p_48 as [E H]. replace ((p - 1) / 3) with (16 * p48 + 14) by (rewrite E; apply Z.div_unique_exact; lia).
  replace (16 * p48 + 14) with ((8 * p48 + 7) + (8 * p48 + 7)) by lia. rewrite zpow_add_nn by lia. rewrite xi_p_sixth. reflexivity.
Qed.
Lemma psi_spec P : g2_psi_pt P = psi P.
Proof.
  destruct P as [|x y]; [reflexivity|]. unfold g2_psi_pt, twist. rewrite !Fp2_frobenius, xi_half, xi_third.
  apply (f_equal2 (@Affine Fp2)).
  - apply (div_by_inv (K:=Fp2)). exact (inv_square (K:=Fp2) _ _ psi_c_gamma).
  - apply (div_by_inv (K:=Fp2)). exact (inv_cube (K:=Fp2) _ _ psi_c_gamma).
Qed.

(** ** the code *)
Lemma rep2_lit a x0 x1 : stands_for (fp2_c0 a) (fp_of x0) -> stands_for (fp2_c1 a) (fp_of x1) -> rep2 a (lit2 x0 x1).
Proof. intros A B. split; apply stands_for_frep; assumption. Qed.
Lemma rep_psi_x : rep2 psi_coeff_x (fmul psi_c psi_c).
Proof. rewrite psi_c2. apply rep2_lit; apply stands_for_lit; vm_compute; repeat split; congruence. Qed.
Lemma rep_psi_y : rep2 psi_coeff_y (fmul (fmul psi_c psi_c) psi_c).
Proof. rewrite psi_c3. apply rep2_lit; apply stands_for_lit; vm_compute; repeat split; congruence. Qed.
Lemma psi_ok q P : pstands2 q P -> pstands2 (g2_psi q) (psi P).
Proof.
  destruct q as [x y z]. intros (X & Y & Z & RX & RY & RZ & H & <-). destruct (psi_point_of X Y Z H) as [H' <-].
  exists (fmul (Fp2_conj X) (fmul psi_c psi_c)), (fmul (Fp2_conj Y) (fmul (fmul psi_c psi_c) psi_c)), (Fp2_conj Z).
  split; [apply rep2_mul; [apply rep2_conj; exact RX|exact rep_psi_x]|].
  split; [apply rep2_mul; [apply rep2_conj; exact RY|exact rep_psi_y]|].
  split; [apply rep2_conj; exact RZ|]. split; [exact H'|reflexivity].
Qed.

(** ** psi2 is psi twice, and minus a cube root of unity *)
Definition w0_ : Z := 0x1a0111ea397fe699ec02408663d4de85aa0d857d89759ad4897d29650fb85f9b409427eb4f49fffd8bfd00000000aaac.
Definition w2 : Fp2 := lit2 w0_ 0.
Lemma w2_root : fadd (fadd (fmul w2 w2) w2) f1 = f0.
Proof. unfold w2. rewrite <- lit2_mul, <- lit2_1, <- !lit2_add, <- lit2_0. apply lit2_eq; vm_compute; reflexivity. Qed.
Lemma psi_x_twice : fmul (fmul psi_c psi_c) (Fp2_conj (fmul psi_c psi_c)) = w2.
Proof. rewrite psi_c2, lit2_conj, <- lit2_mul. apply lit2_eq; vm_compute; reflexivity. Qed.
Lemma lit2_m1 : fneg f1 = lit2 (-1) 0.
Proof.
  change (lit2 (-1) 0) with (lit2 (0 - 1) (0 - 0)). rewrite lit2_sub, lit2_0, lit2_1. apply fneg_as_sub.
Qed.
Lemma psi_y_twice : fmul (fmul (fmul psi_c psi_c) psi_c) (Fp2_conj (fmul (fmul psi_c psi_c) psi_c)) = fneg f1.
Proof. rewrite psi_c3, lit2_conj, <- lit2_mul, lit2_m1. apply lit2_eq; vm_compute; reflexivity. Qed.
Notation phi2 := (endo (K:=Fp2) w2).
Lemma psi_twice P : psi (psi P) = point_neg (phi2 P).
Proof.
  etransitivity; [exact (twist_twice (K:=Fp2) Fp2_conj psi_c conj_mul w2 P conj_conj psi_x_twice psi_y_twice)|].
  destruct P; reflexivity.
Qed.
Lemma phi2_on P : on_curve bq P -> on_curve bq (phi2 P).
Proof. exact (endo_on_curve (K:=Fp2) (b:=bq) w2 w2_root P). Qed.
Lemma rep_psi2 : rep2 psi2_coeff_x w2.
Proof. apply rep2_lit; apply stands_for_lit; vm_compute; repeat split; congruence. Qed.
Section Alg2.
Context {K : fld}.
Add Field Kpsi2 : (fld_field K).
Local Open Scope fld_scope.
Lemma endo_point_of (b w X Y Z : K) : w * w + w + 1 = 0 -> projective b X Y Z ->
  projective b (X * w) (- Y) Z /\ point_of (X * w) (- Y) Z = point_neg (endo w (point_of X Y Z)).
Proof.
  intros W H. pose proof (w_cube w W) as C. destruct H as [E N]. split.
  - split.
    + transitivity (Y * Y * Z); [ring|]. rewrite E. transitivity (w * w * w * (X * X * X) + b * (Z * Z * Z)); [rewrite C; ring|ring].
    + intros (A & B & D). apply N. split; [|split; [|exact D]].
      * destruct (mul_zero _ _ A) as [A'|A']; [exact A'|]. exfalso. exact (w_nonzero w W A').
      * transitivity (- - Y); [ring|]. rewrite B. ring.
  - unfold point_of. destruct (feqb Z 0); [reflexivity|]. cbn [endo point_neg]. unfold fdiv. f_equal; ring.
Qed.
End Alg2.
Lemma psi2_ok q P : pstands2 q P -> pstands2 (g2_psi2 q) (psi (psi P)).
Proof.
  destruct q as [x y z]. intros (X & Y & Z & RX & RY & RZ & H & <-).
  destruct (endo_point_of (K:=Fp2) bq w2 X Y Z w2_root H) as [H' E]. rewrite psi_twice, <- E.
  exists (fmul X w2), (fneg Y), Z.
  split; [apply rep2_mul; [exact RX|exact rep_psi2]|]. split; [apply rep2_neg; exact RY|].
  split; [exact RZ|]. split; [exact H'|reflexivity].
Qed.

(** ** the generator *)
Definition G2gen : point Fp2 := apt2 g2x0 g2x1 g2y0 g2y1.
Lemma G2gen_on : on_curve bq G2gen.
Proof. apply apt2_on. vm_compute. reflexivity. Qed.
Lemma run2_x : run2 g2x0 g2x1 g2y0 g2y1 chain2_x (St2 g2x0 g2x1 g2y0 g2y1 1) = Some (St2 a2x0 a2x1 a2y0 a2y1 BLS_X).
Proof. vm_compute. reflexivity. Qed.
Lemma psi_gen_value : psi G2gen = apt2 a2x0 a2x1 (- a2y0) (- a2y1).
Proof.
  unfold G2gen, apt2, twist. apply (f_equal2 (@Affine Fp2)).
  - rewrite psi_c2, lit2_conj, <- lit2_mul. apply lit2_eq; vm_compute; reflexivity.
  - rewrite psi_c3, lit2_conj, <- lit2_mul. apply lit2_eq; vm_compute; reflexivity.
Qed.
Lemma psi_gen : psi G2gen = point_zmul bls_x G2gen.
Proof.
  pose proof G2gen_on as C. pose proof (chain2_ok _ _ _ _ C _ _ _ _ _ _ run2_x) as E.
  fold G2gen in E. change bls_x with (- BLS_X). rewrite G2_ZOPP by exact C. rewrite E, psi_gen_value.
  unfold apt2, point_neg. apply f_equal.
  transitivity (lit2 (0 - a2y0) (0 - a2y1)); [reflexivity|]. rewrite lit2_sub, lit2_0. symmetry. apply fneg_as_sub.
Qed.
Lemma neg_neg_pt (P : point Fp2) : point_neg (point_neg P) = P.
Proof. apply pt_neg_neg. Qed.
Lemma gen2_eigen : phi2 G2gen = point_zmul (- (bls_x * bls_x)) G2gen.
Proof.
  pose proof G2gen_on as C. rewrite G2_ZOPP by exact C. transitivity (point_neg (point_neg (phi2 G2gen))); [symmetry; apply neg_neg_pt|]. apply (f_equal point_neg).
  transitivity (psi (psi G2gen)); [symmetry; apply psi_twice|]. rewrite psi_gen.
  rewrite <- (psi_zmul bls_x G2gen C). rewrite psi_gen. symmetry. apply G2_ZMUL. exact C.
Qed.
Theorem gen2_order : point_zmul r G2gen = Infinity.
Proof.
  replace r with (- (bls_x * bls_x) * - (bls_x * bls_x) + - (bls_x * bls_x) + 1) by (vm_compute; reflexivity).
  apply (eigen_order (b:=bq) Fp2_two Fp2_three Fp2_NoTwo w2 w2_root); [exact G2gen_on|exact gen2_eigen].
Qed.
Lemma G2gen_finite : G2gen <> Infinity.
Proof. discriminate. Qed.
Lemma gen2_rep : pstands2 g2_generator G2gen /\ astands2 g2_generator_affine G2gen.
Proof.
  assert (X : rep2 g2_gen_x (lit2 g2x0 g2x1)) by (apply rep2_lit; apply stands_for_lit; vm_compute; repeat split; congruence).
  assert (Y : rep2 g2_gen_y (lit2 g2y0 g2y1)) by (apply rep2_lit; apply stands_for_lit; vm_compute; repeat split; congruence).
  assert (A : astands2 g2_generator_affine G2gen).
  { exists (lit2 g2x0 g2x1), (lit2 g2y0 g2y1). split; [exact X|]. split; [exact Y|]. split; [exact G2gen_on|reflexivity]. }
  split; [|exact A]. exact (Proof_CurveCode.proj_from_aff_ok fp2_ops_ok _ _ A).
Qed.

(** ** clearing the cofactor *)
Lemma clear_cofactor2_ok q P : pstands2 q P -> pstands2 (g2_clear_cofactor q)
  (point_add (psi (psi (point_add P P))) (point_add (point_zmul (bls_x * bls_x - bls_x - 1) P) (point_zmul (bls_x - 1) (psi P)))).
Proof.
  intros H. pose proof (proj_stands_on_curve _ _ H) as C. pose proof (psi_on P C) as CS. unfold g2_clear_cofactor.
  pose proof (proj_mul_by_x_ok fp2_ops_ok Fp2_two Fp2_NoTwo) as MX.
  pose proof (proj_sub_ok fp2_ops_ok Fp2_two Fp2_NoTwo) as SUB. pose proof (proj_add_ok fp2_ops_ok Fp2_two Fp2_NoTwo) as ADD.
  assert (MX' : forall q P, pstands2 q P -> pstands2 (proj_mul_by_x q) (point_zmul bls_x P)).
  { intros q' P' H'. exact (MX q' P' H'). }
  pose proof (MX' _ _ H) as T1. pose proof (psi_ok _ _ H) as T2.
  pose proof (proj_double_ok fp2_ops_ok Fp2_two Fp2_NoTwo _ _ H) as D.
  pose proof (psi2_ok _ _ D) as D2. pose proof (MX' _ _ (ADD _ _ _ _ T1 T2)) as M.
  pose proof (SUB _ _ _ _ (SUB _ _ _ _ (SUB _ _ _ _ (ADD _ _ _ _ D2 M) T1) T2) H) as R.
  cbv zeta. set (A := psi (psi (point_add P P))) in *. 
  assert (CA : on_curve bq A) by (unfold A; apply psi_on, psi_on, ON2_; exact C).
  match goal with |- proj_stands _ _ _ ?G => match type of R with proj_stands _ _ _ ?G' => replace G with G'; [exact R|] end end.
  clearbody A. clear R M D2 D T1 T2 H MX' MX SUB ADD q.
  set (S := psi P) in *. clearbody S.
  rewrite G2_ZADDR by (try assumption; apply G2_ZON; exact C). rewrite <- G2_ZMUL by exact C.
  replace (bls_x * bls_x - bls_x - 1) with (bls_x * bls_x + (- bls_x + - (1))) by ring.
  replace (bls_x - 1) with (bls_x + - (1)) by ring.
  rewrite !G2_ZADD, !G2_ZOPP, !G2_ONE by assumption.
  set (U := point_zmul (bls_x * bls_x) P). set (V := point_zmul bls_x P). set (W := point_zmul bls_x S).
  assert (CU : on_curve bq U) by (apply G2_ZON; exact C). assert (CV : on_curve bq V) by (apply G2_ZON; exact C).
  assert (CW : on_curve bq W) by (apply G2_ZON; exact CS). clearbody U V W.
  pose proof (NON2_ _ CV) as CV'. pose proof (NON2_ _ CS) as CS'. pose proof (NON2_ _ C) as C'.
  set (V' := point_neg V) in *. set (S' := point_neg S) in *. set (P' := point_neg P) in *. clearbody V' S' P'.
  rewrite <- !A2_ by (repeat apply ON2_; assumption). f_equal. f_equal.
  rewrite (A2_ V' P' (point_add W S')) by (repeat apply ON2_; assumption).
  rewrite (C2_ (point_add V' P') (point_add W S')) by (repeat apply ON2_; assumption).
  rewrite <- (A2_ W S' (point_add V' P')) by (repeat apply ON2_; assumption).
  rewrite (A2_ V' S' P'), (C2_ V' S'), <- (A2_ S' V' P') by (repeat apply ON2_; assumption). reflexivity.
Qed.
