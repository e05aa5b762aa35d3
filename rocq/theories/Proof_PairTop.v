(** * Proof_PairTop: the pairing results in terms of the specification *)
From Coq Require Import ZArith List Bool Lia Ring Field Znumtheory.
From Verif Require Import Base Fld Tables Zr Zp Spec_Scalar Spec_Fp Model_Scalar Model_Fp Proof_FpRep Proof_FpTop Proof_G1Base Model_Curve Model_Fp2 Model_Fp12 Model_G1 Model_G2 Model_Pair Spec_Curve Proof_Curve Proof_CurveMul Spec_CurveCode Proof_CurveCode Spec_G1 Spec_G2 Proof_G1Mul Proof_G1Top Proof_G2Base Proof_G2Psi Proof_G2Top Proof_Lines Proof_Side Proof_Bilin Spec_Ext Proof_Fp2 Proof_Fp12 Proof_ExtTop Power Tower Ext Proof_Cyclo Spec_Pair Proof_FinalExp Proof_Gt Proof_PairSides Proof_Steps Proof_Miller Proof_Drivers Proof_G2Sub.
Import ListNotations.
Local Open Scope Z_scope.

(** ** the subgroup *)
Theorem g2_subgroup_cyclic P : g2_subgroup P <-> exists a, 0 <= a < r /\ P = point_zmul a g2_gen.
Proof.
  split.
  - intros [C O]. exact (g2_multiples P C O).
  - intros (a & _ & ->). split; [apply G2_ZON; exact G2gen_on|]. rewrite <- (G2_ZMUL r a g2_gen G2gen_on), Z.mul_comm, (G2_ZMUL a r g2_gen G2gen_on).
    change (point_zmul r g2_gen) with (point_zmul r G2gen). rewrite gen2_order. apply G2_INF.
Qed.
Theorem g2_psi_subgroup P : g2_subgroup P <-> g2_on_curve P /\ g2_psi_pt P = point_zmul bls_x P.
Proof.
  split.
  - intros [C O]. exact (torsion_eigen P C O).
  - intros E. split; [exact (proj1 E)|exact (eigen_r P E)].
Qed.
Lemma sub_eigen Q : g2_subgroup Q -> g2_eigen Q. Proof. intros S. exact (proj1 (g2_psi_subgroup Q) S). Qed.

(** ** final exponentiation *)
Theorem final_exp_spec a x : stands_for12 a x ->
  (x = f0 -> final_exponentiation a = Panic) /\
  (x <> f0 -> exists b, final_exponentiation a = Ok b /\ stands_for12 b (zpow x final_exponent) /\ gt_member (zpow x final_exponent)).
Proof.
  intros A. apply stands_for12_rep in A. destruct (final_exponentiation_ok a x A) as [P N]. split; [exact P|]. intros H.
  destruct (N H) as (b & E & R). exists b. split; [exact E|]. split; [apply stands_for12_rep; exact R|exact (final_member x H)].
Qed.
Theorem final_exp_mul a b x y ea eb : stands_for12 a x -> stands_for12 b y -> final_exponentiation a = Ok ea -> final_exponentiation b = Ok eb ->
  final_exponentiation (miller_result_add a b) = Ok (gt_add ea eb).
Proof.
  intros A B EA EB. apply stands_for12_rep in A, B. destruct (final_exponentiation_ok a x A) as [PA NA]. destruct (final_exponentiation_ok b y B) as [PB NB].
  assert (NX : x <> f0) by (intros Z; rewrite (PA Z) in EA; discriminate EA). assert (NY : y <> f0) by (intros Z; rewrite (PB Z) in EB; discriminate EB).
  destruct (NA NX) as (ea' & EA' & RA). destruct (NB NY) as (eb' & EB' & RB). rewrite EA in EA'. rewrite EB in EB'. injection EA' as <-. injection EB' as <-.
  destruct (final_exponentiation_ok _ _ (r12_mul _ _ _ _ A B)) as [_ N]. destruct (N (mul_nonzero (K:=Fp12) x y NX NY)) as (c & E & R).
  unfold miller_result_add, gt_add. rewrite E. apply (f_equal Ok). refine (r12_inj _ _ _ R _).
  refine (r12_to _ _ _ (r12_mul _ _ _ _ RA RB) _). symmetry. apply zpow_mul_base.
Qed.

(** ** the target group *)
Theorem gt_group a b x y : stands_for12 a x -> stands_for12 b y -> gt_member x -> gt_member y ->
  (stands_for12 (gt_add a b) (fmul x y) /\ gt_member (fmul x y)) /\
  (stands_for12 (gt_neg a) (finv x) /\ gt_member (finv x)) /\
  stands_for12 (gt_sub a b) (fmul x (finv y)) /\
  stands_for12 (gt_double a) (fmul x x) /\
  (gt_eq a b = true <-> x = y) /\ (gt_is_identity a = true <-> x = f1).
Proof.
  intros A B MX MY. apply stands_for12_rep in A, B. rewrite !stands_for12_rep.
  assert (NEG : forall c z, r12 c z -> gt_member z -> r12 (gt_neg c) (finv z)).
  { intros c z R M. refine (r12_to _ _ _ (r12_conj _ _ R) _). apply cyc_conj, gt_cyc. exact M. }
  split; [split; [exact (r12_mul _ _ _ _ A B)|exact (root_mul (K:=Fp12) x y r MX MY)]|].
  split; [split; [exact (NEG a x A MX)|exact (root_inv (K:=Fp12) x r MX)]|].
  split; [exact (r12_mul _ _ _ _ A (NEG b y B MY))|]. split; [exact (r12_square _ _ A)|].
  split.
  - unfold gt_eq. rewrite (r12_eq _ _ _ _ A B). apply feqb_spec.
  - unfold gt_is_identity, gt_eq, gt_identity. rewrite (r12_eq _ _ _ _ A r12_one). apply feqb_spec.
Qed.
Theorem gt_identity_spec : stands_for12 gt_identity f1 /\ gt_member f1.
Proof. split; [apply stands_for12_rep; exact r12_one|]. unfold gt_member. apply zpow_1_l. Qed.
Lemma member_zpow (x : Fp12) n : gt_member x -> gt_member (zpow x n).
Proof.
  intros M. pose proof (gt_nonzero x M) as N. unfold gt_member in *. rewrite <- zpow_mul by exact N. rewrite Z.mul_comm, zpow_mul by exact N. rewrite M. apply zpow_1_l.
Qed.
Theorem gt_scalar_mul a x s (k : Fr) : stands_for12 a x -> represents s k -> stands_for12 (gt_mul a s) (zpow x (val k)) /\ (gt_member x -> gt_member (zpow x (val k))).
Proof.
  intros A S. apply stands_for12_rep in A. split; [apply stands_for12_rep; exact (gt_mul_ok a x s k A S)|]. exact (member_zpow x (val k)).
Qed.
Lemma val_add (x y : Fr) : val (fadd x y) = (val x + val y) mod r. Proof. apply val_to_Fr. Qed.
Lemma val_mul (x y : Fr) : val (fmul x y) = (val x * val y) mod r. Proof. apply val_to_Fr. Qed.
Theorem gt_exponents (x : Fp12) (j k : Fr) : gt_member x ->
  zpow x (val (fadd j k)) = fmul (zpow x (val j)) (zpow x (val k)) /\ zpow x (val (fmul j k)) = zpow (zpow x (val j)) (val k).
Proof.
  intros M. pose proof (gt_nonzero x M) as N. rewrite val_add, val_mul, !(zpow_mod (K:=Fp12) x r _ N M) by discriminate.
  split; [apply zpow_add; exact N|apply zpow_mul; exact N].
Qed.
Lemma sum_fold l : forall L, Forall2 stands_for12 l L -> forall acc X, r12 acc X -> r12 (fold_left gt_add l acc) (fold_left fmul L X).
Proof.
  intros L F. induction F as [|a x l L H F IH]; intros acc X R; [exact R|]. cbn [fold_left]. apply IH. apply stands_for12_rep in H. exact (r12_mul _ _ _ _ R H).
Qed.
Theorem gt_sum_spec l L : Forall2 stands_for12 l L -> stands_for12 (gt_sum l) (fold_left fmul L f1).
Proof. intros F. apply stands_for12_rep. exact (sum_fold l L F gt_identity f1 r12_one). Qed.
(** the random element is always the identity *)
Theorem gt_random_constant : gt_random = Ok gt_identity.
Proof.
  unfold gt_random. rewrite (r12_is_zero _ _ r12_one). rewrite (proj2 (feqb_false _ _) (@f1_neq_0 Fp12)). cbn [negb].
  destruct (final_exponentiation_ok _ _ r12_one) as [_ N]. destruct (N (@f1_neq_0 Fp12)) as (b & E & R). rewrite E. apply (f_equal Ok).
  refine (r12_inj _ _ _ R _). refine (r12_to _ _ _ r12_one _). symmetry. apply zpow_1_l.
Qed.

(** ** Miller's function *)
Lemma chi_is (x : Fp12) : zpow x final_exponent = chi x. Proof. unfold chi. reflexivity. Qed.
Lemma param_nat : Z.to_nat (- bls_x) = Z.to_nat BLS_X. Proof. apply (f_equal Z.to_nat). reflexivity. Qed.
Lemma pairing_value_mk P Q : pairing_value P Q = finv (mk P Q BLS_X).
Proof. unfold pairing_value, mk. rewrite param_nat, (chi_is (miller_value (Z.to_nat BLS_X) Q P)), (chi_miller (Z.to_nat BLS_X) Q P). reflexivity. Qed.
Lemma MM_root n A P : on_curve bq A -> on_curve b4 P -> MM n A (e1 P) <> f0 /\ zpow (MM n A (e1 P)) r = f1.
Proof.
  intros CA CP. induction n as [|n [IH1 IH2]]; [split; [exact (@f1_neq_0 Fp12)|exact (zpow_1_l (K:=Fp12) r)]|]. cbn [M].
  destruct (G2_root b4 bq b12 embed1 embed1 embed1 untwist_x untwist_y untwist_m chi small side1 side2 chi_pair adm_first r chi_root (point_zmul (Z.of_nat n) A) A P (G2_ZON _ _ CA) CA CP) as [N R].
  split; [apply mul_nonzero; assumption|apply root_mul; assumption].
Qed.
Section Inv.
Context {K : fld}.
Add Field Kiv : (fld_field K).
Lemma inv_mul (x y : K) : x <> f0 -> y <> f0 -> finv (fmul x y) = fmul (finv x) (finv y).
Proof. intros. field. split; assumption. Qed.
Lemma inv_one : finv (f1 : K) = f1. Proof. apply finv_unique. ring. Qed.
Lemma inv_inv (x : K) : x <> f0 -> finv (finv x) = x.
Proof. intros N. apply finv_unique. apply finv_l. exact N. Qed.
Lemma unit_inverse (x y : K) : x <> f0 -> fmul x y = f1 -> y = finv x.
Proof. intros N E. symmetry. apply finv_unique. exact E. Qed.
Lemma quotient_one (x y : K) : x <> f0 -> fmul (finv x) y = f1 <-> x = y.
Proof.
  intros N. split.
  - intros E. transitivity (fmul x (fmul (finv x) y)); [rewrite E; ring|field; exact N].
  - intros <-. field. exact N.
Qed.
Lemma mul_comm_K (x y : K) : fmul x y = fmul y x. Proof. ring. Qed.
End Inv.
Lemma mk_root P Q k : on_curve b4 P -> on_curve bq Q -> mk P Q k <> f0 /\ zpow (mk P Q k) r = f1.
Proof. intros CP CQ. exact (MM_root (Z.to_nat k) Q P CQ CP). Qed.
Lemma mk_nn P Q : mk P Q BLS_X = MM nn Q (e1 P). Proof. unfold mk, nn. reflexivity. Qed.
Lemma mk_add_P P P' Q : g2_subgroup Q -> on_curve b4 P -> on_curve b4 P' -> mk (point_add P P') Q BLS_X = fmul (mk P Q BLS_X) (mk P' Q BLS_X).
Proof. intros SQ C C'. rewrite !mk_nn. exact (MM_additive_P Q P P' (eigen_bils Q (sub_eigen Q SQ)) C C'). Qed.
Lemma mk_add_Q P Q Q' : g2_subgroup Q -> g2_subgroup Q' -> on_curve b4 P -> mk P (point_add Q Q') BLS_X = fmul (mk P Q BLS_X) (mk P Q' BLS_X).
Proof. intros SQ SQ' C. rewrite !mk_nn. exact (MM_additive_A Q Q' P (eigen_bils Q (sub_eigen Q SQ)) (eigen_bils Q' (sub_eigen Q' SQ')) C). Qed.

(** ** the pairing *)
Theorem pairing_member P Q : g1_on_curve P -> g2_on_curve Q -> gt_member (pairing_value P Q).
Proof.
  intros CP CQ. rewrite pairing_value_mk. unfold gt_member. apply root_inv. exact (proj2 (mk_root P Q BLS_X CP CQ)).
Qed.
Theorem pairing_additive :
  (forall P P' Q, g1_on_curve P -> g1_on_curve P' -> g2_subgroup Q -> pairing_value (point_add P P') Q = fmul (pairing_value P Q) (pairing_value P' Q)) /\
  (forall P Q Q', g1_on_curve P -> g2_subgroup Q -> g2_subgroup Q' -> pairing_value P (point_add Q Q') = fmul (pairing_value P Q) (pairing_value P Q')).
Proof.
  split.
  - intros P P' Q C C' SQ. rewrite !pairing_value_mk, (mk_add_P P P' Q SQ C C').
    exact (inv_mul (K:=Fp12) _ _ (proj1 (mk_root P Q BLS_X C (proj1 SQ))) (proj1 (mk_root P' Q BLS_X C' (proj1 SQ)))).
  - intros P Q Q' C SQ SQ'. rewrite !pairing_value_mk, (mk_add_Q P Q Q' SQ SQ' C).
    exact (inv_mul (K:=Fp12) _ _ (proj1 (mk_root P Q BLS_X C (proj1 SQ))) (proj1 (mk_root P Q' BLS_X C (proj1 SQ')))).
Qed.
Theorem pairing_identity P Q : pairing_value Infinity Q = f1 /\ pairing_value P Infinity = f1.
Proof. rewrite !pairing_value_mk, !mk_inf by (left; reflexivity) || (right; reflexivity). split; exact (inv_one (K:=Fp12)). Qed.
Section Additive.
Context {K : fld} (f : Z -> K).
Add Field Kad : (fld_field K).
Hypothesis f_add : forall a c, f (a + c) = fmul (f a) (f c).
Hypothesis f_one : f 1 <> f0.
Lemma additive_zero : f 0 = f1.
Proof. apply (fmul_cancel_l (f 1)); [exact f_one|]. rewrite <- f_add. change (1 + 0) with 1. ring. Qed.
Lemma additive_nat n : f (Z.of_nat n) = zpow (f 1) (Z.of_nat n).
Proof.
  induction n as [|n IH]; [rewrite zpow_0; exact additive_zero|]. rewrite Nat2Z.inj_succ. unfold Z.succ. rewrite f_add, IH. rewrite zpow_add by exact f_one. rewrite zpow_1. reflexivity.
Qed.
Lemma additive_zpow n : f n = zpow (f 1) n.
Proof.
  destruct (Z_le_gt_dec 0 n) as [H|H]; [rewrite <- (Z2Nat.id n H); apply additive_nat|].
  assert (E : f (- n) = zpow (f 1) (- n)) by (rewrite <- (Z2Nat.id (- n)) by lia; apply additive_nat).
  assert (N : zpow (f 1) (- n) <> f0) by (apply zpow_nonzero; exact f_one).
  apply (fmul_cancel_l (f (- n))); [rewrite E; exact N|]. rewrite <- f_add. rewrite E, <- zpow_add by exact f_one. replace (- n + n) with 0 by lia.
  rewrite zpow_0. exact additive_zero.
Qed.
End Additive.
Lemma sub_zmul Q n : g2_subgroup Q -> g2_subgroup (point_zmul n Q).
Proof.
  intros [C O]. split; [apply G2_ZON; exact C|]. rewrite <- (G2_ZMUL r n Q C), Z.mul_comm, (G2_ZMUL n r Q C), O. apply G2_INF.
Qed.
Lemma sub_neg Q : g2_subgroup Q -> g2_subgroup (point_neg Q).
Proof. intros S. pose proof (sub_zmul Q (-1) S) as H. change (-1) with (- (1)) in H. rewrite (G2_ZOPP 1 Q (proj1 S)), (G2_ONE Q (proj1 S)) in H. exact H. Qed.
Lemma pairing_nonzero P Q : g1_on_curve P -> g2_on_curve Q -> pairing_value P Q <> f0.
Proof. intros CP CQ. exact (gt_nonzero _ (pairing_member P Q CP CQ)). Qed.
Theorem pairing_multiples P Q n : g1_on_curve P -> g2_subgroup Q ->
  pairing_value (point_zmul n P) Q = zpow (pairing_value P Q) n /\ pairing_value P (point_zmul n Q) = zpow (pairing_value P Q) n.
Proof.
  intros CP SQ. destruct pairing_additive as [AP AQ]. split.
  - pose proof (additive_zpow (K:=Fp12) (fun m => pairing_value (point_zmul m P) Q)) as H. cbv beta in H. rewrite (G1_ONE P CP) in H. apply H.
    + intros a c. rewrite (G1_ZADD a c P CP). apply AP; [apply G1_ZON; exact CP|apply G1_ZON; exact CP|exact SQ].
    + exact (pairing_nonzero P Q CP (proj1 SQ)).
  - pose proof (additive_zpow (K:=Fp12) (fun m => pairing_value P (point_zmul m Q))) as H. cbv beta in H. rewrite (G2_ONE Q (proj1 SQ)) in H. apply H.
    + intros a c. rewrite (G2_ZADD a c Q (proj1 SQ)). apply AQ; [exact CP|apply sub_zmul; exact SQ|apply sub_zmul; exact SQ].
    + exact (pairing_nonzero P Q CP (proj1 SQ)).
Qed.
Lemma pairing_neg P Q : g1_on_curve P -> g2_subgroup Q -> pairing_value (point_neg P) Q = finv (pairing_value P Q).
Proof.
  intros CP SQ. pose proof (proj1 (pairing_multiples P Q (-1) CP SQ)) as H. change (-1) with (- (1)) in H. rewrite (G1_ZOPP 1 P CP), (G1_ONE P CP) in H. rewrite H.
  rewrite zpow_opp, zpow_1 by exact (pairing_nonzero P Q CP (proj1 SQ)). reflexivity.
Qed.

(** ** the code *)
Lemma final_of_loop f (F : Fp12) (x : Fp12) : r12 f F -> chi F = x -> x <> f0 ->
  r12 (fp12_conjugate f) (Fp12_conj F) /\ Fp12_conj F <> f0 /\ chi (Fp12_conj F) = finv x.
Proof.
  intros R E N. assert (C : chi (Fp12_conj F) = finv x) by (rewrite (chi_conj F); [rewrite E; reflexivity|rewrite E; exact N]).
  split; [exact (r12_conj _ _ R)|]. split; [|exact C]. intros Z. apply (finv_neq_0 (K:=Fp12) x N). rewrite <- C, Z. unfold chi. apply zpow_0_l. exact final_exponent_pos.
Qed.
Lemma final_of_conj f (F : Fp12) : r12 f F -> F <> f0 -> exists v, final_exponentiation f = Ok v /\ r12 v (chi F).
Proof. intros R N. destruct (final_exponentiation_ok f F R) as [_ H]. destruct (H N) as (v & E & RV). exists v. split; [exact E|]. unfold chi. exact RV. Qed.
Lemma g1_ast q P : g1_aff_stands q P <-> astands1 q P. Proof. apply Proof_G1Top.ast. Qed.
Lemma g2_ast q P : g2_aff_stands q P <-> astands2 q P. Proof. apply Proof_G2Top.ast. Qed.
Lemma gen2_sub : g2_subgroup g2_gen. Proof. exact (conj G2gen_on gen2_order). Qed.
Theorem pairing_code p q P Q : g1_aff_stands p P -> g2_aff_stands q Q -> g2_subgroup Q ->
  exists v, pairing_fn p q = Ok v /\ stands_for12 v (pairing_value P Q).
Proof.
  intros SP SQ SUB. apply g1_ast in SP. apply g2_ast in SQ. unfold pairing_fn.
  pose proof (aff_is_identity_ok p P SP) as IP. pose proof (aff_is_identity_ok q Q SQ) as IQ.
  pose proof (aff_stands_on_curve _ _ SP) as CP. pose proof (proj1 SUB) as CQ.
  destruct (aff_is_identity p || aff_is_identity q) eqn:E; unfold select.
  - destruct (single_ok g1_gen g2_gen g1_generator_affine g2_generator_affine (sub_eigen _ gen2_sub) G2gen_finite) as (cur & f & L & F & R & C).
    + discriminate.
    + apply g1_ast. exact (proj1 (proj2 g1_generator_ok)).
    + apply g2_ast. exact (proj1 (proj2 g2_generator_ok)).
    + rewrite L. cbn [bind snd]. rewrite fp12_select_true. destruct (final_of_conj fp12_one f1 r12_one (@f1_neq_0 Fp12)) as (v & EV & RV).
      exists v. split; [exact EV|]. apply stands_for12_rep. refine (r12_to _ _ _ RV _). rewrite chi_one. symmetry.
      apply orb_prop in E. destruct E as [E|E].
      * rewrite (proj1 IP E). exact (proj1 (pairing_identity P Q)).
      * rewrite (proj1 IQ E). exact (proj2 (pairing_identity P Q)).
  - apply orb_false_elim in E. destruct E as [E1 E2].
    assert (NP : P <> Infinity) by (intros Z; apply IP in Z; rewrite Z in E1; discriminate E1).
    assert (NQ : Q <> Infinity) by (intros Z; apply IQ in Z; rewrite Z in E2; discriminate E2).
    destruct (single_ok P Q p q (sub_eigen Q SUB) NQ NP SP SQ) as (cur & f & L & F & R & C).
    rewrite L. cbn [bind snd]. rewrite fp12_select_false.
    destruct (final_of_loop f F _ R C (proj1 (mk_root P Q BLS_X CP CQ))) as (R' & N' & C').
    destruct (final_of_conj _ _ R' N') as (v & EV & RV). exists v. split; [exact EV|]. apply stands_for12_rep. refine (r12_to _ _ _ RV _). rewrite C'. symmetry. apply pairing_value_mk.
Qed.
Lemma prepare_ok q Q : astands2 q Q -> g2_subgroup Q -> exists pr, g2_prepare q = Ok pr /\ prep_for pr Q.
Proof.
  intros SQ SUB. unfold g2_prepare. pose proof (aff_is_identity_ok q Q SQ) as IQ. destruct (aff_is_identity q) eqn:E; unfold select.
  - destruct (prep_ok g2_gen g2_generator_affine (sub_eigen _ gen2_sub) G2gen_finite) as (cur & cs & u & L & LEN & _).
    { apply g2_ast. exact (proj1 (proj2 g2_generator_ok)). }
    rewrite L. cbn [bind snd fst]. rewrite LEN. cbn [Nat.eqb]. eexists. split; [reflexivity|]. split; [exact (sub_eigen Q SUB)|]. cbn [prep_coeffs prep_infinity].
    split; [exact LEN|]. split; [exact IQ|]. intros N. destruct N. apply IQ. reflexivity.
  - assert (NQ : Q <> Infinity) by (intros Z; apply IQ in Z; discriminate Z).
    destruct (prep_ok Q q (sub_eigen _ SUB) NQ SQ) as (cur & cs & u & L & LEN & H).
    rewrite L. cbn [bind snd fst]. rewrite LEN. cbn [Nat.eqb]. eexists. split; [reflexivity|]. split; [exact (sub_eigen Q SUB)|]. cbn [prep_coeffs prep_infinity].
    split; [exact LEN|]. split; [exact IQ|]. intros N. split; [exact LEN|exact H].
Qed.
Lemma multi_loop_ok ts Ts : Forall2 term_ok ts Ts -> exists l F, multi_miller_loop ts = Ok l /\ r12 l F /\ F <> f0 /\ chi F = prodK (K:=Fp12) (fun T => pairing_value (fst T) (snd T)) Ts.
Proof.
  intros FT. destruct (multi_ok ts Ts FT) as (f & L & F & R & C).
  assert (NZ : Forall (fun T => mk (fst T) (snd T) BLS_X <> f0) Ts).
  { refine (Forall_impl _ _ (terms_on ts Ts FT)). intros T [A B]. exact (proj1 (mk_root _ _ BLS_X A B)). }
  destruct (final_of_loop f F _ R C (prodK_nz (K:=Fp12) _ Ts NZ)) as (R' & N' & C').
  exists (fp12_conjugate f), (Fp12_conj F). split; [exact L|]. split; [exact R'|]. split; [exact N'|]. rewrite C'. unfold PM. rewrite (prodK_inv (K:=Fp12) _ Ts NZ).
  apply (prodK_ext (K:=Fp12)). apply Forall_forall. intros T _. symmetry. apply pairing_value_mk.
Qed.
Definition pair_stands (t : g1_affine * g2_affine) (T : point Fp * point Fp2) : Prop :=
  g1_aff_stands (fst t) (fst T) /\ g2_aff_stands (snd t) (snd T) /\ g2_subgroup (snd T).
Lemma prepare_list ts Ts : Forall2 pair_stands ts Ts ->
  exists prs, Forall2 (fun t pr => g2_prepare (snd t) = Ok pr) ts prs /\ Forall2 term_ok (combine (map fst ts) prs) Ts.
Proof.
  induction 1 as [|t T ts Ts (SP & SQ & SUB) _ IH]; [exists []; split; constructor|]. destruct IH as (prs & F1 & F2).
  destruct (prepare_ok (snd t) (snd T) (proj1 (g2_ast _ _) SQ) SUB) as (pr & E & PF). exists (pr :: prs). split; [constructor; assumption|].
  cbn [map combine]. constructor; [|exact F2]. split; [exact (proj1 (g1_ast _ _) SP)|exact PF].
Qed.
Theorem multi_pairing_code ts Ts : Forall2 (fun t T => g1_aff_stands (fst t) (fst T) /\ g2_aff_stands (snd t) (snd T) /\ g2_subgroup (snd T)) ts Ts ->
  exists prs l v, Forall2 (fun t pr => g2_prepare (snd t) = Ok pr) ts prs /\ multi_miller_loop (combine (map fst ts) prs) = Ok l /\
    final_exponentiation l = Ok v /\ stands_for12 v (pairing_product Ts).
Proof.
  intros H. destruct (prepare_list ts Ts H) as (prs & F1 & F2). destruct (multi_loop_ok _ _ F2) as (l & F & L & R & N & C).
  destruct (final_of_conj l F R N) as (v & E & RV). exists prs, l, v. split; [exact F1|]. split; [exact L|]. split; [exact E|]. apply stands_for12_rep. refine (r12_to _ _ _ RV _). exact C.
Qed.
Notation pstands1 := (proj_stands (F:=fp_ops) b4 frep).
Lemma g1_pst q P : g1_stands q P <-> pstands1 q P. Proof. apply Proof_G1Top.pst. Qed.
Lemma g2_pst q P : g2_stands q P <-> pstands2 q P. Proof. apply Proof_G2Top.pst. Qed.
Lemma one_term p pr P Q : astands1 p P -> prep_for pr Q -> exists l F, multi_miller_loop [(p, pr)] = Ok l /\ r12 l F /\ F <> f0 /\ chi F = pairing_value P Q.
Proof.
  intros SP PQ. destruct (multi_loop_ok [(p, pr)] [(P, Q)]) as (l & F & L & R & N & C).
  { constructor; [|constructor]. split; [exact SP|exact PQ]. }
  exists l, F. split; [exact L|]. split; [exact R|]. split; [exact N|]. rewrite C. cbn [prodK fold_right fst snd]. exact (mul_1_r (K:=Fp12) _).
Qed.
Lemma chi_mul F F' : chi (fmul F F') = fmul (chi F) (chi F'). Proof. unfold chi. apply zpow_mul_base. Qed.
Theorem pairings_verify_code a1 a2 b1 b2 A1 A2 B1 B2 : g1_stands a1 A1 -> g2_stands a2 A2 -> g1_stands b1 B1 -> g2_stands b2 B2 -> g2_subgroup A2 -> g2_subgroup B2 ->
  exists v, zk_pairings_verify a1 a2 b1 b2 = Ok v /\ (v = true <-> pairing_value A1 A2 = pairing_value B1 B2).
Proof.
  intros S1 S2 T1 T2 SA SB. apply g1_pst in S1, T1. apply g2_pst in S2, T2. unfold zk_pairings_verify.
  pose proof (aff_from_proj_ok fp_ops_ok _ _ (proj_neg_ok fp_ops_ok _ _ S1)) as X1. pose proof (aff_from_proj_ok fp_ops_ok _ _ T1) as Y1.
  pose proof (aff_from_proj_ok fp2_ops_ok _ _ S2) as X2. pose proof (aff_from_proj_ok fp2_ops_ok _ _ T2) as Y2.
  destruct (prepare_ok _ _ X2 SA) as (pa & EA & PA). destruct (prepare_ok _ _ Y2 SB) as (pb & EB & PB).
  destruct (one_term _ _ _ _ X1 PA) as (l0 & F0 & L0 & R0 & N0 & C0). destruct (one_term _ _ _ _ Y1 PB) as (l1 & F1 & L1 & R1 & N1 & C1).
  pose proof (r12_mul _ _ _ _ R0 R1) as R. destruct (final_of_conj _ _ R (mul_nonzero (K:=Fp12) _ _ N0 N1)) as (v & EV & RV).
  rewrite EA. cbn [bind]. rewrite EB. cbn [bind]. rewrite L0. cbn [bind]. rewrite L1. cbn [bind]. unfold miller_result_add. rewrite EV. cbn [bind].
  exists (fp12_eq fp12_one v). split; [reflexivity|]. rewrite (r12_eq _ _ _ _ r12_one RV), (feqb_spec Fp12 f1 (chi (fmul F0 F1))), (chi_mul F0 F1), C0, C1.
  pose proof (proj_stands_on_curve _ _ S1) as CA. rewrite (pairing_neg A1 A2 CA SA).
  pose proof (quotient_one (K:=Fp12) (pairing_value A1 A2) (pairing_value B1 B2) (pairing_nonzero A1 A2 CA (proj1 SA))) as QO.
  split; [intros E; apply (proj1 QO); symmetry; exact E|intros E; symmetry; exact (proj2 QO E)].
Qed.
