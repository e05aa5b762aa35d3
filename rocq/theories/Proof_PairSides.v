(** * Proof_PairSides: both groups of the curve inside the big field *)
From Coq Require Import ZArith List Bool Lia Ring Field.
From Verif Require Import Base Fld Tables Zr Zp Spec_Fp Model_Scalar Model_Fp Proof_FpRep Proof_FpTop Proof_G1Base Model_Curve Model_Fp2 Model_Fp12 Model_G2 Spec_Curve Proof_Curve Proof_CurveMul Proof_Twist Spec_G1 Spec_G2 Proof_G2Base Proof_G2Psi Proof_Lines Proof_Side Proof_Bilin Spec_Ext Proof_Fp12 Proof_ExtTop Power Tower Ext Proof_Cyclo Spec_Pair Proof_FinalExp Proof_Gt.
Import ListNotations.

(** ** homomorphisms *)
Section Hom.
Context {k K : fld} (j : k -> K) (t : K) (bk : k) (b : K).
Add Field Khom : (fld_field K).
Add Field khom : (fld_field k).
Local Open Scope fld_scope.
Hypothesis j1 : j 1 = 1.
Hypothesis j_add : forall x y, j (x + y) = j x + j y.
Hypothesis j_mul : forall x y, j (x * y) = j x * j y.
Hypothesis t_nz : t <> 0.
Hypothesis jb : j bk * (t * t * t * t * t * t) = b.
Lemma hom_zero : j 0 = 0.
Proof. assert (E : j 0 + j 0 = j 0) by (rewrite <- j_add; f_equal; ring). transitivity (j 0 + j 0 - j 0); [ring|]. rewrite E. ring. Qed.
Lemma hom_neg x : j (- x) = - j x.
Proof. transitivity (j (- x) + j x - j x); [ring|]. rewrite <- j_add. replace (- x + x) with (0 : k) by ring. rewrite hom_zero. ring. Qed.
Lemma hom_sub x y : j (x - y) = j x - j y.
Proof. replace (x - y) with (x + - y) by ring. rewrite j_add, hom_neg. ring. Qed.
Lemma hom_nz x : x <> 0 -> j x <> 0.
Proof. intros N E. apply (@f1_neq_0 K). rewrite <- j1. replace (1 : k) with (x * finv x) by (field; exact N). rewrite j_mul, E. ring. Qed.
Lemma hom_inj x y : j x = j y -> x = y.
Proof. intros E. apply fsub_eq_0. destruct (fdec (x - y) 0) as [Z|N]; [exact Z|]. destruct (hom_nz _ N). rewrite hom_sub, E. ring. Qed.
Lemma hom_inv x : x <> 0 -> j (finv x) = finv (j x).
Proof. intros N. apply (fmul_cancel_l (j x)); [exact (hom_nz x N)|]. rewrite <- j_mul. replace (x * finv x) with (1 : k) by (field; exact N). rewrite j1. field. exact (hom_nz x N). Qed.
Context (ex ey em : k -> K).
Hypothesis Ex : forall x, ex x = j x * (t * t).
Hypothesis Ey : forall y, ey y = j y * (t * t * t).
Hypothesis Em : forall m, em m = j m * t.
Lemma hom_col m c x1 y1 x2 y2 x3 y3 : col bk m c x1 y1 x2 y2 x3 y3 ->
  col b (em m) (ey c) (ex x1) (ey y1) (ex x2) (ey y2) (ex x3) (ey y3).
Proof.
  intros ((Y1 & Y2 & Y3) & E1 & E2 & E3). rewrite !Ex, !Ey, !Em. rewrite Y1, Y2, Y3, !j_add, !j_mul.
  apply (f_equal j) in E1, E2, E3. rewrite ?j_mul, ?j_add in E1. rewrite hom_neg, ?j_add, ?j_mul, ?j_add, ?j1 in E2. rewrite hom_sub, ?j_mul in E3.
  split; [split; [|split]; ring|]. split; [transitivity (j m * j m * (t * t)); [ring|]; rewrite E1; ring|].
  split; [transitivity (- ((1 + 1) * (j m * j c)) * (t * t * t * t)); [ring|]; rewrite E2; ring|].
  rewrite <- jb. transitivity ((j c * j c - j bk) * (t * t * t * t * t * t)); [ring|]. rewrite E3. ring.
Qed.
Lemma tt_nz : t * t <> 0. Proof. apply mul_nonzero; exact t_nz. Qed.
Lemma ttt_nz : t * t * t <> 0. Proof. apply mul_nonzero; [exact tt_nz|exact t_nz]. Qed.
Lemma hom_side : (1 + 1 : k) <> 0 -> (forall x : k, x * x * x + bk <> 0) -> side_ok bk b ex ey em.
Proof.
  intros H2 NT. constructor.
  - exact H2.
  - exact NT.
  - intros E. apply (hom_nz (1 + 1) H2). rewrite j_add, j1. exact E.
  - intros y. rewrite !Ey, hom_neg. ring.
  - intros y. rewrite !Em, hom_neg. ring.
  - exact hom_col.
  - intros x x' E. rewrite !Ex in E. apply hom_inj. apply (fmul_cancel_l (t * t)); [exact tt_nz|]. transitivity (j x * (t * t)); [ring|]. rewrite E. ring.
  - intros y N. rewrite Ey. apply mul_nonzero; [exact (hom_nz y N)|exact ttt_nz].
Qed.
Lemma hom_on_curve P : on_curve bk P -> on_curve b (pmap ex ey P).
Proof.
  destruct P as [|x y]; [exact (fun H => H)|]. cbn [pmap on_curve]. intros E. rewrite Ex, Ey, <- jb. apply (f_equal j) in E. rewrite j_add, !j_mul in E.
  transitivity (j y * j y * (t * t * t * t * t * t)); [ring|]. rewrite E. ring.
Qed.
End Hom.

Section Trivial.
Context {K : fld}.
Add Field Ktr : (fld_field K).
Local Open Scope fld_scope.
Lemma mul_ones (x : K) : x = x * (1 * 1). Proof. ring. Qed.
Lemma mul_ones3 (x : K) : x = x * (1 * 1 * 1). Proof. ring. Qed.
Lemma mul_one_r (x : K) : x = x * 1. Proof. ring. Qed.
Lemma mul_ones6 (x : K) : x * (1 * 1 * 1 * 1 * 1 * 1) = x. Proof. ring. Qed.
Lemma sixth (t w c x : K) : w <> 0 -> t = finv w -> x = c * (w * w * (w * w) * (w * w)) -> x * (t * t * t * t * t * t) = c.
Proof. intros N -> ->. field. exact N. Qed.
Lemma inv_square' (w v : K) : w <> 0 -> w * w = v -> finv w * finv w = finv v.
Proof. intros N <-. field. exact N. Qed.
Lemma square_quotient (y s x : K) : s <> 0 -> y * y = s * s * x -> y * finv s * (y * finv s) = x.
Proof. intros N E. transitivity (y * y * finv s * finv s); [ring|]. rewrite E. field. exact N. Qed.
Lemma zero_zero : (0 * 0 : K) = 0. Proof. ring. Qed.
Lemma sub_swap (x y : K) : x - y = - (y - x). Proof. ring. Qed.
Lemma neg_zero (x : K) : - x = 0 -> x = 0. Proof. intros E. transitivity (- - x); [ring|]. rewrite E. ring. Qed.
Lemma sub_div (x y v : K) : v <> 0 -> x - y * finv v = 0 -> x * v = y.
Proof. intros N E. apply fsub_eq_0. transitivity ((x - y * finv v) * v); [field; exact N|]. rewrite E. ring. Qed.
Lemma cube_zero (y c : K) : y * y = 0 * 0 * 0 + c -> y * y = c. Proof. intros ->. ring. Qed.
Lemma zpow_comm (x : K) m n : (0 <= m)%Z -> (0 <= n)%Z -> zpow (zpow x m) n = zpow (zpow x n) m.
Proof. intros A B. rewrite <- !zpow_mul_nn by assumption. apply (f_equal (zpow x)). apply Z.mul_comm. Qed.
Lemma zpow_zero (x : K) n : (0 < n)%Z -> zpow x n <> 0 -> x <> 0.
Proof. intros N E ->. apply E. now rewrite zpow_0_l by lia. Qed.
Lemma scale_swap (x y z : K) : x * (y * z) = y * (x * z). Proof. ring. Qed.
Lemma frob_w (w c g wp : K) : w <> 0 -> c * g = 1 -> wp = w * g -> finv wp = c * finv w.
Proof.
  intros N E ->. assert (G : g <> 0) by (intros Z; apply (@f1_neq_0 K); rewrite <- E, Z; ring).
  assert (C : c = finv g) by (symmetry; apply finv_unique; rewrite <- E; ring). rewrite C. field. split; assumption.
Qed.
End Trivial.
Section ConjQ.
Context {K : fld} (d : K) (ND : forall x : K, fmul x x <> d).
Add Field Kcq : (fld_field K).
Local Open Scope fld_scope.
Lemma quad_of_inj (x y : K) : quad_of x = quad_of y -> x = y.
Proof. intros E. exact (f_equal (fun z : quad K => q0 z) E). Qed.
Lemma quad_of_conj (x : K) : quad_conj (quad_of x) = quad_of x.
Proof. unfold quad_conj, quad_of. cbn [q0 q1]. apply (f_equal (Quad x)). ring. Qed.
Lemma quad_of_neg (x : K) : quad_neg (quad_of x) = quad_of (- x).
Proof. unfold quad_neg, quad_of. cbn [q0 q1]. apply (f_equal (Quad (- x))). ring. Qed.
End ConjQ.
Section CubicCmp.
Context {K : fld} (xi : K) (NX : forall x : K, fmul (fmul x x) x <> xi).
Add Field Kcc : (fld_field K).
Local Open Scope fld_scope.
Lemma cubic_of_inj (x y : K) : cubic_of x = cubic_of y -> x = y.
Proof. intros E. exact (f_equal (fun z : cubic K => k0 z) E). Qed.
Lemma cubic_root_mul (x y : K) : cubic_mul xi (cubic_of x) (Cubic 0 1 0) = cubic_of y -> y = 0.
Proof. intros E. pose proof (f_equal (fun z : cubic K => k0 z) E) as F. unfold cubic_mul, cubic_of in F. cbn [k0 k1 k2] in F. rewrite <- F. ring. Qed.
Lemma cubic_one_nz : (Cubic 0 1 0 : cubic K) <> Cubic 0 0 0.
Proof. intros E. apply (@f1_neq_0 K). exact (f_equal (fun z : cubic K => k1 z) E). Qed.
End CubicCmp.
Section XiScale.
Context {K : fld} (ND : forall x : K, fmul x x <> fneg f1).
Add Field Kxs : (fld_field K).
Local Open Scope fld_scope.
Lemma scale_xi (a : K) : quad_mul (- (1)) (quad_of a) (Quad 1 1) = Quad a a.
Proof. unfold quad_mul, quad_of. cbn [q0 q1]. apply (f_equal2 Quad); ring. Qed.
Lemma quad_conj_of (a : K) : quad_conj (quad_of a) = quad_of a.
Proof. unfold quad_conj, quad_of. cbn [q0 q1]. apply (f_equal (Quad a)). ring. Qed.
End XiScale.
Section FrobValues.
Context {K : fld} (xi : K) (NX : forall x : K, fmul (fmul x x) x <> xi).
Local Open Scope fld_scope.
Notation C := (cubic_fld xi NX).
Context (ND : forall x : C, fmul x x <> cubic_root xi NX).
Notation Q := (quad_fld (cubic_root xi NX : C) ND).
Add Field Kfv : (fld_field K).
Add Field Cfv : (fld_field C).
Context (conj : K -> K) (C0 : conj 0 = 0) (C1 : conj 1 = 1) (g g2 g4 : K).
Notation FR := (fr12 xi NX ND conj g g2 g4).
Lemma fr6_of x : fr6 xi NX conj g2 g4 (cubic_of x) = cubic_of (conj x).
Proof. unfold fr6, cubic_of. cbn [k0 k1 k2]. rewrite C0. apply (f_equal2 (Cubic (conj x))); ring. Qed.
Lemma fr12_of x : FR (quad_of (cubic_of x : C)) = quad_of (cubic_of (conj x) : C).
Proof.
  unfold fr12, quad_of. cbn [q0 q1]. rewrite fr6_of. apply (f_equal (Quad (cubic_of (conj x) : C))).
  change (0 : C) with (cubic_of 0 : C). rewrite fr6_of, C0. change (@fmul C (cubic_of g) (0 : C) = (0 : C)). ring.
Qed.
Lemma fr12_root : FR (Quad (0 : C) (1 : C)) = @fmul Q (Quad (0 : C) (1 : C)) (quad_of (cubic_of g : C)).
Proof.
  unfold fr12. cbn [q0 q1]. change (0 : C) with (cubic_of 0 : C) at 1. change (1 : C) with (cubic_of 1 : C) at 1. rewrite !fr6_of, C0, C1.
  change (Quad (0 : C) (@fmul C (cubic_of g) (1 : C)) = quad_mul (cubic_root xi NX : C) (Quad (0 : C) (1 : C)) (quad_of (cubic_of g : C))).
  unfold quad_mul, quad_of. cbn [q0 q1]. apply (f_equal2 Quad); ring.
Qed.
End FrobValues.
Local Open Scope Z_scope.

(** ** the embeddings *)
Lemma e1_one : embed1 f1 = f1. Proof. reflexivity. Qed.
Lemma of2_add (x y : Fp) : Fp2_of (fadd x y) = fadd (Fp2_of x) (Fp2_of y). Proof. exact (quad_of_add x y). Qed.
Lemma of2_mul (x y : Fp) : Fp2_of (fmul x y) = fmul (Fp2_of x) (Fp2_of y). Proof. exact (quad_of_mul _ x y). Qed.
Lemma of6_add (x y : Fp2) : Fp6_of (fadd x y) = fadd (Fp6_of x) (Fp6_of y). Proof. exact (cubic_of_add x y). Qed.
Lemma of6_mul (x y : Fp2) : Fp6_of (fmul x y) = fmul (Fp6_of x) (Fp6_of y). Proof. exact (cubic_of_mul _ x y). Qed.
Lemma of12_add (x y : Fp6) : Fp12_of (fadd x y) = fadd (Fp12_of x) (Fp12_of y). Proof. exact (quad_of_add x y). Qed.
Lemma of12_mul (x y : Fp6) : Fp12_of (fmul x y) = fmul (Fp12_of x) (Fp12_of y). Proof. exact (quad_of_mul _ x y). Qed.
Lemma emb2_add (x y : Fp2) : embed2 (fadd x y) = fadd (embed2 x) (embed2 y).
Proof. unfold embed2. rewrite of6_add, of12_add. reflexivity. Qed.
Lemma emb2_mul (x y : Fp2) : embed2 (fmul x y) = fmul (embed2 x) (embed2 y).
Proof. unfold embed2. rewrite of6_mul, of12_mul. reflexivity. Qed.
Lemma emb1_is x : embed1 x = embed2 (Fp2_of x). Proof. reflexivity. Qed.
Lemma emb1_add (x y : Fp) : embed1 (fadd x y) = fadd (embed1 x) (embed1 y).
Proof. rewrite !emb1_is, of2_add, emb2_add. reflexivity. Qed.
Lemma emb1_mul (x y : Fp) : embed1 (fmul x y) = fmul (embed1 x) (embed1 y).
Proof. rewrite !emb1_is, of2_mul, emb2_mul. reflexivity. Qed.
Lemma emb2_one : embed2 f1 = f1. Proof. reflexivity. Qed.

Lemma root_is_w : Fp12_root = Fp12_w. Proof. reflexivity. Qed.
Lemma v_nz : Fp6_v <> f0. Proof. exact (cubic_one_nz (K:=Fp2)). Qed.
Lemma of12_nz (z : Fp6) : z <> f0 -> Fp12_of z <> f0.
Proof. intros N E. apply N. exact (quad_of_inj (K:=Fp6) z f0 E). Qed.
Lemma w_nz : Fp12_root <> f0.
Proof.
  intros E. apply (of12_nz _ v_nz). rewrite <- w_square, <- root_is_w, E. exact (zero_zero (K:=Fp12)).
Qed.

Lemma bq_scale : bq = fmul (Fp2_of b4) xi.
Proof. symmetry. exact (scale_xi (K:=Fp) b4). Qed.
Lemma w_sixth : fmul (fmul (fmul Fp12_root Fp12_root) (fmul Fp12_root Fp12_root)) (fmul Fp12_root Fp12_root) = embed2 xi.
Proof. rewrite root_is_w, w_square, <- !of12_mul, v_cube. reflexivity. Qed.
Definition b12 : Fp12 := embed1 b4.
Lemma untwist_b : fmul (embed2 bq) (fmul (fmul (fmul (fmul (fmul w_inv w_inv) w_inv) w_inv) w_inv) w_inv) = b12.
Proof.
  apply (sixth (K:=Fp12) w_inv Fp12_root b12 _ w_nz eq_refl). rewrite w_sixth, bq_scale, emb2_mul. reflexivity.
Qed.
Lemma w_inv_nz : w_inv <> f0. Proof. exact (finv_neq_0 _ w_nz). Qed.
Definition side1 : side_ok b4 b12 embed1 embed1 embed1 :=
  hom_side embed1 f1 b4 b12 e1_one emb1_add emb1_mul (@f1_neq_0 Fp12) (mul_ones6 (K:=Fp12) _) embed1 embed1 embed1
    (fun x => mul_ones (K:=Fp12) _) (fun x => mul_ones3 (K:=Fp12) _) (fun x => mul_one_r (K:=Fp12) _) Fp_two Fp_NoTwo.
Definition side2 : side_ok bq b12 untwist_x untwist_y untwist_m :=
  hom_side embed2 w_inv bq b12 emb2_one emb2_add emb2_mul w_inv_nz untwist_b untwist_x untwist_y untwist_m
    (fun x => eq_refl) (fun x => eq_refl) (fun x => eq_refl) Fp2_two Fp2_NoTwo.

(** ** the final power *)
Definition chi (x : Fp12) : Fp12 := zpow x final_exponent.
Definition small (x : Fp12) : Prop := exists z : Fp6, x = Fp12_of z.
Lemma pos_from (a e q : Z) : 0 < a -> 1 < q -> a * e = 3 * (q - 1) -> 0 < e.
Proof. intros. nia. Qed.
Lemma p12_large : 1 < p ^ 12. Proof. vm_compute. reflexivity. Qed.
Lemma final_exponent_pos : 0 < final_exponent.
Proof. exact (pos_from r final_exponent (p ^ 12) r_pos p12_large final_exponent_r). Qed.
Lemma small_power (z : Fp6) : z <> f0 -> zpow (Fp12_of z) (p ^ 6 - 1) = f1.
Proof.
  intros N. pose proof (of12_nz z N) as N'. unfold Z.sub. rewrite zpow_add by exact N'. rewrite Fp12_pow_p6, zpow_neg, zpow_1.
  assert (E : Fp12_conj (Fp12_of z) = Fp12_of z) by exact (quad_of_conj (K:=Fp6) z). rewrite E. exact (inv_l_unit (K:=Fp12) _ N').
Qed.
Lemma chi_small_unit (u : Fp12) : small u -> u <> f0 -> chi u = f1.
Proof.
  intros [z ->] N. unfold chi. rewrite <- final_exponent_split. unfold easy_exponent.
  assert (NZ : z <> f0) by (intros ->; apply N; reflexivity).
  rewrite <- Z.mul_assoc. apply (root_multiple (K:=Fp12)); [exact N|]. exact (small_power z NZ).
Qed.
Lemma small_product (x y : Fp12) : small x -> small y -> small (fmul x y).
Proof. intros [a ->] [c ->]. exists (fmul a c). symmetry. apply of12_mul. Qed.
Lemma of12_neg (x : Fp6) : Fp12_of (fneg x) = fneg (Fp12_of x). Proof. symmetry. exact (quad_of_neg (K:=Fp6) x). Qed.
Lemma of12_sub (x y : Fp6) : Fp12_of (fsub x y) = fsub (Fp12_of x) (Fp12_of y).
Proof. exact (hom_sub (k:=Fp6) (K:=Fp12) Fp12_of of12_add x y). Qed.
Lemma chi_product (x y : Fp12) : chi (fmul x y) = fmul (chi x) (chi y).
Proof. unfold chi. apply zpow_mul_base. Qed.
Lemma small_minus_one : small (fneg f1).
Proof. exists (fneg f1). rewrite of12_neg. reflexivity. Qed.
Lemma chi_pair : chi_ok chi small.
Proof.
  constructor.
  - exact chi_product.
  - exact small_product.
  - exact small_minus_one.
  - exact chi_small_unit.
Qed.
Lemma chi_root (x : Fp12) : chi x <> f0 -> zpow (chi x) r = f1.
Proof.
  unfold chi. intros N. apply (zpow_zero (K:=Fp12) _ _ final_exponent_pos) in N. pose proof (final_member x N) as H. unfold gt_member in H. exact H.
Qed.

(** ** no point of one group lies below a point of the other *)
Lemma w_inv_square : fmul w_inv w_inv = Fp12_of (finv Fp6_v).
Proof.
  unfold w_inv. rewrite (inv_square' (K:=Fp12) Fp12_root (Fp12_of Fp6_v) w_nz w_square).
  symmetry. exact (hom_inv (k:=Fp6) (K:=Fp12) Fp12_of eq_refl of12_mul Fp6_v v_nz).
Qed.
Lemma x_difference (x : Fp) (x' : Fp2) : fsub (embed1 x) (untwist_x x') = Fp12_of (fsub (Fp6_of (Fp2_of x)) (fmul (Fp6_of x') (finv Fp6_v))).
Proof. unfold untwist_x. rewrite w_inv_square, of12_sub, of12_mul. reflexivity. Qed.
Lemma twist_x_nz (x y : Fp2) : fmul y y = fadd (fmul (fmul x x) x) bq -> x <> f0.
Proof.
  intros E ->. apply (cube_zero (K:=Fp2)) in E. rewrite bq_scale in E.
  assert (B : b4 = fmul (fp_of 2) (fp_of 2)) by (rewrite <- fp_of_mul; reflexivity). rewrite B, of2_mul in E.
  assert (N : Fp2_of (fp_of 2) <> f0).
  { intros Z. apply (quad_of_inj (K:=Fp)) in Z. revert Z. rewrite <- Fp_of_0. apply fp_of_neq. vm_compute. reflexivity. }
  apply (xi_nonsquare (fmul y (finv (Fp2_of (fp_of 2))))). exact (square_quotient (K:=Fp2) y _ xi N E).
Qed.
Lemma x_apart (x : Fp) (x' y' : Fp2) : fmul y' y' = fadd (fmul (fmul x' x') x') bq ->
  small (fsub (embed1 x) (untwist_x x')) /\ fsub (embed1 x) (untwist_x x') <> f0.
Proof.
  intros E. rewrite x_difference. split; [eexists; reflexivity|]. apply of12_nz. intros Z.
  apply (sub_div (K:=Fp6) _ _ _ v_nz) in Z. exact (twist_x_nz x' y' E (cubic_root_mul (K:=Fp2) xi (Fp2_of x) x' Z)).
Qed.
Notation e1 := (e1 embed1 embed1).
Notation e2 := (e2 untwist_x untwist_y).
Lemma adm_first (P : point Fp) : on_curve b4 P -> adm bq b12 untwist_x small (e1 P).
Proof.
  intros C. split.
  - exact (hom_on_curve embed1 f1 b4 b12 emb1_add emb1_mul (mul_ones6 (K:=Fp12) _) embed1 embed1 (fun x => mul_ones (K:=Fp12) _) (fun x => mul_ones3 (K:=Fp12) _) P C).
  - destruct P as [|x y]; [exact I|]. intros x' y' E. exact (x_apart x x' y' E).
Qed.
Lemma untwist_x_is x : untwist_x x = fmul (embed2 x) (fmul w_inv w_inv). Proof. reflexivity. Qed.
Lemma untwist_y_is y : untwist_y y = fmul (embed2 y) (fmul (fmul w_inv w_inv) w_inv). Proof. reflexivity. Qed.
Definition untwist_on := hom_on_curve embed2 w_inv bq b12 emb2_add emb2_mul untwist_b untwist_x untwist_y untwist_x_is untwist_y_is.
Lemma adm_second (A : point Fp2) : on_curve bq A -> adm b4 b12 embed1 small (e2 A).
Proof.
  intros C. split.
  - exact (untwist_on A C).
  - destruct A as [|x y]; [exact I|]. intros x' y' _. destruct (x_apart x' x y C) as [[z S] N]. split.
    + exists (fneg z). rewrite of12_neg, <- S. exact (sub_swap (K:=Fp12) _ _).
    + intros Z. apply N. rewrite (sub_swap (K:=Fp12)) in Z. exact (neg_zero (K:=Fp12) _ Z).
Qed.

(** ** the Frobenius map *)
Definition frob12 (x : Fp12) : Fp12 := zpow x p.
Lemma conj_zero : Fp2_conj f0 = f0. Proof. exact (quad_conj_of (K:=Fp) f0). Qed.
Lemma frob_embed2 (x : Fp2) : frob12 (embed2 x) = embed2 (Fp2_conj x).
Proof. unfold frob12. rewrite Fp12_frobenius. exact (fr12_of xi xi_noncube v_nonsquare Fp2_conj conj_zero gamma gamma2 gamma4 x). Qed.
Lemma frob_embed1 (x : Fp) : frob12 (embed1 x) = embed1 x.
Proof. rewrite emb1_is, frob_embed2. apply (f_equal embed2). exact (quad_conj_of (K:=Fp) x). Qed.
Lemma frob_root : frob12 Fp12_root = fmul Fp12_root (embed2 gamma).
Proof. unfold frob12. rewrite Fp12_frobenius. exact (fr12_root xi xi_noncube v_nonsquare Fp2_conj conj_zero conj_one gamma gamma2 gamma4). Qed.
Lemma frob_mul (x y : Fp12) : frob12 (fmul x y) = fmul (frob12 x) (frob12 y). Proof. unfold frob12. apply zpow_mul_base. Qed.
Lemma frob_inv (x : Fp12) : frob12 (finv x) = finv (frob12 x). Proof. unfold frob12. apply zpow_inv. Qed.
Lemma frob_w_inv : frob12 w_inv = fmul (embed2 psi_c) w_inv.
Proof.
  unfold w_inv. rewrite frob_inv. apply (frob_w (K:=Fp12) _ _ (embed2 gamma)).
  - exact w_nz.
  - rewrite <- emb2_mul, psi_c_gamma. reflexivity.
  - exact frob_root.
Qed.
Lemma Fp12_char_p : fnat pn = (f0 : Fp12).
Proof. exact (quad_char pn Fp6_char Fp6_v v_nonsquare). Qed.
Lemma frob_add (x y : Fp12) : frob12 (fadd x y) = fadd (frob12 x) (frob12 y).
Proof. unfold frob12. rewrite <- pn_Z, !zpow_of_nat. exact (freshman pn pn_prime Fp12_char_p x y). Qed.
Lemma frob_sub (x y : Fp12) : frob12 (fsub x y) = fsub (frob12 x) (frob12 y).
Proof. exact (hom_sub (k:=Fp12) (K:=Fp12) frob12 frob_add x y). Qed.
Lemma p_nn : 0 <= p. Proof. discriminate. Qed.
Lemma final_exponent_nn : 0 <= final_exponent. Proof. apply Z.lt_le_incl, final_exponent_pos. Qed.
Lemma frob_chi (x : Fp12) : chi (frob12 x) = zpow (chi x) p.
Proof. exact (zpow_comm (K:=Fp12) x p final_exponent p_nn final_exponent_nn). Qed.
Definition psi_x (x : Fp2) : Fp2 := fmul (fmul psi_c psi_c) (Fp2_conj x).
Definition psi_y (y : Fp2) : Fp2 := fmul (fmul (fmul psi_c psi_c) psi_c) (Fp2_conj y).
Definition psi_m (m : Fp2) : Fp2 := fmul psi_c (Fp2_conj m).
Section Rearr.
Context {K : fld}.
Add Field Krr : (fld_field K).
Local Open Scope fld_scope.
Lemma rearr1 (c x t : K) : x * (c * t) = c * x * t. Proof. ring. Qed.
Lemma rearr2 (c x t : K) : x * (c * t * (c * t)) = c * c * x * (t * t). Proof. ring. Qed.
Lemma rearr3 (c x t : K) : x * (c * t * (c * t) * (c * t)) = c * c * c * x * (t * t * t). Proof. ring. Qed.
Lemma rearr6 (c x : K) : x * (c * c * c * c * c * c) = c * c * c * c * c * c * x. Proof. ring. Qed.
Lemma rearr_x (c x : K) : c * c * x = x * (c * c). Proof. ring. Qed.
Lemma rearr_y (c x : K) : c * c * c * x = x * (c * c * c). Proof. ring. Qed.
Lemma rearr_m (c x : K) : c * x = x * c. Proof. ring. Qed.
End Rearr.
Lemma frob_first (x : Fp) : frob12 (embed1 x) = embed1 x /\ frob12 (embed1 x) = embed1 x /\ frob12 (embed1 x) = embed1 x.
Proof. split; [|split]; apply frob_embed1. Qed.
Lemma frob_second (x : Fp2) : frob12 (untwist_x x) = untwist_x (psi_x x) /\ frob12 (untwist_y x) = untwist_y (psi_y x) /\ frob12 (untwist_m x) = untwist_m (psi_m x).
Proof.
  unfold untwist_x, untwist_y, untwist_m, psi_x, psi_y, psi_m. split; [|split].
  - rewrite (frob_mul (embed2 x) (fmul w_inv w_inv)), (frob_mul w_inv w_inv), frob_w_inv, (frob_embed2 x).
    rewrite (emb2_mul (fmul psi_c psi_c) (Fp2_conj x)), (emb2_mul psi_c psi_c). exact (rearr2 (K:=Fp12) _ _ _).
  - rewrite (frob_mul (embed2 x) (fmul (fmul w_inv w_inv) w_inv)), (frob_mul (fmul w_inv w_inv) w_inv), (frob_mul w_inv w_inv), frob_w_inv, (frob_embed2 x).
    rewrite (emb2_mul (fmul (fmul psi_c psi_c) psi_c) (Fp2_conj x)), (emb2_mul (fmul psi_c psi_c) psi_c), (emb2_mul psi_c psi_c). exact (rearr3 (K:=Fp12) _ _ _).
  - rewrite (frob_mul (embed2 x) w_inv), frob_w_inv, (frob_embed2 x), (emb2_mul psi_c (Fp2_conj x)). exact (rearr1 (K:=Fp12) _ _ _).
Qed.
Lemma psi_col m c xa ya xb yb xs ys : col bq m c xa ya xb yb xs ys ->
  col bq (psi_m m) (psi_y c) (psi_x xa) (psi_y ya) (psi_x xb) (psi_y yb) (psi_x xs) (psi_y ys).
Proof.
  apply (hom_col (k:=Fp2) (K:=Fp2) Fp2_conj psi_c bq bq conj_one conj_add conj_mul).
  - exact (eq_trans (rearr6 (K:=Fp2) _ _) psi_c6).
  - intros x. exact (rearr_x (K:=Fp2) _ _).
  - intros x. exact (rearr_y (K:=Fp2) _ _).
  - intros x. exact (rearr_m (K:=Fp2) _ _).
Qed.
Section NegScale.
Context {K : fld} (s : K -> K) (s_neg : forall x, s (fneg x) = fneg (s x)).
Add Field Kns : (fld_field K).
Lemma neg_scale (c x : K) : fmul c (s (fneg x)) = fneg (fmul c (s x)). Proof. rewrite s_neg. ring. Qed.
End NegScale.
Lemma psi_y_neg (y : Fp2) : psi_y (fneg y) = fneg (psi_y y).
Proof. exact (neg_scale (K:=Fp2) Fp2_conj (hom_neg (k:=Fp2) (K:=Fp2) Fp2_conj conj_add) _ y). Qed.
Lemma psi_is (A : point Fp2) : Proof_Bilin.psi psi_x psi_y A = twist (K:=Fp2) Fp2_conj psi_c A.
Proof. destruct A; reflexivity. Qed.
Definition nn : nat := Z.to_nat BLS_X.
Lemma nn_Z : Z.of_nat nn = BLS_X. Proof. unfold nn. apply Z2Nat.id. discriminate. Qed.
Lemma nn_divides : (r | Z.of_nat nn + p).
Proof. rewrite nn_Z. exists ((BLS_X + p) / r). vm_compute. reflexivity. Qed.
Lemma bils_psi_on A : on_curve bq A -> on_curve bq (Proof_Bilin.psi psi_x psi_y A).
Proof. rewrite psi_is. exact (psi_on A). Qed.
Lemma bils_psi_add A B : on_curve bq A -> on_curve bq B ->
  Proof_Bilin.psi psi_x psi_y (point_add A B) = point_add (Proof_Bilin.psi psi_x psi_y A) (Proof_Bilin.psi psi_x psi_y B).
Proof. intros CA _. rewrite (psi_is (point_add A B)), (psi_is A), (psi_is B). symmetry. exact (psi_add A B CA). Qed.
(** Miller's function after the final power *)
Notation MM := (M untwist_y untwist_m chi).
Notation EIGEN := (eigen bq psi_x psi_y nn).
Theorem MM_additive_P A P Q : EIGEN A -> on_curve b4 P -> on_curve b4 Q -> MM nn A (e1 (point_add P Q)) = fmul (MM nn A (e1 P)) (MM nn A (e1 Q)).
Proof.
  exact (M_additive_P b4 bq b12 embed1 embed1 embed1 untwist_x untwist_y untwist_m chi small side1 side2 chi_pair adm_first adm_second
    frob12 p r psi_x psi_y psi_m nn frob_mul frob_sub frob_add frob_chi frob_first frob_second bils_psi_on chi_root nn_divides A P Q).
Qed.
Theorem MM_additive_A A B P : EIGEN A -> EIGEN B -> on_curve b4 P -> MM nn (point_add A B) (e1 P) = fmul (MM nn A (e1 P)) (MM nn B (e1 P)).
Proof.
  exact (M_additive_A b4 bq b12 embed1 embed1 embed1 untwist_x untwist_y untwist_m chi small side1 side2 chi_pair adm_first
    frob12 p r psi_x psi_y psi_m nn frob_mul frob_sub frob_add frob_chi frob_first frob_second psi_y_neg psi_col bils_psi_on bils_psi_add chi_root nn_divides A B P).
Qed.
Theorem MM_add a c A P : on_curve bq A -> on_curve b4 P ->
  MM (a + c)%nat A (e1 P) = fmul (fmul (MM a A (e1 P)) (MM c A (e1 P))) (G untwist_y untwist_m chi (point_zmul (Z.of_nat a) A) (point_zmul (Z.of_nat c) A) (e1 P)).
Proof.
  exact (M_add b4 bq b12 embed1 embed1 untwist_x untwist_y untwist_m chi small side2 chi_pair adm_first a c A P).
Qed.
