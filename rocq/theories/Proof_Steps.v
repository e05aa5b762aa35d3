(** * Proof_Steps: the two steps of the Miller loop and the evaluation of a line *)
From Coq Require Import ZArith List Bool Lia Ring Field.
From Verif Require Import Base Fld Tables Zr Zp Spec_Fp Model_Scalar Model_Fp Proof_FpRep Proof_FpTop Proof_G1Base Model_Curve Model_Fp2 Model_Fp12 Model_G1 Model_G2 Model_Pair Spec_Curve Proof_Curve Proof_CurveMul Spec_CurveCode Proof_CurveCode Spec_G1 Spec_G2 Proof_G2Base Proof_G2Psi Proof_Lines Proof_Side Proof_Bilin Spec_Ext Proof_Fp2 Proof_Fp12 Proof_ExtTop Power Tower Ext Proof_Cyclo Spec_Pair Proof_FinalExp Proof_Gt Proof_PairSides.
Import ListNotations.

Section StepAlg.
Context {K : fld}.
Add Field Kst : (fld_field K).
Local Open Scope fld_scope.
Hypothesis H2 : (1 + 1 : K) <> 0.
Definition jac (X Y Z : K) : point K := Affine (X / (Z * Z)) (Y / (Z * Z * Z)).
(** the values computed by the doubling step *)
Definition d_t3 (X Y : K) := let t := (Y * Y + X) * (Y * Y + X) - X * X - Y * Y * (Y * Y) in t + t.
Definition d_t4 (X : K) := X * X + X * X + X * X.
Definition d_X (X Y : K) := d_t4 X * d_t4 X - d_t3 X Y - d_t3 X Y.
Definition d_Z (Y Z : K) := (Z + Y) * (Z + Y) - Y * Y - Z * Z.
Definition d_Y (X Y : K) := (d_t3 X Y - d_X X Y) * d_t4 X - (let t := Y * Y * (Y * Y) + Y * Y * (Y * Y) in (t + t) + (t + t)).
Definition d_c0 (Y Z : K) := d_Z Y Z * (Z * Z) + d_Z Y Z * (Z * Z).
Definition d_c1 (X Z : K) := - (d_t4 X * (Z * Z) + d_t4 X * (Z * Z)).
Definition d_c2 (X Y : K) := (X + d_t4 X) * (X + d_t4 X) - X * X - d_t4 X * d_t4 X - (Y * Y + Y * Y + (Y * Y + Y * Y)).
Lemma two_mul (x : K) : (1 + 1) * x = 0 -> x = 0.
Proof. intros E. apply fmul_eq_0 in E. destruct E as [E|E]; [destruct (H2 E)|exact E]. Qed.
Lemma d_Z_is Y Z : d_Z Y Z = (1 + 1) * (Y * Z). Proof. unfold d_Z. ring. Qed.
Lemma d_Z_nz Y Z : Y <> 0 -> Z <> 0 -> d_Z Y Z <> 0.
Proof. intros A B. rewrite d_Z_is. apply mul_nonzero; [exact H2|]. apply mul_nonzero; assumption. Qed.
Lemma neg_same (y : K) : y = - y -> y = 0.
Proof. intros E. apply two_mul. transitivity (y + y); [ring|]. rewrite E at 1. ring. Qed.
Lemma div_nz (x y : K) : x <> 0 -> y <> 0 -> x / y <> 0.
Proof. intros A B E. apply A. transitivity (x / y * y); [field; exact B|]. rewrite E. ring. Qed.
Lemma zzz_nz (Z : K) : Z <> 0 -> Z * Z * Z <> 0.
Proof. intros N. apply mul_nonzero; [apply mul_nonzero; exact N|exact N]. Qed.
Lemma jac_dbl X Y Z : Z <> 0 -> Y <> 0 -> point_add (jac X Y Z) (jac X Y Z) = jac (d_X X Y) (d_Y X Y) (d_Z Y Z).
Proof.
  intros NZ NY. unfold jac. cbn [point_add]. rewrite feqb_refl.
  assert (F : feqb (Y / (Z * Z * Z)) (- (Y / (Z * Z * Z))) = false).
  { apply feqb_false. intros E. apply neg_same in E. revert E. apply div_nz; [exact NY|apply zzz_nz, NZ]. }
  rewrite F. unfold third. cbv zeta. rewrite d_Z_is. unfold d_Y, d_X, d_t3, d_t4. cbv zeta. apply (f_equal2 Affine); field; auto.
Qed.
Lemma jac_dbl_line X Y Z : Z <> 0 -> Y <> 0 ->
  let m := slope (jac X Y Z) (jac X Y Z) in
  d_c0 Y Z <> 0 /\ d_c1 X Z = - (d_c0 Y Z * m) /\ d_c2 X Y = - (d_c0 Y Z * (Y / (Z * Z * Z) - m * (X / (Z * Z)))).
Proof.
  intros NZ NY m. assert (E0 : d_c0 Y Z = (1 + 1) * d_Z Y Z * (Z * Z)) by (unfold d_c0; ring).
  split; [rewrite E0; apply mul_nonzero; [apply mul_nonzero; [exact H2|apply d_Z_nz; assumption]|apply mul_nonzero; exact NZ]|].
  rewrite E0, d_Z_is. subst m. unfold slope, jac. rewrite feqb_refl. unfold d_c1, d_c2, d_t4. split; field; auto.
Qed.
(** the addition step *)
Definition a_t2 (X Z x : K) := Z * Z * x - X.
Definition a_t1 (Z y : K) := ((y + Z) * (y + Z) - y * y - Z * Z) * (Z * Z).
Definition a_t4 (X Z x : K) := let t := a_t2 X Z x * a_t2 X Z x in (t + t) + (t + t).
Definition a_t5 (X Z x : K) := a_t4 X Z x * a_t2 X Z x.
Definition a_t6 (Y Z y : K) := a_t1 Z y - Y - Y.
Definition a_t7 (X Z x : K) := a_t4 X Z x * X.
Definition a_X (X Y Z x y : K) := a_t6 Y Z y * a_t6 Y Z y - a_t5 X Z x - a_t7 X Z x - a_t7 X Z x.
Definition a_Z (X Z x : K) := (Z + a_t2 X Z x) * (Z + a_t2 X Z x) - Z * Z - a_t2 X Z x * a_t2 X Z x.
Definition a_Y (X Y Z x y : K) := (a_t7 X Z x - a_X X Y Z x y) * a_t6 Y Z y - (Y * a_t5 X Z x + Y * a_t5 X Z x).
Definition a_c0 (X Z x : K) := a_Z X Z x + a_Z X Z x.
Definition a_c1 (Y Z y : K) := - a_t6 Y Z y + - a_t6 Y Z y.
Definition a_c2 (X Y Z x y : K) := a_t6 Y Z y * x + a_t6 Y Z y * x - ((y + a_Z X Z x) * (y + a_Z X Z x) - y * y - a_Z X Z x * a_Z X Z x).
Lemma a_Z_is X Z x : a_Z X Z x = (1 + 1) * (Z * a_t2 X Z x). Proof. unfold a_Z. ring. Qed.
Lemma a_t2_nz X Z x : Z <> 0 -> X / (Z * Z) <> x -> a_t2 X Z x <> 0.
Proof. intros NZ N E. apply N. transitivity ((Z * Z * x - a_t2 X Z x) / (Z * Z)); [unfold a_t2; field; exact NZ|]. rewrite E. field. exact NZ. Qed.
Lemma a_Z_nz X Z x : Z <> 0 -> X / (Z * Z) <> x -> a_Z X Z x <> 0.
Proof. intros NZ N. rewrite a_Z_is. apply mul_nonzero; [exact H2|]. apply mul_nonzero; [exact NZ|]. apply a_t2_nz; assumption. Qed.
Lemma jac_add X Y Z x y : Z <> 0 -> X / (Z * Z) <> x ->
  point_add (jac X Y Z) (Affine x y) = jac (a_X X Y Z x y) (a_Y X Y Z x y) (a_Z X Z x).
Proof.
  intros NZ N. pose proof (a_t2_nz _ _ _ NZ N) as N2. unfold jac. cbn [point_add]. rewrite (proj2 (feqb_false _ _) N). unfold third. cbv zeta.
  rewrite a_Z_is. unfold a_Y, a_X, a_t7, a_t6, a_t5, a_t4, a_t1. cbv zeta.
  assert (D : x - X / (Z * Z) = a_t2 X Z x / (Z * Z)) by (unfold a_t2; field; exact NZ). rewrite D.
  assert (EX : x = (X + a_t2 X Z x) / (Z * Z)) by (unfold a_t2; field; exact NZ). set (t := a_t2 X Z x) in *. clearbody t. rewrite EX. clear D EX N.
  apply (f_equal2 Affine); field; auto.
Qed.
Lemma jac_add_line X Y Z x y : Z <> 0 -> X / (Z * Z) <> x ->
  let m := slope (jac X Y Z) (Affine x y) in
  a_c0 X Z x <> 0 /\ a_c1 Y Z y = - (a_c0 X Z x * m) /\ a_c2 X Y Z x y = - (a_c0 X Z x * (Y / (Z * Z * Z) - m * (X / (Z * Z)))).
Proof.
  intros NZ N m. pose proof (a_t2_nz _ _ _ NZ N) as N2. assert (E0 : a_c0 X Z x = (1 + 1) * a_Z X Z x) by (unfold a_c0; ring).
  split; [rewrite E0; apply mul_nonzero; [exact H2|apply a_Z_nz; assumption]|].
  unfold a_c2. rewrite E0, a_Z_is. subst m. unfold slope, jac. rewrite (proj2 (feqb_false _ _) N). unfold a_c1, a_t6, a_t1.
  assert (D : x - X / (Z * Z) = a_t2 X Z x / (Z * Z)) by (unfold a_t2; field; exact NZ). rewrite D.
  assert (EX : x = (X + a_t2 X Z x) / (Z * Z)) by (unfold a_t2; field; exact NZ). set (t := a_t2 X Z x) in *. clearbody t. rewrite EX. clear D EX N E0.
  split; field; auto.
Qed.
End StepAlg.

(** ** the steps *)
Definition jrep (cur : g2_projective) (T : point Fp2) : Prop :=
  let '(Proj x y z) := cur in exists X Y Z : Fp2, rep2 x X /\ rep2 y Y /\ rep2 z Z /\ Z <> f0 /\ T = jac X Y Z.
(** the coefficients of the line through A and B, up to a factor *)
Definition coef (c : line) (A B : point Fp2) : Prop :=
  match A with
  | Infinity => False
  | Affine xa ya => exists k : Fp2, k <> f0 /\ rep2 (fst (fst c)) k /\ rep2 (snd (fst c)) (fneg (fmul k (slope A B))) /\
      rep2 (snd c) (fneg (fmul k (fsub ya (fmul (slope A B) xa))))
  end.
Section Nz.
Context {K : fld} (b : K) (H2 : (fadd f1 f1 : K) <> f0) (NoTwo : forall x : K, fadd (fmul (fmul x x) x) b <> f0).
Add Field Knz : (fld_field K).
Local Open Scope fld_scope.
Lemma jac_y_nz X Y Z : on_curve b (jac X Y Z) -> Y <> 0.
Proof. intros C E. apply (curve_y b NoTwo _ _ C). rewrite E. unfold fdiv. ring. Qed.
End Nz.
Theorem doubling_ok cur T : jrep cur T -> on_curve bq T ->
  jrep (fst (doubling_step cur)) (point_add T T) /\ coef (snd (doubling_step cur)) T T.
Proof.
  destruct cur as [x y z]. intros (X & Y & Z & RX & RY & RZ & NZ & ->) C. pose proof (jac_y_nz (K:=Fp2) bq Fp2_NoTwo X Y Z C) as NY.
  unfold doubling_step.
  pose proof (rep2_square _ _ RX) as R0. pose proof (rep2_square _ _ RY) as R1. pose proof (rep2_square _ _ R1) as R2.
  assert (R3 : rep2 (let t := fp2_sub (fp2_sub (fp2_square (fp2_add (fp2_square y) x)) (fp2_square x)) (fp2_square (fp2_square y)) in fp2_add t t) (d_t3 X Y)).
  { cbv zeta. apply rep2_add; (apply rep2_sub; [apply rep2_sub; [apply rep2_square, rep2_add; assumption|assumption]|assumption]). }
  cbv zeta in R3. set (t3 := fp2_add _ _) in R3 at 1.
  assert (R4 : rep2 (fp2_add (fp2_add (fp2_square x) (fp2_square x)) (fp2_square x)) (d_t4 X)) by (apply rep2_add; [apply rep2_add|]; assumption).
  pose proof (rep2_square _ _ R4) as R5. pose proof (rep2_square _ _ RZ) as RZ2.
  set (t4 := fp2_add (fp2_add (fp2_square x) (fp2_square x)) (fp2_square x)) in *.
  assert (RX3 : rep2 (fp2_sub (fp2_sub (fp2_square t4) t3) t3) (d_X X Y)) by (apply rep2_sub; [apply rep2_sub|]; assumption).
  assert (RZ3 : rep2 (fp2_sub (fp2_sub (fp2_square (fp2_add z y)) (fp2_square y)) (fp2_square z)) (d_Z Y Z)).
  { apply rep2_sub; [apply rep2_sub; [apply rep2_square, rep2_add; assumption|assumption]|assumption]. }
  set (x3 := fp2_sub (fp2_sub (fp2_square t4) t3) t3) in *. set (z3 := fp2_sub (fp2_sub (fp2_square (fp2_add z y)) (fp2_square y)) (fp2_square z)) in *.
  cbv zeta. change (fp2_add (fp2_sub (fp2_sub (fp2_square (fp2_add (fp2_square y) x)) (fp2_square x)) (fp2_square (fp2_square y)))
    (fp2_sub (fp2_sub (fp2_square (fp2_add (fp2_square y) x)) (fp2_square x)) (fp2_square (fp2_square y)))) with t3.
  fold t4. fold x3. fold z3. cbn [fst snd].
  destruct (jac_dbl_line (K:=Fp2) Fp2_two X Y Z NZ NY) as (N0 & E1 & E2). split.
  - exists (d_X X Y), (d_Y X Y), (d_Z Y Z). split; [exact RX3|]. split.
    + apply rep2_sub; [apply rep2_mul; [apply rep2_sub; assumption|assumption]|]. cbv zeta. apply rep2_add; apply rep2_add; apply rep2_add; assumption.
    + split; [exact RZ3|]. split; [exact (d_Z_nz (K:=Fp2) Fp2_two Y Z NY NZ)|]. exact (jac_dbl (K:=Fp2) Fp2_two X Y Z NZ NY).
  - unfold coef, jac at 1. cbn [fst snd]. exists (d_c0 Y Z). split; [exact N0|]. split; [apply rep2_add; apply rep2_mul; assumption|]. split.
    + apply (rep2_to _ _ _ E1). apply rep2_neg, rep2_add; apply rep2_mul; assumption.
    + apply (rep2_to _ _ _ E2). apply rep2_sub; [apply rep2_sub; [apply rep2_sub; [apply rep2_square, rep2_add; assumption|assumption]|assumption]|].
      apply rep2_add; apply rep2_add; assumption.
Qed.
Theorem addition_ok cur q T (x y : Fp2) : jrep cur T -> astands2 q (Affine x y) -> (forall y', T <> Affine x y') ->
  jrep (fst (addition_step cur q)) (point_add T (Affine x y)) /\ coef (snd (addition_step cur q)) T (Affine x y).
Proof.
  destruct cur as [rx ry rz], q as [qx qy i]. intros (X & Y & Z & RX & RY & RZ & NZ & ->) (x' & y' & QX & QY & _ & I) N.
  destruct i; [destruct I as (_ & _ & I); discriminate I|].
  assert (Ex : x = x') by exact (f_equal (fun P : point Fp2 => match P with Affine x _ => x | Infinity => x end) I).
  assert (Ey : y = y') by exact (f_equal (fun P : point Fp2 => match P with Affine _ y => y | Infinity => y end) I). subst x' y'. clear I.
  assert (NX : fdiv X (fmul Z Z) <> x) by (intros E; apply (N (fdiv Y (fmul (fmul Z Z) Z))); unfold jac; rewrite E; reflexivity).
  unfold addition_step.
  pose proof (rep2_square _ _ RZ) as RZ2. pose proof (rep2_square _ _ QY) as QY2.
  assert (R1 : rep2 (fp2_mul (fp2_sub (fp2_sub (fp2_square (fp2_add qy rz)) (fp2_square qy)) (fp2_square rz)) (fp2_square rz)) (a_t1 Z y)).
  { apply rep2_mul; [apply rep2_sub; [apply rep2_sub; [apply rep2_square, rep2_add; assumption|assumption]|assumption]|assumption]. }
  set (t1 := fp2_mul (fp2_sub (fp2_sub (fp2_square (fp2_add qy rz)) (fp2_square qy)) (fp2_square rz)) (fp2_square rz)) in *.
  assert (R2 : rep2 (fp2_sub (fp2_mul (fp2_square rz) qx) rx) (a_t2 X Z x)) by (apply rep2_sub; [apply rep2_mul|]; assumption).
  set (t2 := fp2_sub (fp2_mul (fp2_square rz) qx) rx) in *. pose proof (rep2_square _ _ R2) as R3. set (t3 := fp2_square t2) in *.
  assert (R4 : rep2 (fp2_add (fp2_add t3 t3) (fp2_add t3 t3)) (a_t4 X Z x)) by (apply rep2_add; apply rep2_add; assumption).
  set (t4 := fp2_add (fp2_add t3 t3) (fp2_add t3 t3)) in *.
  assert (R5 : rep2 (fp2_mul t4 t2) (a_t5 X Z x)) by (apply rep2_mul; assumption). set (t5 := fp2_mul t4 t2) in *.
  assert (R6 : rep2 (fp2_sub (fp2_sub t1 ry) ry) (a_t6 Y Z y)) by (apply rep2_sub; [apply rep2_sub|]; assumption). set (t6 := fp2_sub (fp2_sub t1 ry) ry) in *.
  assert (R7 : rep2 (fp2_mul t4 rx) (a_t7 X Z x)) by (apply rep2_mul; assumption). set (t7 := fp2_mul t4 rx) in *.
  assert (RX3 : rep2 (fp2_sub (fp2_sub (fp2_sub (fp2_square t6) t5) t7) t7) (a_X X Y Z x y)).
  { apply rep2_sub; [apply rep2_sub; [apply rep2_sub; [apply rep2_square|]|]|]; assumption. }
  set (x3 := fp2_sub (fp2_sub (fp2_sub (fp2_square t6) t5) t7) t7) in *.
  assert (RZ3 : rep2 (fp2_sub (fp2_sub (fp2_square (fp2_add rz t2)) (fp2_square rz)) t3) (a_Z X Z x)).
  { apply rep2_sub; [apply rep2_sub; [apply rep2_square, rep2_add; assumption|assumption]|assumption]. }
  set (z3 := fp2_sub (fp2_sub (fp2_square (fp2_add rz t2)) (fp2_square rz)) t3) in *.
  assert (RZ4 : rep2 (fp2_square z3) (fmul (a_Z X Z x) (a_Z X Z x))) by (apply rep2_square; exact RZ3).
  cbv zeta. fold t1. fold t2. fold t3. fold t4. fold t5. fold t6. fold t7. fold x3. fold z3. cbn [fst snd].
  destruct (jac_add_line (K:=Fp2) Fp2_two X Y Z x y NZ NX) as (N0 & E1 & E2). split.
  - exists (a_X X Y Z x y), (a_Y X Y Z x y), (a_Z X Z x). split; [exact RX3|]. split.
    + apply rep2_sub; [apply rep2_mul; [apply rep2_sub; assumption|assumption]|]. apply rep2_add; apply rep2_mul; assumption.
    + split; [exact RZ3|]. split; [exact (a_Z_nz (K:=Fp2) Fp2_two X Z x NZ NX)|]. exact (jac_add (K:=Fp2) Fp2_two X Y Z x y NZ NX).
  - unfold coef, jac at 1. cbn [fst snd]. exists (a_c0 X Z x). split; [exact N0|]. split; [apply rep2_add; assumption|]. split.
    + apply (rep2_to _ _ _ E1). apply rep2_add; apply rep2_neg; assumption.
    + apply (rep2_to _ _ _ E2). apply rep2_sub; [apply rep2_add; apply rep2_mul; assumption|].
      apply rep2_sub; [apply rep2_sub; [apply rep2_square, rep2_add; assumption|assumption]|assumption].
Qed.

(** ** the value of a line *)
Section SparseSum.
Context {K : fld} (xi : K) (NX : forall x : K, fmul (fmul x x) x <> xi).
Local Open Scope fld_scope.
Notation C := (cubic_fld xi NX).
Context (ND : forall x : C, fmul x x <> cubic_root xi NX).
Notation Q := (quad_fld (cubic_root xi NX : C) ND).
Add Field Kss : (fld_field K).
Add Field Css : (fld_field C).
Add Field Qss : (fld_field Q).
Lemma cubic_sparse01 (a b : K) : (Cubic a b 0 : C) = (cubic_of a : C) + (cubic_of b : C) * (cubic_root xi NX).
Proof. cbn. unfold cubic_add, cubic_mul, cubic_of, cubic_root. cbn [k0 k1 k2]. apply (f_equal3 Cubic); ring. Qed.
Lemma cubic_sparse1 (b : K) : (Cubic 0 b 0 : C) = (cubic_of b : C) * (cubic_root xi NX).
Proof. cbn. unfold cubic_mul, cubic_of, cubic_root. cbn [k0 k1 k2]. apply (f_equal3 Cubic); ring. Qed.
Lemma sparse_sum (a b c : K) : let w := (Quad (0 : C) (1 : C) : Q) in
  (Quad (Cubic a b 0 : C) (Cubic 0 c 0 : C) : Q) = (quad_of (cubic_of a : C) : Q) + (quad_of (cubic_of b : C) : Q) * (w * w) + (quad_of (cubic_of c : C) : Q) * (w * w * w).
Proof.
  intros w. rewrite cubic_sparse01, cubic_sparse1.
  assert (W2 : w * w = (Quad (cubic_root xi NX : C) (0 : C) : Q)) by (subst w; change (quad_mul (cubic_root xi NX : C) (Quad (0 : C) (1 : C)) (Quad (0 : C) (1 : C)) = Quad (cubic_root xi NX : C) (0 : C)); unfold quad_mul; cbn [q0 q1]; apply (f_equal2 Quad); ring).
  rewrite W2. subst w. generalize (cubic_of a : C). generalize (cubic_of b : C). generalize (cubic_of c : C). intros u v s.
  assert (W3 : @fmul Q (Quad (cubic_root xi NX : C) (0 : C)) (Quad (0 : C) (1 : C)) = (Quad (0 : C) (cubic_root xi NX : C) : Q)) by (change (quad_mul (cubic_root xi NX : C) (Quad (cubic_root xi NX : C) (0 : C)) (Quad (0 : C) (1 : C)) = Quad (0 : C) (cubic_root xi NX : C)); unfold quad_mul; cbn [q0 q1]; apply (f_equal2 Quad); ring).
  rewrite W3.
  change (Quad (@fadd C s (@fmul C v (cubic_root xi NX))) (@fmul C u (cubic_root xi NX)) =
    quad_add (quad_add (quad_of (s : C)) (quad_mul (cubic_root xi NX : C) (quad_of (v : C)) (Quad (cubic_root xi NX : C) (0 : C)))) (quad_mul (cubic_root xi NX : C) (quad_of (u : C)) (Quad (0 : C) (cubic_root xi NX : C)))).
  unfold quad_add, quad_mul, quad_of. cbn [q0 q1]. generalize (cubic_root xi NX : C). intros z. apply (f_equal2 Quad); ring.
Qed.
End SparseSum.
Section LineAlg.
Context {K : fld}.
Add Field Kla : (fld_field K).
Local Open Scope fld_scope.
Lemma line_scale (w k c m x y : K) : w <> 0 ->
  - (k * c) + - (k * m) * x * (w * w) + k * y * (w * w * w) = k * (w * w * w) * (y - (m * finv w * x + c * (finv w * finv w * finv w))).
Proof. intros N. field. exact N. Qed.
Lemma quad_scale_of (d : K) (x : quad K) y : quad_mul d x (quad_of y) = Quad (q0 x * y) (q1 x * y).
Proof. unfold quad_mul, quad_of. cbn [q0 q1]. apply (f_equal2 Quad); ring. Qed.
End LineAlg.
Lemma rep2_scale a (k : Fp2) b (y : Fp) : rep2 a k -> frep b y -> rep2 (FP2 (fp_mul (fp2_c0 a) b) (fp_mul (fp2_c1 a) b)) (fmul k (Fp2_of y)).
Proof.
  intros [A0 A1] B. apply (rep2_to _ (Quad (fmul (q0 k) y) (fmul (q1 k) y) : Fp2)); [symmetry; exact (quad_scale_of (K:=Fp) _ k y)|].
  split; apply frep_mul; assumption.
Qed.
Notation astands1 := (aff_stands (F:=fp_ops) b4 frep).
Definition w3 : Fp12 := fmul (fmul Fp12_root Fp12_root) Fp12_root.
Lemma emb2_neg (x : Fp2) : embed2 (fneg x) = fneg (embed2 x).
Proof. exact (hom_neg (k:=Fp2) (K:=Fp12) embed2 emb2_add x). Qed.
Theorem ell_ok f (F : Fp12) c A B q (x y : Fp) : r12 f F -> coef c A B -> astands1 q (Affine x y) -> B <> Infinity -> point_add A B <> Infinity ->
  exists k : Fp2, k <> f0 /\ r12 (ell f c q) (fmul F (fmul (fmul (embed2 k) w3) (line_at A B (Affine x y)))).
Proof.
  intros RF CO S NB NS. destruct q as [qx qy i]. destruct S as (x' & y' & QX & QY & _ & I). destruct i; [destruct I as (_ & _ & I); discriminate I|].
  assert (Ex : x = x') by exact (f_equal (fun P : point Fp => match P with Affine x _ => x | Infinity => x end) I).
  assert (Ey : y = y') by exact (f_equal (fun P : point Fp => match P with Affine _ y => y | Infinity => y end) I). subst x' y'. clear I.
  destruct A as [|xa ya]; [destruct CO|]. destruct B as [|xb yb]; [destruct NB; reflexivity|].
  destruct CO as (k & NK & R0 & R1 & R2). exists k. split; [exact NK|]. destruct c as [[c0 c1] c2]. cbn [fst snd] in R0, R1, R2.
  unfold line_at. destruct (point_add (Affine xa ya) (Affine xb yb)) as [|xs ys]; [destruct NS; reflexivity|]. clear NS NB.
  set (m := slope (Affine xa ya) (Affine xb yb)) in *. clearbody m. cbv zeta. set (c := fsub ya (fmul m xa)) in *. clearbody c.
  unfold ell. pose proof (r12_mul_by_014 _ _ _ _ _ _ _ _ RF R2 (rep2_scale _ _ _ _ R1 QX) (rep2_scale _ _ _ _ R0 QY)) as R.
  apply (r12_to _ _ _ R). apply (f_equal (fmul F)). unfold s014, s01, s1.
  etransitivity; [exact (sparse_sum xi xi_noncube v_nonsquare _ _ _)|]. cbv zeta.
  change (Quad (f0 : Fp6) (f1 : Fp6)) with Fp12_root.
  change (fadd (fadd (embed2 (fneg (fmul k c))) (fmul (embed2 (fmul (fneg (fmul k m)) (Fp2_of x))) (fmul Fp12_root Fp12_root))) (fmul (embed2 (fmul k (Fp2_of y))) w3) =
    fmul (fmul (embed2 k) w3) (fsub (embed1 y) (fadd (fmul (fmul (embed2 m) w_inv) (embed1 x)) (fmul (embed2 c) (fmul (fmul w_inv w_inv) w_inv))))).
  rewrite (emb2_neg (fmul k c)), (emb2_mul k c), (emb2_mul (fneg (fmul k m)) (Fp2_of x)), (emb2_neg (fmul k m)), (emb2_mul k m), (emb2_mul k (Fp2_of y)), <- !emb1_is.
  exact (line_scale (K:=Fp12) Fp12_root (embed2 k) (embed2 c) (embed2 m) (embed1 x) (embed1 y) w_nz).
Qed.
