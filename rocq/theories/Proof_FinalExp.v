(** * Proof_FinalExp: the final exponentiation *)
From Coq Require Import ZArith List Bool Lia Ring Field.
From Verif Require Import Base Fld Tables Zr Zp Spec_Fp Model_Scalar Model_Fp Proof_FpRep Proof_FpTop Proof_G1Base Model_Curve Model_Fp2 Model_Fp12 Model_Pair Spec_Ext Proof_Fp2 Proof_Fp6 Proof_Fp12 Power Tower Ext Proof_Cyclo Spec_Pair.
Import ListNotations.
Local Open Scope Z_scope.

(** ** the square of an element of the cyclotomic subgroup *)
Section Granger.
Context {K : fld} (xi : K) (NX : forall x : K, fmul (fmul x x) x <> xi).
Notation C := (cubic_fld xi NX).
Context (ND : forall x : C, fmul x x <> cubic_root xi NX).
Notation Q := (quad_fld (cubic_root xi NX : C) ND).
Add Field Kgr : (fld_field K).
Local Open Scope fld_scope.
Context (z : K) (Z2 : z * z = z - 1).
Lemma z_unit (a b : K) : z * a = z * b -> a = b.
Proof.
  intros E. assert (I : forall c, c = (1 - z) * (z * c)).
  { intros c. transitivity ((z - z * z) * c); [|ring]. rewrite Z2. ring. }
  rewrite (I a), (I b), E. reflexivity.
Qed.
Lemma z_unit2 (a b : K) : (z - 1) * a = (z - 1) * b -> a = b.
Proof. intros E. apply z_unit, z_unit. transitivity (z * z * a); [ring|]. transitivity (z * z * b); [|ring]. rewrite Z2. exact E. Qed.
Lemma m_unit (a b : K) : - a = - b -> a = b.
Proof. intros E. transitivity (- - a); [ring|]. rewrite E. ring. Qed.
(** the six coordinates of g * sigma^2(g) = sigma(g) *)
Lemma granger_coords (a0 a1 a2 a3 a4 a5 : K) :
  let g := Quad (Cubic a0 a2 a4 : C) (Cubic a1 a3 a5 : C) : Q in
  (sig xi NX ND (z * z) g : Q) * g = (sig xi NX ND z g : Q) ->
  a0 * a0 + xi * (a3 * a3) - xi * (a1 * a5 + a2 * a4) = a0 /\
  a0 * a1 + xi * (a3 * a4) - (1 + 1) * (xi * (a2 * a5)) = a1 /\
  a1 * a1 + xi * (a4 * a4) - (a0 * a2 + xi * (a3 * a5)) = a2 /\
  (1 + 1) * (a0 * a3) - (a1 * a2 + xi * (a4 * a5)) = - a3 /\
  a2 * a2 + xi * (a5 * a5) - (a0 * a4 + a1 * a3) = a4 /\
  a0 * a5 + a2 * a3 - (1 + 1) * (a1 * a4) = a5.
Proof.
  intros g E. subst g.
  unfold sig in E. cbn in E. unfold quad_mul, sig6, cubic_root in E. cbn in E. unfold cubic_mul, cubic_add, cubic_of in E. cbn [q0 q1 k0 k1 k2] in E.
  pose proof (f_equal (fun x : quad C => k0 (q0 x : cubic K)) E) as E0. pose proof (f_equal (fun x : quad C => k1 (q0 x : cubic K)) E) as E2. pose proof (f_equal (fun x : quad C => k2 (q0 x : cubic K)) E) as E4.
  pose proof (f_equal (fun x : quad C => k0 (q1 x : cubic K)) E) as E1. pose proof (f_equal (fun x : quad C => k1 (q1 x : cubic K)) E) as E3. pose proof (f_equal (fun x : quad C => k2 (q1 x : cubic K)) E) as E5.
  cbn [q0 q1 k0 k1 k2] in E0, E1, E2, E3, E4, E5. clear E. repeat split.
  - refine (eq_trans _ (eq_trans E0 _)); ring [Z2].
  - apply z_unit. refine (eq_trans _ (eq_trans E1 _)); ring [Z2].
  - apply z_unit2. refine (eq_trans _ (eq_trans E2 _)); ring [Z2].
  - refine (eq_trans _ (eq_trans E3 _)); ring [Z2].
  - apply z_unit, m_unit. refine (eq_trans _ (eq_trans E4 _)); ring [Z2].
  - apply z_unit2, m_unit. refine (eq_trans _ (eq_trans E5 _)); ring [Z2].
Qed.
Lemma granger_square (a0 a1 a2 a3 a4 a5 : K) :
  let g := Quad (Cubic a0 a2 a4 : C) (Cubic a1 a3 a5 : C) : Q in
  (sig xi NX ND (z * z) g : Q) * g = (sig xi NX ND z g : Q) ->
  let t := xi * (a3 * a3) + a0 * a0 in
  let t' := (a0 + a3) * (a0 + a3) - a0 * a0 - a3 * a3 in
  let u := xi * (a4 * a4) + a1 * a1 in
  let u' := (a1 + a4) * (a1 + a4) - a1 * a1 - a4 * a4 in
  let v := xi * (a5 * a5) + a2 * a2 in
  let v' := (a2 + a5) * (a2 + a5) - a2 * a2 - a5 * a5 in
  (Quad (Cubic (t - a0 + (t - a0) + t) (u - a2 + (u - a2) + u) (v - a4 + (v - a4) + v) : C)
        (Cubic (xi * v' + a1 + (xi * v' + a1) + xi * v') (t' + a3 + (t' + a3) + t') (u' + a5 + (u' + a5) + u') : C) : Q) = g * g.
Proof.
  intros g E. destruct (granger_coords a0 a1 a2 a3 a4 a5 E) as (E0 & E1 & E2 & E3 & E4 & E5). clear E. intros. subst g t t' u u' v v'.
  cbn. unfold quad_mul, cubic_root. cbn. unfold cubic_mul, cubic_add. cbn [q0 q1 k0 k1 k2].
  apply (f_equal2 Quad); apply (f_equal3 Cubic).
  - apply fsub_eq_0. transitivity ((1 + 1) * (a0 * a0 + xi * (a3 * a3) - xi * (a1 * a5 + a2 * a4) - (a0))); [ring|]. rewrite E0. ring.
  - apply fsub_eq_0. transitivity ((1 + 1) * (a1 * a1 + xi * (a4 * a4) - (a0 * a2 + xi * (a3 * a5)) - (a2))); [ring|]. rewrite E2. ring.
  - apply fsub_eq_0. transitivity ((1 + 1) * (a2 * a2 + xi * (a5 * a5) - (a0 * a4 + a1 * a3) - (a4))); [ring|]. rewrite E4. ring.
  - apply fsub_eq_0. transitivity (- (1 + 1) * (a0 * a1 + xi * (a3 * a4) - (1 + 1) * (xi * (a2 * a5)) - (a1))); [ring|]. rewrite E1. ring.
  - apply fsub_eq_0. transitivity ((1 + 1) * ((1 + 1) * (a0 * a3) - (a1 * a2 + xi * (a4 * a5)) - (- a3))); [ring|]. rewrite E3. ring.
  - apply fsub_eq_0. transitivity (- (1 + 1) * (a0 * a5 + a2 * a3 - (1 + 1) * (a1 * a4) - (a5))); [ring|]. rewrite E5. ring.
Qed.
End Granger.

(** ** elements of the cyclotomic subgroup *)
Definition cyc (x : Fp12) : Prop := x <> f0 /\ zpow x (p ^ 4 - p ^ 2 + 1) = f1.
Section Powers.
Context {K : fld}.
Add Field Kpw : (fld_field K).
Local Open Scope fld_scope.
Lemma zpow_neg (x : K) e : zpow x (- e) = finv (zpow x e).
Proof. rewrite zpow_opp. apply zpow_inv. Qed.
Lemma cyc_relation (x a b : K) : x <> 0 -> a * finv b * x = 1 -> b <> 0 -> a * x = b.
Proof. intros X E B. transitivity (b * (a * finv b * x)); [field; exact B|]. rewrite E. ring. Qed.
Lemma inv_of_prod (x y : K) : x <> 0 -> y * x = 1 -> y = finv x.
Proof. intros X E. transitivity (y * x * finv x); [field; exact X|]. rewrite E. ring. Qed.
Lemma pow_closed (x : K) m n : x <> 0 -> zpow x n = 1 -> zpow (zpow x m) n = 1.
Proof. intros X E. rewrite <- zpow_mul by exact X. rewrite Z.mul_comm, zpow_mul by exact X. rewrite E. apply zpow_1_l. Qed.
End Powers.
Lemma p2_nn : 0 <= p ^ 2. Proof. apply Z.pow_nonneg. vm_compute. congruence. Qed.
Lemma p4_nn : 0 <= p ^ 4. Proof. apply Z.pow_nonneg. vm_compute. congruence. Qed.
Lemma cyc_sigma (x : Fp12) : cyc x -> fmul (sigma (fmul z6 z6) x) x = sigma z6 x.
Proof.
  intros [X E]. rewrite <- Fp12_pow_p4, <- Fp12_pow_p2.
  apply (cyc_relation (K:=Fp12)); [exact X| |apply zpow_nonzero; exact X].
  rewrite <- E. replace (p ^ 4 - p ^ 2 + 1) with (p ^ 4 + - p ^ 2 + 1) by ring.
  rewrite (zpow_add x (p ^ 4 + - p ^ 2) 1 X), (zpow_add x (p ^ 4) (- p ^ 2) X), (zpow_1 x), (zpow_neg x (p ^ 2)). reflexivity.
Qed.
Lemma p6_factor (q : Z) : q ^ 6 + 1 = (q ^ 4 - q ^ 2 + 1) * (q ^ 2 + 1).
Proof. ring. Qed.
Lemma cyc_conj (x : Fp12) : cyc x -> Fp12_conj x = finv x.
Proof.
  intros [X E]. apply (inv_of_prod (K:=Fp12)); [exact X|]. rewrite <- Fp12_pow_p6.
  transitivity (zpow x (p ^ 6 + 1)); [rewrite (zpow_add x (p ^ 6) 1 X), (zpow_1 x); reflexivity|].
  rewrite p6_factor. rewrite (zpow_mul x (p ^ 4 - p ^ 2 + 1) (p ^ 2 + 1) X), E. apply zpow_1_l.
Qed.
Lemma cyc_zpow (x : Fp12) m : cyc x -> cyc (zpow x m).
Proof. intros [X E]. split; [apply zpow_nonzero; exact X|]. exact (pow_closed x m _ X E). Qed.
Lemma z6_two : fmul z6 z6 = fsub z6 f1.
Proof. exact (six_pow2 (z6 : Fp2) z6_root). Qed.
Lemma rep2_fp4 a b (x y : Fp2) : rep2 a x -> rep2 b y ->
  rep2 (fst (fp4_square a b)) (fadd (fmul xi (fmul y y)) (fmul x x)) /\
  rep2 (snd (fp4_square a b)) (fsub (fsub (fmul (fadd x y) (fadd x y)) (fmul x x)) (fmul y y)).
Proof.
  intros A B. unfold fp4_square. cbn [fst snd]. split.
  - apply rep2_add; [apply rep2_nonresidue, rep2_square, B|apply rep2_square, A].
  - apply rep2_sub; [apply rep2_sub|apply rep2_square, B]; [apply rep2_square, rep2_add|apply rep2_square]; assumption.
Qed.
Lemma r12_to a (x y : Fp12) : r12 a x -> x = y -> r12 a y.
Proof. intros H <-. exact H. Qed.
Lemma r12_cyclotomic_square a (x : Fp12) : r12 a x -> cyc x -> r12 (cyclotomic_square a) (fmul x x).
Proof.
  destruct a as [[z0 z4 z3] [z2 z1 z5]]. destruct x as [[x0 x2 x4] [x1 x3 x5]]. intros R CY.
  destruct R as [(R0 & R4 & R3) (R2 & R1 & R5)]. cbn [q0 q1 k0 k1 k2] in R0, R1, R2, R3, R4, R5.
  refine (r12_to _ _ _ _ (granger_square xi xi_noncube v_nonsquare z6 z6_two x0 x1 x2 x3 x4 x5 (cyc_sigma _ CY))).
  unfold cyclotomic_square.
  pose proof (rep2_fp4 _ _ _ _ R0 R1) as [T0 T1]. destruct (fp4_square z0 z1) as [t0 t1].
  pose proof (rep2_fp4 _ _ _ _ R2 R3) as [U0 U1]. destruct (fp4_square z2 z3) as [u0 u1].
  pose proof (rep2_fp4 _ _ _ _ R4 R5) as [V0 V1]. destruct (fp4_square z4 z5) as [v0 v1].
  cbn [fst snd] in *. pose proof (rep2_nonresidue _ _ V1) as W1. clear CY.
  split; [split; [|split]|split; [|split]].
  - exact (rep2_add _ _ _ _ (rep2_add _ _ _ _ (rep2_sub _ _ _ _ T0 R0) (rep2_sub _ _ _ _ T0 R0)) T0).
  - exact (rep2_add _ _ _ _ (rep2_add _ _ _ _ (rep2_sub _ _ _ _ U0 R4) (rep2_sub _ _ _ _ U0 R4)) U0).
  - exact (rep2_add _ _ _ _ (rep2_add _ _ _ _ (rep2_sub _ _ _ _ V0 R3) (rep2_sub _ _ _ _ V0 R3)) V0).
  - exact (rep2_add _ _ _ _ (rep2_add _ _ _ _ (rep2_add _ _ _ _ W1 R2) (rep2_add _ _ _ _ W1 R2)) W1).
  - exact (rep2_add _ _ _ _ (rep2_add _ _ _ _ (rep2_add _ _ _ _ T1 R1) (rep2_add _ _ _ _ T1 R1)) T1).
  - exact (rep2_add _ _ _ _ (rep2_add _ _ _ _ (rep2_add _ _ _ _ U1 R5) (rep2_add _ _ _ _ U1 R5)) U1).
Qed.

(** ** powers of one element *)
Section Exponents.
Context {K : fld}.
Lemma zpow_double (x : K) m : x <> f0 -> fmul (zpow x m) (zpow x m) = zpow x (2 * m).
Proof. intros X. replace (2 * m) with (m + m) by ring. symmetry. apply zpow_add, X. Qed.
Lemma zpow_base_l (x : K) m : x <> f0 -> fmul (zpow x m) x = zpow x (m + 1).
Proof. intros X. rewrite zpow_add by exact X. rewrite zpow_1. reflexivity. Qed.
End Exponents.
Section OneElement.
Context (g : Fp12) (CY : cyc g).
Definition is_pow (a : fp12) (e : Z) : Prop := r12 a (zpow g e).
Lemma pow_to a m n : is_pow a m -> m = n -> is_pow a n.
Proof. intros H <-. exact H. Qed.
Lemma pow_mul a b m n : is_pow a m -> is_pow b n -> is_pow (fp12_mul a b) (m + n).
Proof. intros A B. refine (r12_to _ _ _ (r12_mul _ _ _ _ A B) _). symmetry. apply zpow_add. exact (proj1 CY). Qed.
Lemma pow_conj a m : is_pow a m -> is_pow (fp12_conjugate a) (- m).
Proof.
  intros A. refine (r12_to _ _ _ (r12_conj _ _ A) _). rewrite (cyc_conj (zpow g m) (cyc_zpow g m CY)). symmetry. apply zpow_neg.
Qed.
Lemma pow_frob a m : is_pow a m -> is_pow (fp12_frobenius_map a) (m * p).
Proof. intros A. refine (r12_to _ _ _ (r12_frobenius _ _ A) _). symmetry. apply zpow_mul. exact (proj1 CY). Qed.
Lemma pow_sq a m : is_pow a m -> is_pow (cyclotomic_square a) (2 * m).
Proof. intros A. refine (r12_to _ _ _ (r12_cyclotomic_square _ _ A (cyc_zpow g m CY)) _). apply zpow_double. exact (proj1 CY). Qed.
End OneElement.
Fixpoint bits_value (m : Z) (bs : list bool) : Z :=
  match bs with [] => m | b :: bs => bits_value (2 * m + (if b then 1 else 0)) bs end.
Lemma exp_fold (g : Fp12) (CY : cyc g) f bs : is_pow g f 1 -> forall tmp found m,
  is_pow g tmp m -> (found = false -> m = 0) ->
  is_pow g (fst (fold_left (fun (st : fp12 * bool) (i : bool) =>
    let '(tmp, found_one) := st in
    let '(tmp, found_one) := if found_one then (cyclotomic_square tmp, found_one) else (tmp, i) in
    (if i then fp12_mul tmp f else tmp, found_one)) bs (tmp, found))) (bits_value m bs).
Proof.
  intros F. induction bs as [|b bs IH]; intros tmp found m T N; [exact T|]. cbn [fold_left bits_value].
  destruct found.
  - apply IH; [|discriminate]. pose proof (pow_sq g CY _ _ T) as T2. destruct b.
    + exact (pow_mul g CY _ _ _ _ T2 F).
    + refine (pow_to g _ _ _ T2 _). ring.
  - specialize (N eq_refl). subst m. destruct b.
    + apply IH; [|discriminate]. exact (pow_mul g CY _ _ _ _ T F).
    + apply IH; [exact T|reflexivity].
Qed.
Lemma bits64_bls_x : bits_value 0 (bits64 BLS_X) = BLS_X.
Proof. reflexivity. Qed.
Lemma r12_cyclotomic_exp a (x : Fp12) : r12 a x -> cyc x -> r12 (cyclotomic_exp a) (zpow x (- BLS_X)).
Proof.
  intros A CY. apply (pow_conj x CY). rewrite <- bits64_bls_x at 2. apply (exp_fold x CY).
  - exact (r12_to _ _ _ A (eq_sym (zpow_1 x))).
  - exact (r12_to _ _ _ r12_one (eq_sym (zpow_0 x))).
  - reflexivity.
Qed.
Lemma pow_exp g (CY : cyc g) a m : is_pow g a m -> is_pow g (cyclotomic_exp a) (m * - BLS_X).
Proof. intros A. refine (r12_to _ _ _ (r12_cyclotomic_exp _ _ A (cyc_zpow g m CY)) _). symmetry. apply zpow_mul. exact (proj1 CY). Qed.

(** ** the two parts of the exponent *)
Definition easy_exponent : Z := (p ^ 6 - 1) * (p ^ 2 + 1).
Definition hard_exponent (u q : Z) : Z :=
  (u ^ 2 - 2 * u + 1) * q ^ 3 + (u ^ 3 - 2 * u ^ 2 + u) * q ^ 2 + (u ^ 4 - 2 * u ^ 3 + 2 * u - 1) * q + (u ^ 5 - 2 * u ^ 4 + 2 * u ^ 2 - u + 3).

Lemma hard_value : r * hard_exponent (- BLS_X) p = 3 * (p ^ 4 - p ^ 2 + 1).
Proof. vm_compute. reflexivity. Qed.
Lemma r_divides : r * (hard_exponent (- BLS_X) p / 3) = p ^ 4 - p ^ 2 + 1 /\ 3 * (hard_exponent (- BLS_X) p / 3) = hard_exponent (- BLS_X) p.
Proof. vm_compute. split; reflexivity. Qed.
Lemma p12_factor (q : Z) : q ^ 12 - 1 = (q ^ 6 - 1) * (q ^ 2 + 1) * (q ^ 4 - q ^ 2 + 1).
Proof. ring. Qed.
Lemma p12_easy : p ^ 12 - 1 = easy_exponent * (p ^ 4 - p ^ 2 + 1).
Proof. unfold easy_exponent. apply p12_factor. Qed.
Lemma exponent_algebra (e rr h c h3 : Z) : rr <> 0 -> rr * h3 = c -> 3 * h3 = h -> e * h = 3 * (e * c / rr).
Proof. intros R E1 E2. rewrite <- E1, <- E2. replace (e * (rr * h3)) with (e * h3 * rr) by ring. rewrite Z.div_mul by exact R. ring. Qed.
Lemma final_exponent_split : easy_exponent * hard_exponent (- BLS_X) p = final_exponent.
Proof.
  unfold final_exponent. rewrite p12_easy.
  apply (exponent_algebra _ _ _ _ (hard_exponent (- BLS_X) p / 3)); [vm_compute; discriminate|exact (proj1 r_divides)|exact (proj2 r_divides)].
Qed.
Lemma final_exponent_r : r * final_exponent = 3 * (p ^ 12 - 1).
Proof.
  rewrite <- final_exponent_split, p12_easy. pose proof hard_value as H.
  generalize dependent (hard_exponent (- BLS_X) p). generalize easy_exponent (p ^ 4 - p ^ 2 + 1). intros e c h H.
  replace (r * (e * h)) with (e * (r * h)) by ring. rewrite H. ring.
Qed.
Lemma Fp12_fermat (x : Fp12) : x <> f0 -> zpow x (p ^ 12 - 1) = f1.
Proof.
  intros X. pose proof (Fp12_pow_p12 x) as E. apply (fmul_cancel_l (K:=Fp12) x); [exact X|].
  rewrite <- (zpow_succ x (p ^ 12 - 1) X). rewrite Z.sub_add. rewrite E. symmetry.
  rewrite (Rmul_comm (F_R (fld_field Fp12)) x f1). apply (Rmul_1_l (F_R (fld_field Fp12))).
Qed.
Lemma easy_cyc (x : Fp12) : x <> f0 -> cyc (zpow x easy_exponent).
Proof.
  intros X. split; [apply zpow_nonzero; exact X|]. rewrite <- zpow_mul by exact X. rewrite <- p12_easy. apply Fp12_fermat, X.
Qed.
Lemma frob6 a (x : Fp12) : r12 a x -> r12 (fp12_frobenius_map (fp12_frobenius_map (fp12_frobenius_map (fp12_frobenius_map (fp12_frobenius_map (fp12_frobenius_map a)))))) (zpow x (p ^ 6)).
Proof.
  intros A. refine (r12_to _ _ _ (r12_frobenius _ _ (r12_frobenius _ _ (r12_frobenius _ _ (r12_frobenius _ _ (r12_frobenius _ _ (r12_frobenius _ _ A)))))) _).
  assert (P : 0 <= p) by (vm_compute; congruence). revert P. generalize p. intros q Q.
  rewrite <- !zpow_mul_nn by nia. f_equal. ring.
Qed.
Lemma easy_algebra (a b : Z) : a * b + a = a * (b + 1). Proof. ring. Qed.
Theorem final_exponentiation_ok a (x : Fp12) : r12 a x ->
  (x = f0 -> final_exponentiation a = Panic) /\
  (x <> f0 -> exists b, final_exponentiation a = Ok b /\ r12 b (zpow x final_exponent)).
Proof.
  intros A. unfold final_exponentiation. pose proof (r12_invert _ _ A) as I. destruct (fp12_invert a) as [i|].
  2: { split; [reflexivity|]. intros X. destruct (X I). }
  destruct I as [X I]. split; [intros E; destruct (X E)|]. intros _.
  eexists. split; [reflexivity|].
  pose proof (frob6 _ _ A) as F6. set (t0 := fp12_frobenius_map (fp12_frobenius_map (fp12_frobenius_map (fp12_frobenius_map (fp12_frobenius_map (fp12_frobenius_map a)))))) in *.
  assert (E1 : r12 (fp12_mul t0 i) (zpow x (p ^ 6 - 1))).
  { refine (r12_to _ _ _ (r12_mul _ _ _ _ F6 I) _). replace (p ^ 6 - 1) with (p ^ 6 + - (1)) by ring.
    rewrite (zpow_add x (p ^ 6) (- (1)) X), (zpow_neg x 1), (zpow_1 x). reflexivity. }
  set (t1 := fp12_mul t0 i) in *.
  assert (E2 : r12 (fp12_mul (fp12_frobenius_map (fp12_frobenius_map t1)) t1) (zpow x easy_exponent)).
  { refine (r12_to _ _ _ (r12_mul _ _ _ _ (r12_frobenius _ _ (r12_frobenius _ _ E1)) E1) _).
    rewrite <- (zpow_mul x (p ^ 6 - 1) p X), <- (zpow_mul x ((p ^ 6 - 1) * p) p X), <- (zpow_add x ((p ^ 6 - 1) * p * p) (p ^ 6 - 1) X).
    apply (f_equal (zpow x)). unfold easy_exponent. generalize p. intros q. ring. }
  set (t2 := fp12_mul (fp12_frobenius_map (fp12_frobenius_map t1)) t1) in *.
  pose proof (easy_cyc x X) as CY. rewrite <- final_exponent_split, (zpow_mul x easy_exponent (hard_exponent (- BLS_X) p) X).
  set (g := zpow x easy_exponent) in *.
  change (is_pow g (fp12_mul (fp12_mul (fp12_mul (fp12_frobenius_map (fp12_frobenius_map (fp12_mul (cyclotomic_exp t2) (cyclotomic_exp (cyclotomic_exp (fp12_mul (fp12_conjugate (cyclotomic_square t2)) (cyclotomic_exp t2)))))))
     (fp12_frobenius_map (fp12_frobenius_map (fp12_frobenius_map (fp12_mul (cyclotomic_exp (fp12_mul (fp12_conjugate (cyclotomic_square t2)) (cyclotomic_exp t2))) t2)))))
     (fp12_frobenius_map (fp12_mul (fp12_mul (cyclotomic_exp (cyclotomic_exp (cyclotomic_exp (fp12_mul (fp12_conjugate (cyclotomic_square t2)) (cyclotomic_exp t2))))) (cyclotomic_square (cyclotomic_exp t2))) (fp12_conjugate t2))))
     (fp12_mul (cyclotomic_exp (fp12_mul (cyclotomic_exp (cyclotomic_exp (cyclotomic_exp (fp12_mul (fp12_conjugate (cyclotomic_square t2)) (cyclotomic_exp t2))))) (cyclotomic_square (cyclotomic_exp t2))))
       (fp12_mul (fp12_conjugate (fp12_mul (fp12_conjugate (cyclotomic_square t2)) (cyclotomic_exp t2))) t2))) (hard_exponent (- BLS_X) p)).
  assert (T2 : is_pow g t2 1) by exact (r12_to _ _ _ E2 (eq_sym (zpow_1 g))).
  clearbody t2 g. clear E1 E2 F6 I A t1 t0 X x i a.
  pose proof (pow_conj g CY _ _ (pow_sq g CY _ _ T2)) as T1.
  pose proof (pow_exp g CY _ _ T2) as T3.
  pose proof (pow_sq g CY _ _ T3) as T4.
  pose proof (pow_mul g CY _ _ _ _ T1 T3) as T5.
  pose proof (pow_exp g CY _ _ T5) as T1'.
  pose proof (pow_exp g CY _ _ T1') as T0.
  pose proof (pow_mul g CY _ _ _ _ (pow_exp g CY _ _ T0) T4) as T6.
  pose proof (pow_mul g CY _ _ _ _ (pow_exp g CY _ _ T6) (pow_mul g CY _ _ _ _ (pow_conj g CY _ _ T5) T2)) as T4'.
  pose proof (pow_frob g CY _ _ (pow_frob g CY _ _ (pow_frob g CY _ _ (pow_mul g CY _ _ _ _ T1' T2)))) as T1''.
  pose proof (pow_frob g CY _ _ (pow_mul g CY _ _ _ _ T6 (pow_conj g CY _ _ T2))) as T6'.
  pose proof (pow_frob g CY _ _ (pow_frob g CY _ _ (pow_mul g CY _ _ _ _ T3 T0))) as T3'.
  refine (pow_to g _ _ _ (pow_mul g CY _ _ _ _ (pow_mul g CY _ _ _ _ (pow_mul g CY _ _ _ _ T3' T1'') T6') T4') _).
  unfold hard_exponent. generalize (- BLS_X) p. intros u q. ring.
Qed.
