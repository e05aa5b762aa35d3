(** * Ext: the extension fields of the curve

    [Fp2] = Fp(u), u^2 = -1; [Fp6] = Fp2(v), v^3 = 1 + u; [Fp12] = Fp6(w), w^2 = v. *)
From Coq Require Import ZArith List Bool Lia Znumtheory Ring Field.
From Verif Require Import Base Fld Fermat Power Tower Zp Spec_Fp Proof_FpRep Proof_FpTop Proof_G1Base.
Import ListNotations.
Local Open Scope Z_scope.

Section Alg.
Context {K : fld}.
Add Field Kalg : (fld_field K).
Local Open Scope fld_scope.
(** 2 and -2 cannot both be squares if -1 is none *)
Lemma two_nonsquare_gen (s : K) : (forall x : K, x * x <> - (1)) -> s * s = - (1 + 1) -> (1 + 1 : K) <> 0 -> forall x : K, x * x <> 1 + 1.
Proof.
  intros M S T x E. assert (X : x <> 0) by (intros ->; apply T; rewrite <- E; ring).
  apply (M (s * finv x)). transitivity (s * s * finv (x * x)).
  - rewrite finv_mul. ring.
  - rewrite S, E. field. exact T.
Qed.
Lemma square_one (y : K) : y * y = 1 -> y = 1 \/ y = - (1).
Proof.
  intros E. assert (F : (y - 1) * (y + 1) = 0) by (transitivity (y * y - 1); [ring|rewrite E; ring]).
  apply fmul_eq_0 in F. destruct F as [F|F]; [left|right].
  - apply fsub_eq_0, F.
  - apply sum_zero_neg, F.
Qed.
Lemma square_half (y z : K) : y * y = z * z -> y = z \/ y = - z.
Proof.
  intros E. assert (F : (y - z) * (y + z) = 0) by (transitivity (y * y - z * z); [ring|rewrite E; ring]).
  apply fmul_eq_0 in F. destruct F as [F|F]; [left|right].
  - apply fsub_eq_0, F.
  - apply sum_zero_neg, F.
Qed.
Lemma neg_square (x : K) : - x * - x = x * x. Proof. ring. Qed.
Lemma neg_one_square : - (1) * - (1) = (1 : K). Proof. ring. Qed.
Context (ND : forall x : K, x * x <> - (1)).
Local Notation Q := (quad_fld (- (1)) ND).
Add Field Qalg : (fld_field Q).
(** 1 + u is neither a square nor a cube *)
Lemma norm_xi_sq (x : Q) : x * x = (Quad 1 1 : Q) ->
  quad_norm (- (1)) x * quad_norm (- (1)) x = 1 + 1.
Proof.
  intros E. rewrite <- quad_norm_mul. change (quad_mul (- (1)) x x) with (x * x : Q). rewrite E.
  unfold quad_norm. cbn [q0 q1]. ring.
Qed.
Lemma norm_xi_cube (x : Q) : x * x * x = (Quad 1 1 : Q) ->
  quad_norm (- (1)) x * quad_norm (- (1)) x * quad_norm (- (1)) x = 1 + 1.
Proof.
  intros E. rewrite <- !quad_norm_mul. change (quad_mul (- (1)) (quad_mul (- (1)) x x) x) with (x * x * x : Q). rewrite E.
  unfold quad_norm. cbn [q0 q1]. ring.
Qed.
(** powers of 1 + u *)
Lemma xi_square : (Quad 1 1 : Q) * (Quad 1 1 : Q) = (Quad 0 (1 + 1) : Q).
Proof. change (@quad_mul K (- (1)) (Quad 1 1) (Quad 1 1) = Quad 0 (1 + 1)). unfold quad_mul. cbn [q0 q1]. f_equal; ring. Qed.
Lemma imag_mul_imag (a b : K) : (Quad 0 a : Q) * (Quad 0 b : Q) = (Quad (- (a * b)) 0 : Q).
Proof. change (@quad_mul K (- (1)) (Quad 0 a) (Quad 0 b) = Quad (- (a * b)) 0). unfold quad_mul. cbn [q0 q1]. f_equal; ring. Qed.
Lemma imag_mul_real (a b : K) : (Quad 0 a : Q) * (Quad b 0 : Q) = (Quad 0 (a * b) : Q).
Proof. change (@quad_mul K (- (1)) (Quad 0 a) (Quad b 0) = Quad 0 (a * b)). unfold quad_mul. cbn [q0 q1]. f_equal; ring. Qed.
Lemma real_mul_real (a b : K) : (Quad a 0 : Q) * (Quad b 0 : Q) = (Quad (a * b) 0 : Q).
Proof. change (@quad_mul K (- (1)) (Quad a 0) (Quad b 0) = Quad (a * b) 0). unfold quad_mul. cbn [q0 q1]. f_equal; ring. Qed.
Lemma imag_pow4 (a : K) j : (Quad 0 a : Q) ^ (4 * j) = (Quad (a ^ (4 * j)) 0 : Q).
Proof.
  rewrite !fpow_mul. induction j as [|j IH]; [reflexivity|]. rewrite !(fpow_S _ j), IH.
  assert (E : (Quad 0 a : Q) ^ 4 = (Quad (a ^ 4) 0 : Q)).
  { change 4%nat with (2 * 2)%nat. rewrite fpow_mul, (fpow_mul a), !(fpow_2 (K:=Q)), !fpow_2, imag_mul_imag, real_mul_real.
    f_equal. ring. }
  rewrite E. apply real_mul_real.
Qed.
Lemma imag_pow3 (a : K) j : (Quad 0 a : Q) ^ (4 * j + 3) = (Quad 0 (- a ^ (4 * j + 3)) : Q).
Proof.
  rewrite !fpow_add, imag_pow4.
  assert (E : (Quad 0 a : Q) ^ 3 = (Quad 0 (- a ^ 3) : Q)).
  { change 3%nat with (1 + 2)%nat. rewrite !fpow_add, !fpow_1, !(fpow_2 (K:=Q)), imag_mul_imag, imag_mul_real, fpow_2. f_equal. ring. }
  rewrite E. transitivity ((Quad 0 (- a ^ 3) : Q) * (Quad (a ^ (4 * j)) 0 : Q)); [apply (F_R (fld_field Q))|].
  rewrite imag_mul_real. f_equal. ring.
Qed.
Lemma xi_pow_even j : (Quad 1 1 : Q) ^ (2 * (4 * j + 3)) = (Quad 0 (- (1 + 1) ^ (4 * j + 3)) : Q).
Proof. rewrite fpow_mul, (fpow_2 (K:=Q)), xi_square. apply imag_pow3. Qed.
Lemma xi_pow_odd j : (Quad 1 1 : Q) ^ (S (2 * (4 * j + 3))) = (Quad ((1 + 1) ^ (4 * j + 3)) (- (1 + 1) ^ (4 * j + 3)) : Q).
Proof.
  rewrite fpow_S, xi_pow_even. set (a := (1 + 1) ^ (4 * j + 3)).
  change (@quad_mul K (- (1)) (Quad 1 1) (Quad 0 (- a)) = Quad a (- a)). unfold quad_mul. cbn [q0 q1]. f_equal; ring.
Qed.
Lemma xi_zpow_even j : (0 <= j)%Z -> zpow (Quad 1 1 : Q) (2 * (4 * j + 3)) = (Quad 0 (- zpow (1 + 1) (4 * j + 3)) : Q).
Proof.
  intros H. rewrite <- (Z2Nat.id j) by exact H. replace (2 * (4 * Z.of_nat (Z.to_nat j) + 3))%Z with (Z.of_nat (2 * (4 * Z.to_nat j + 3))) by lia.
  replace (4 * Z.of_nat (Z.to_nat j) + 3)%Z with (Z.of_nat (4 * Z.to_nat j + 3)) by lia. rewrite !zpow_of_nat. apply xi_pow_even.
Qed.
Lemma xi_zpow_odd j : (0 <= j)%Z -> zpow (Quad 1 1 : Q) (2 * (4 * j + 3) + 1) = (Quad (zpow (1 + 1) (4 * j + 3)) (- zpow (1 + 1) (4 * j + 3)) : Q).
Proof.
  intros H. rewrite <- (Z2Nat.id j) by exact H. replace (2 * (4 * Z.of_nat (Z.to_nat j) + 3) + 1)%Z with (Z.of_nat (S (2 * (4 * Z.to_nat j + 3)))) by lia.
  replace (4 * Z.of_nat (Z.to_nat j) + 3)%Z with (Z.of_nat (4 * Z.to_nat j + 3)) by lia. rewrite !zpow_of_nat. apply xi_pow_odd.
Qed.
Lemma m1_pow_odd j : (- (1) : K) ^ (2 * j + 1) = - (1).
Proof. rewrite fpow_add, fpow_mul, fpow_2, fpow_1, neg_one_square, fpow_1_l. ring. Qed.
Lemma m1_scale (x : K) : - (1) * x = - x. Proof. ring. Qed.
Lemma scale_m1 (x y : K) : x * - y = - (x * y). Proof. ring. Qed.
End Alg.

(** ** p-th powers in the steps of the tower *)
Section Frob.
Context {K : fld} (n : nat) (PR : prime (Z.of_nat n)) (CH : fnat n = (f0 : K)).
Add Field Kfrob : (fld_field K).
Local Open Scope fld_scope.
Section QuadFrob.
Context (d : K) (ND : forall x : K, x * x <> d).
Local Notation Q := (quad_fld d ND).
Lemma quad_char : fnat n = (0 : Q).
Proof. rewrite quad_of_fnat, CH. reflexivity. Qed.
Lemma quad_pow_p m a b : n = (2 * m + 1)%nat -> (Quad a b : Q) ^ n = (Quad (a ^ n) (d ^ m * b ^ n) : Q).
Proof.
  intros En.
  assert (S : forall x y : K, (Quad x y : Q) = @fadd Q (quad_of x) (@fmul Q (quad_root d ND) (quad_of y))) by (intros; apply quad_split).
  rewrite (S a b). rewrite (freshman n PR quad_char). rewrite fpow_mul_base. rewrite !(quad_of_pow d ND).
  assert (R : @fpow Q (quad_root d ND) n = @fmul Q (quad_root d ND) (quad_of (d ^ m))).
  { rewrite En, Nat.add_1_r, fpow_S, fpow_mul, (fpow_2 (K:=Q)), quad_root_square, quad_of_pow. reflexivity. }
  rewrite R, (S (a ^ n) (d ^ m * b ^ n)). f_equal.
  change (quad_of (d ^ m * b ^ n)) with (quad_of (d ^ m * b ^ n) : Q).
  rewrite (quad_of_mul d (d ^ m) (b ^ n)).
  symmetry. apply (Rmul_assoc (F_R (fld_field Q))).
Qed.
End QuadFrob.
Section CubicFrob.
Context (xi : K) (NX : forall x : K, x * x * x <> xi).
Local Notation C := (cubic_fld xi NX).
Lemma cubic_char : fnat n = (0 : C).
Proof. rewrite cubic_of_fnat, CH. reflexivity. Qed.
Lemma cubic_pow_p m a b c : n = (3 * m + 1)%nat ->
  (Cubic a b c : C) ^ n = (Cubic (a ^ n) (xi ^ m * b ^ n) (xi ^ m * xi ^ m * c ^ n) : C).
Proof.
  intros En. pose proof (F_R (fld_field C)) as RT.
  assert (S : forall x y z : K, (Cubic x y z : C) = @fadd C (cubic_of x) (@fmul C (cubic_root xi NX) (@fadd C (cubic_of y) (@fmul C (cubic_root xi NX) (cubic_of z))))) by (intros; apply cubic_split).
  rewrite (S a b c). rewrite (freshman n PR cubic_char), fpow_mul_base, (freshman n PR cubic_char), fpow_mul_base, !(cubic_of_pow xi NX).
  assert (R : @fpow C (cubic_root xi NX) n = @fmul C (cubic_root xi NX) (cubic_of (xi ^ m))).
  { rewrite En, Nat.add_1_r, fpow_S, fpow_mul.
    assert (E3 : @fpow C (cubic_root xi NX) 3 = cubic_of xi).
    { cbn [fpow]. rewrite <- (cubic_root_cube xi NX). rewrite (Rmul_comm RT (cubic_root xi NX) f1), (Rmul_1_l RT). apply (Rmul_assoc RT). }
    rewrite E3, cubic_of_pow. reflexivity. }
  rewrite R, (S (a ^ n)). f_equal.
  rewrite <- (Rmul_assoc RT). f_equal.
  rewrite !(cubic_of_mul xi (xi ^ m)), !(cubic_of_mul xi (xi ^ m * xi ^ m)), !(cubic_of_mul xi (xi ^ m) (xi ^ m)).
  set (g := cubic_of (xi ^ m)). set (bb := cubic_of (b ^ n)). set (cc := cubic_of (c ^ n)).
  change (@fmul C g (@fadd C bb (@fmul C (@fmul C (cubic_root xi NX) g) cc))
    = @fadd C (@fmul C g bb) (@fmul C (cubic_root xi NX) (@fmul C (@fmul C g g) cc))).
  generalize (cubic_root xi NX : C). generalize (g : C). generalize (bb : C). generalize (cc : C).
  intros x1 x2 x3 x4.
  rewrite (Rmul_comm RT x3), (Rdistr_l RT), (Rmul_comm RT x2). f_equal.
  rewrite (Rmul_comm RT _ x3), !(Rmul_assoc RT). f_equal. rewrite <- !(Rmul_assoc RT). rewrite (Rmul_comm RT x3 (x4 * x3)).
  symmetry. apply (Rmul_assoc RT).
Qed.
End CubicFrob.
End Frob.

(** ** the fields *)
Lemma Fp_minus_one (x : Fp) : fmul x x <> fneg f1.
Proof. intros E. apply Fp_minus_one_nonsquare. exists x. exact E. Qed.
Definition Fp2 : fld := quad_fld (fneg f1 : Fp) Fp_minus_one.
Definition Fp2_of (x : Fp) : Fp2 := quad_of x.
(** u and 1 + u *)
Definition Fp2_u : Fp2 := Quad (f0 : Fp) f1.
Definition xi : Fp2 := Quad (f1 : Fp) f1.

Definition sqrt_m2 : Fp := fp_of 0xca2f5e1c98166837ab7e0db6ba8acdad404902d6dde8c027741f672f58c729841dccd9fcb7bf41629ddf60824381299.
Lemma sqrt_m2_ok : fmul sqrt_m2 sqrt_m2 = fneg (fadd f1 f1).
Proof.
  unfold sqrt_m2. rewrite <- fp_of_mul, <- Fp_of_1, <- fp_of_add, <- fp_of_neg. apply fp_of_eq. vm_compute. reflexivity.
Qed.
Lemma two_nonsquare (x : Fp) : fmul x x <> fadd f1 f1.
Proof. exact (two_nonsquare_gen sqrt_m2 Fp_minus_one sqrt_m2_ok Fp_two x). Qed.
Lemma two_noncube (x : Fp) : fmul (fmul x x) x <> fadd f1 f1.
Proof. rewrite <- Fp_of_1, <- fp_of_add. exact (two_not_cube x). Qed.
Lemma xi_nonsquare (x : Fp2) : fmul x x <> xi.
Proof. intros E. exact (two_nonsquare _ (norm_xi_sq Fp_minus_one x E)). Qed.
Lemma xi_noncube (x : Fp2) : fmul (fmul x x) x <> xi.
Proof. intros E. exact (two_noncube _ (norm_xi_cube Fp_minus_one x E)). Qed.
Definition Fp6 : fld := cubic_fld xi xi_noncube.
Definition Fp6_of (x : Fp2) : Fp6 := cubic_of x.
Definition Fp6_v : Fp6 := cubic_root xi xi_noncube.
Lemma v_nonsquare (x : Fp6) : fmul x x <> Fp6_v.
Proof. exact (cubic_root_nonsquare xi xi_noncube xi_nonsquare x). Qed.
Definition Fp12 : fld := quad_fld Fp6_v v_nonsquare.
Definition Fp12_of (x : Fp6) : Fp12 := quad_of x.

(** ** p as a natural number, kept folded *)
Lemma pn_exists : { n : nat | Z.of_nat n = p }.
Proof. exists (Z.to_nat p). apply Z2Nat.id. apply Z.lt_le_incl, p_pos. Qed.
Definition pn : nat := proj1_sig pn_exists.
Lemma pn_Z : Z.of_nat pn = p.
Proof. exact (proj2_sig pn_exists). Qed.
Lemma pn_prime : prime (Z.of_nat pn).
Proof. rewrite pn_Z. exact p_prime. Qed.
Lemma Fp_char : fnat pn = (f0 : Fp).
Proof. rewrite fnat_Fp, pn_Z, <- Fp_of_0. apply fp_of_eq. vm_compute. reflexivity. Qed.
Lemma Fp2_char : fnat pn = (f0 : Fp2).
Proof. exact (quad_char pn Fp_char _ _). Qed.
Lemma Fp6_char : fnat pn = (f0 : Fp6).
Proof. exact (cubic_char pn Fp2_char _ _). Qed.
Lemma Fp12_char : fnat pn = (f0 : Fp12).
Proof. exact (quad_char pn Fp6_char _ _). Qed.

(** ** powers in Fp *)
Lemma Fp_zpow (x : Fp) e : 0 <= e -> zpow x e = Fp_pow x e.
Proof.
  intros H. rewrite zpow_nat by exact H. unfold Fp_pow. rewrite <- (Z2Nat.id e) at 2 by exact H.
  rewrite <- fpow_Fp. f_equal. symmetry. apply fp_of_pval.
Qed.
Lemma Fp_fermat (x : Fp) : zpow x p = x.
Proof.
  destruct (fdec x f0) as [->|N].
  - apply zpow_0_l. exact p_pos.
  - replace p with (p - 1 + 1) by ring. pose proof p_gt_1. rewrite zpow_add by exact N. rewrite Fp_zpow by lia.
    rewrite Fp_pow_fermat by exact N. rewrite zpow_1. apply (Rmul_1_l (F_R (fld_field Fp))).
Qed.
Lemma Fp_pow_pn (x : Fp) : fpow x pn = x.
Proof. rewrite <- zpow_of_nat, pn_Z. apply Fp_fermat. Qed.

Section Exps.
Context {K : fld}.
Add Field Kexps : (fld_field K).
Local Open Scope fld_scope.
(** Euler's criterion for a non-square: x^((q-1)/2) = -1 when x^(q-1) = 1, q = 4 h + 3 *)
Lemma euler_gen (x : K) h : (0 <= h)%Z -> (forall y, y * y <> x) -> zpow x (4 * h + 2) = 1 -> zpow x (2 * h + 1) = - (1).
Proof.
  intros H N E. destruct (square_one (zpow x (2 * h + 1))) as [A|A].
  - rewrite <- zpow_2, <- zpow_mul_nn by lia. rewrite <- E. f_equal. ring.
  - exfalso. apply (N (zpow x (h + 1))). rewrite <- zpow_2, <- zpow_mul_nn by lia.
    replace ((h + 1) * 2)%Z with (2 * h + 1 + 1)%Z by ring. rewrite zpow_add_nn by lia. rewrite A, zpow_1. ring.
  - exact A.
Qed.
(** x^e from x^(2e) and x^(3e) *)
Lemma third_from (x t w : K) : x * x = t -> x * x * x = - (1) -> w * t = - (1) -> x = w.
Proof.
  intros A B C. rewrite A in B. assert (N : t <> 0).
  { intros ->. apply (f1_neq_0 (K:=K)). transitivity (- (0 * x)); [rewrite B; ring|ring]. }
  apply (fmul_cancel_l t); [exact N|]. rewrite B. transitivity (w * t); [symmetry; exact C|ring].
Qed.
(** an odd power of a non-square is no square *)
Lemma odd_power_nonsquare (x y : K) j : (0 <= j)%Z -> x <> 0 -> (forall y, y * y <> x) -> zpow x (2 * j + 1) <> y * y.
Proof.
  intros J X N E. apply (N (y * finv (zpow x j))). rewrite zpow_add_nn, zpow_1 in E by lia.
  rewrite Z.mul_comm, zpow_mul_nn, zpow_2 in E by lia.
  transitivity (y * y * (finv (zpow x j) * finv (zpow x j))); [ring|]. rewrite <- E. field. apply zpow_nonzero, X.
Qed.
Lemma dbl_cancel (a b : K) : (1 + 1 : K) <> 0 -> (1 + 1) * a = (1 + 1) * b -> a = b.
Proof. intros N E. apply (fmul_cancel_l (1 + 1)); assumption. Qed.
End Exps.

Definition two : Fp := fadd f1 f1.
Lemma two_of : two = fp_of 2.
Proof. unfold two. rewrite <- Fp_of_1, <- fp_of_add. reflexivity. Qed.
(** p = 12 p12 + 7, p12 = 4 p48 + 3 *)
Definition p48 : Z := (p - 43) / 48.
Lemma p_48 : p = 48 * p48 + 43 /\ 0 <= p48.
Proof. vm_compute. split; [reflexivity|discriminate]. Qed.
Lemma two_p_half : zpow two (24 * p48 + 21) = fneg f1.
Proof.
  destruct p_48 as [E H]. replace (24 * p48 + 21) with (2 * (12 * p48 + 10) + 1) by ring. apply euler_gen.
  - lia.
  - exact two_nonsquare.
  - replace (4 * (12 * p48 + 10) + 2) with (p - 1) by lia. rewrite Fp_zpow by (pose proof p_gt_1; lia).
    apply Fp_pow_fermat. exact Fp_two.
Qed.
Definition two_sixth : Fp := fp_of 0x5f19672fdf76ce51ba69c6076a0f77eaddb3a93be6f89688de17d813620a00022e01fffffffeffff.
Lemma two_p_sixth : zpow two (8 * p48 + 7) = two_sixth.
Proof.
  destruct p_48 as [E H].
  apply (third_from _ (fp_of 0x5f19672fdf76ce51ba69c6076a0f77eaddb3a93be6f89688de17d813620a00022e01fffffffefffe)).
  - rewrite <- zpow_2, <- zpow_mul_nn by lia. replace ((8 * p48 + 7) * 2) with p_third.
    + destruct p_third_ok as [_ T]. rewrite Fp_zpow by exact T. rewrite two_of, Fp_pow_powmod by exact T. rewrite two_third. reflexivity.
    + destruct p_third_ok as [T _]. lia.
  - rewrite <- two_p_half. replace (24 * p48 + 21) with ((8 * p48 + 7) * (2 + 1)) by ring.
    rewrite zpow_mul_nn by lia. set (y := zpow two (8 * p48 + 7)). rewrite zpow_add_nn, zpow_1, zpow_2 by lia. reflexivity.
  - unfold two_sixth. rewrite <- fp_of_mul, <- Fp_of_1, <- fp_of_neg. apply fp_of_eq. vm_compute. reflexivity.
Qed.
Definition two_twelfth : Fp := fp_of 0x1904d3bf02bb0667c231beb4202c0d1f0fd603fd3cbd5f4f7b2443d784bab9c4f67ea53d63e7813d8d0775ed92235fb8.
Definition sqrt_m12 : Fp := fp_of 0xbb4da7c2866557d4090d8e990b65caec313afd87879bfee1c03f19f8c7a0b1ad88ba1c68bd81f7bbaa5ca1607ff0b07.
Lemma two_twelfth_square : fmul two (fmul two_twelfth two_twelfth) = two_sixth.
Proof. rewrite two_of. unfold two_sixth, two_twelfth. rewrite <- !fp_of_mul. apply fp_of_eq. vm_compute. reflexivity. Qed.
Lemma two_twelfth_neg : fneg two_twelfth = fmul sqrt_m12 sqrt_m12.
Proof. unfold two_twelfth, sqrt_m12. rewrite <- fp_of_neg, <- fp_of_mul. apply fp_of_eq. vm_compute. reflexivity. Qed.
Section Twelfth.
Context {K : fld}.
Lemma pow_double_succ (x : K) e : 0 <= e -> fmul x (fmul (zpow x e) (zpow x e)) = zpow x (2 * e + 1).
Proof.
  intros H. rewrite zpow_succ_nn by lia. f_equal. rewrite Z.mul_comm, zpow_mul_nn by lia. reflexivity.
Qed.
End Twelfth.
Lemma two_p_twelfth : zpow two (4 * p48 + 3) = two_twelfth.
Proof.
  destruct p_48 as [E H].
  assert (S : fmul (zpow two (4 * p48 + 3)) (zpow two (4 * p48 + 3)) = fmul two_twelfth two_twelfth).
  { apply (dbl_cancel _ _ Fp_two). change (fadd f1 f1) with two. rewrite two_twelfth_square, <- two_p_sixth.
    rewrite pow_double_succ by lia. f_equal. }
  destruct (square_half _ _ S) as [A|A]; [exact A|].
  exfalso. rewrite two_twelfth_neg in A. replace (4 * p48 + 3) with (2 * (2 * p48 + 1) + 1) in A by ring.
  revert A. apply odd_power_nonsquare; [lia|exact Fp_two|exact two_nonsquare].
Qed.

(** ** powers of 1 + u *)
Definition gamma : Fp2 := Quad two_twelfth (fneg two_twelfth).
Definition gamma2 : Fp2 := Quad (f0 : Fp) (fneg two_sixth).
Definition gamma4 : Fp2 := Quad (fneg (fmul two_sixth two_sixth)) (f0 : Fp).
Lemma xi_p_third : zpow xi (16 * p48 + 14) = gamma2.
Proof.
  destruct p_48 as [_ H]. replace (16 * p48 + 14) with (2 * (4 * (2 * p48 + 1) + 3)) by ring.
  unfold xi. rewrite (xi_zpow_even Fp_minus_one) by lia. unfold gamma2. rewrite <- two_p_sixth.
  replace (4 * (2 * p48 + 1) + 3) with (8 * p48 + 7) by ring. reflexivity.
Qed.
Lemma xi_p_sixth : zpow xi (8 * p48 + 7) = gamma.
Proof.
  destruct p_48 as [_ H]. replace (8 * p48 + 7) with (2 * (4 * p48 + 3) + 1) by ring.
  unfold xi. rewrite (xi_zpow_odd Fp_minus_one) by lia. unfold gamma. rewrite <- two_p_twelfth. reflexivity.
Qed.
Lemma gamma4_ok : fmul gamma2 gamma2 = gamma4.
Proof.
  unfold gamma2. transitivity (Quad (fneg (fmul (fneg two_sixth) (fneg two_sixth))) f0 : Fp2); [exact (imag_mul_imag Fp_minus_one _ _)|].
  rewrite neg_square. reflexivity.
Qed.

(** ** the p-th power maps *)
Definition Fp2_conj (x : Fp2) : Fp2 := quad_conj x.
Lemma Fp2_frobenius (x : Fp2) : zpow x p = Fp2_conj x.
Proof.
  destruct p_48 as [E H]. rewrite <- pn_Z, zpow_of_nat. destruct x as [a b].
  set (m := (2 * Z.to_nat (12 * p48 + 10) + 1)%nat).
  assert (En : pn = (2 * m + 1)%nat) by (pose proof pn_Z; unfold m; lia).
  transitivity (Quad (fpow a pn) (fmul (fpow (fneg f1) m) (fpow b pn)) : Fp2).
  - exact (quad_pow_p pn pn_prime Fp_char _ Fp_minus_one m a b En).
  - rewrite !Fp_pow_pn. unfold m. rewrite m1_pow_odd, m1_scale. reflexivity.
Qed.
Definition Fp6_frob (x : Fp6) : Fp6 := Cubic (Fp2_conj (k0 x)) (fmul gamma2 (Fp2_conj (k1 x))) (fmul gamma4 (Fp2_conj (k2 x))).
Lemma Fp2_pow_pn (x : Fp2) : fpow x pn = Fp2_conj x.
Proof. rewrite <- zpow_of_nat, pn_Z. apply Fp2_frobenius. Qed.
Lemma Fp6_frobenius (x : Fp6) : zpow x p = Fp6_frob x.
Proof.
  destruct p_48 as [E H]. rewrite <- pn_Z, zpow_of_nat. destruct x as [a b c].
  set (m := Z.to_nat (16 * p48 + 14)).
  assert (En : pn = (3 * m + 1)%nat) by (pose proof pn_Z; unfold m; lia).
  assert (G : fpow xi m = gamma2).
  { unfold m. rewrite <- zpow_nat by lia. exact xi_p_third. }
  transitivity (Cubic (fpow a pn) (fmul (fpow xi m) (fpow b pn)) (fmul (fmul (fpow xi m) (fpow xi m)) (fpow c pn)) : Fp6).
  - exact (cubic_pow_p pn pn_prime Fp2_char _ xi_noncube m a b c En).
  - rewrite !Fp2_pow_pn, G, gamma4_ok. reflexivity.
Qed.
Lemma Fp6_pow_pn (x : Fp6) : fpow x pn = Fp6_frob x.
Proof. rewrite <- zpow_of_nat, pn_Z. apply Fp6_frobenius. Qed.
Lemma v_p_half : fpow Fp6_v (3 * Z.to_nat (8 * p48 + 7)) = Fp6_of gamma.
Proof.
  destruct p_48 as [_ H]. rewrite fpow_mul.
  assert (E3 : fpow Fp6_v 3 = Fp6_of xi).
  { transitivity (fmul (fmul Fp6_v Fp6_v) Fp6_v); [|exact (cubic_root_cube xi xi_noncube)].
    cbn [fpow]. pose proof (F_R (fld_field Fp6)) as RT.
    rewrite (Rmul_comm RT Fp6_v f1), (Rmul_1_l RT). apply (Rmul_assoc RT). }
  rewrite E3. unfold Fp6_of. transitivity (cubic_of (fpow xi (Z.to_nat (8 * p48 + 7))) : Fp6); [exact (cubic_of_pow xi xi_noncube xi _)|].
  rewrite <- zpow_nat by lia. rewrite xi_p_sixth. reflexivity.
Qed.
Definition Fp12_frob (x : Fp12) : Fp12 := Quad (Fp6_frob (q0 x)) (fmul (Fp6_of gamma) (Fp6_frob (q1 x))).
Lemma Fp12_frobenius (x : Fp12) : zpow x p = Fp12_frob x.
Proof.
  destruct p_48 as [E H]. rewrite <- pn_Z, zpow_of_nat. destruct x as [a b].
  set (m := (3 * Z.to_nat (8 * p48 + 7))%nat).
  assert (En : pn = (2 * m + 1)%nat) by (pose proof pn_Z; unfold m; lia).
  transitivity (Quad (fpow a pn) (fmul (fpow Fp6_v m) (fpow b pn)) : Fp12).
  - exact (quad_pow_p pn pn_prime Fp6_char _ v_nonsquare m a b En).
  - rewrite !Fp6_pow_pn. unfold m. rewrite v_p_half. reflexivity.
Qed.
