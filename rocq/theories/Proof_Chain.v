(** * Proof_Chain: multiples of concrete points of the curve over the base field

    A chain of doublings and additions, each step with its slope and with the quotients by p that
    turn the congruences into equalities of integers, so that checking a step takes seven products. *)
From Coq Require Import ZArith List Bool Lia.
From Verif Require Import Base Fld Fastmul Zp Spec_Curve Proof_FpRep Proof_Curve Proof_CurveMul Proof_G1Base.
Import ListNotations.

Section Slope.
Context {K : fld}.
Add Field Kslope : (fld_field K).
Local Open Scope fld_scope.
Lemma div_unique' (a c m : K) : c <> 0 -> m * c = a -> a / c = m.
Proof. intros N <-. unfold fdiv. transitivity (m * (finv c * c)); [ring|]. rewrite finv_l by exact N. ring. Qed.
Lemma double_slope (x y m : K) : (1 + 1) * y <> 0 -> m * ((1 + 1) * y) = (1 + 1 + 1) * (x * x) ->
  point_add (Affine x y) (Affine x y) = third m x y x.
Proof.
  intros N M. cbn [point_add]. rewrite feqb_refl. rewrite (proj2 (feqb_false _ _)).
  - now rewrite (div_unique' _ _ m N M).
  - intros E. apply N. transitivity (y - - y); [ring|]. rewrite <- E. ring.
Qed.
Lemma add_slope (x y x2 y2 m : K) : x2 - x <> 0 -> m * (x2 - x) = y2 - y ->
  point_add (Affine x y) (Affine x2 y2) = third m x y x2.
Proof.
  intros N M. cbn [point_add]. rewrite (proj2 (feqb_false x x2)).
  - now rewrite (div_unique' _ _ m N M).
  - intros E. apply N. rewrite E. ring.
Qed.
End Slope.

Local Open Scope Z_scope.
Lemma triple_inj (a b c x y z : Z) : Some (a, b, c) = Some (x, y, z) -> a = x /\ b = y /\ c = z.
Proof. intros H. injection H. auto. Qed.
Inductive step := Dbl (m k1 k2 k3 : Z) | Add (m k1 k2 k3 : Z).
Section Run.
Context (bx by_ : Z).
Definition run1 (st : Z * Z * Z) (s : step) : option (Z * Z * Z) :=
  let '(x, y, n) := st in
  match s with
  | Dbl m k1 k2 k3 =>
    if zmul4 m (2 * y) =? 3 * Z.square x + zmul4 k1 p then
      let x' := Z.square m - x - x + zmul4 k2 p in Some (x', zmul4 m (x - x') - y + zmul4 k3 p, 2 * n)
    else None
  | Add m k1 k2 k3 =>
    if (zmul4 m (bx - x) =? by_ - y + zmul4 k1 p) && negb ((bx - x) mod p =? 0) then
      let x' := Z.square m - x - bx + zmul4 k2 p in Some (x', zmul4 m (x - x') - y + zmul4 k3 p, n + 1)
    else None
  end.
Fixpoint run (l : list step) (st : Z * Z * Z) : option (Z * Z * Z) :=
  match l with
  | [] => Some st
  | s :: l => match run1 st s with Some st => run l st | None => None end
  end.

Definition apt (x y : Z) : point Fp := Affine (fp_of x) (fp_of y).
Lemma fp_of_plus_p a k : fp_of (a + k * p) = fp_of a.
Proof. apply fp_of_eq. apply Z.mod_add. pose proof p_pos. lia. Qed.
Lemma apt_third m x y x2 k2 k3 : let x' := m * m - x - x2 + k2 * p in
  apt x' (m * (x - x') - y + k3 * p) = third (fp_of m) (fp_of x) (fp_of y) (fp_of x2).
Proof.
  cbv zeta. unfold apt, third. cbv zeta. rewrite !fp_of_plus_p.
  rewrite (fp_of_sub (m * _)), fp_of_mul, (fp_of_sub x), fp_of_plus_p, !fp_of_sub, fp_of_mul.
  reflexivity.
Qed.
Lemma apt_y_nonzero x y : on_curve b4 (apt x y) -> fmul (fadd f1 f1) (fp_of y) <> (f0 : Fp).
Proof.
  intros C. apply mul_nonzero; [exact Fp_two|]. intros E.
  change (fmul (fp_of y) (fp_of y) = fadd (fmul (fmul (fp_of x) (fp_of x)) (fp_of x)) b4) in C. rewrite E in C.
  apply (Fp_NoTwo (fp_of x)). rewrite <- C. apply zero_scale.
Qed.

Context (C : on_curve b4 (apt bx by_)).
Lemma run1_ok x y n s x' y' n' : run1 (x, y, n) s = Some (x', y', n') ->
  apt x y = point_zmul n (apt bx by_) -> apt x' y' = point_zmul n' (apt bx by_).
Proof.
  intros R E. pose proof (zmul_on_curve (b:=b4) Fp_two Fp_NoTwo n _ C) as CX. rewrite <- E in CX.
  pose proof (pt_zmul_add (b:=b4) Fp_two Fp_NoTwo) as ZADD.
  destruct s as [m k1 k2 k3|m k1 k2 k3]; cbn [run1] in R; rewrite ?zmul4_ok in R.
  - destruct (Z.eqb_spec (m * (2 * y)) (3 * Z.square x + k1 * p)) as [H|]; [|discriminate].
    apply triple_inj in R as (<- & <- & <-). rewrite !Z.square_spec in *. rewrite apt_third.
    replace (2 * n) with (n + n) by ring. rewrite ZADD, <- E by exact C.
    symmetry. apply double_slope; [now apply (apt_y_nonzero x)|].
    apply (f_equal fp_of) in H. rewrite fp_of_plus_p in H. change 2 with (1 + 1) in H. change 3 with (1 + 1 + 1) in H.
    rewrite !fp_of_mul, !fp_of_add, Fp_of_1 in H. exact H.
  - destruct (Z.eqb_spec (m * (bx - x)) (by_ - y + k1 * p)) as [H|]; [|discriminate].
    destruct (Z.eqb_spec ((bx - x) mod p) 0) as [|N]; [discriminate|]. cbn [andb negb] in R.
    apply triple_inj in R as (<- & <- & <-). rewrite !Z.square_spec in *. rewrite apt_third.
    rewrite ZADD, <- E, (pt_zmul_1 (b:=b4)) by exact C.
    symmetry. apply add_slope.
    + rewrite <- fp_of_sub, <- Fp_of_0. intros F. apply N. apply (f_equal pval) in F. rewrite !pval_fp_of in F. exact F.
    + apply (f_equal fp_of) in H. rewrite fp_of_plus_p in H. rewrite fp_of_mul, !fp_of_sub in H. exact H.
Qed.
Lemma run_ok l : forall x y n x' y' n', run l (x, y, n) = Some (x', y', n') ->
  apt x y = point_zmul n (apt bx by_) -> apt x' y' = point_zmul n' (apt bx by_).
Proof.
  induction l as [|s l IH]; intros x y n x' y' n' R E; cbn [run] in R.
  - injection R as <- <- <-. exact E.
  - destruct (run1 (x, y, n) s) as [[[x1 y1] n1]|] eqn:R1; [|discriminate].
    eapply IH; [exact R|]. eapply run1_ok; eassumption.
Qed.
Theorem chain_ok l x y n : run l (bx, by_, 1) = Some (x, y, n) -> point_zmul n (apt bx by_) = apt x y.
Proof.
  intros R. symmetry. eapply run_ok; [exact R|]. symmetry. apply (pt_zmul_1 (b:=b4)). exact C.
Qed.
End Run.
Lemma apt_on x y : (y * y mod p =? (x * x * x + 4) mod p) = true -> on_curve b4 (apt x y).
Proof.
  intros H. apply Z.eqb_eq in H. apply fp_of_eq in H.
  change (fmul (fp_of y) (fp_of y) = fadd (fmul (fmul (fp_of x) (fp_of x)) (fp_of x)) (fp_of 4)).
  rewrite <- !fp_of_mul, <- fp_of_add. exact H.
Qed.
Lemma apt_neq x y x2 y2 : (x mod p =? x2 mod p) && (y mod p =? y2 mod p) = false -> apt x y <> apt x2 y2.
Proof.
  intros H E.
  assert (EX : pval (fp_of x) = pval (fp_of x2)) by (apply (f_equal (fun P : point Fp => match P with Infinity => 0 | Affine u _ => pval u end)) in E; exact E).
  assert (EY : pval (fp_of y) = pval (fp_of y2)) by (apply (f_equal (fun P : point Fp => match P with Infinity => 0 | Affine _ u => pval u end)) in E; exact E).
  rewrite !pval_fp_of in EX, EY.
  rewrite EX, EY, !Z.eqb_refl in H. discriminate.
Qed.
Lemma apt_eq x y x2 y2 : x mod p = x2 mod p -> y mod p = y2 mod p -> apt x y = apt x2 y2.
Proof. intros A B. unfold apt. now rewrite (fp_of_eq _ _ A), (fp_of_eq _ _ B). Qed.
