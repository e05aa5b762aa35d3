(** * Proof_Endo: the endomorphism (x, y) -> (w x, y) for a cube root of unity w *)
From Coq Require Import ZArith List Bool Lia.
From Verif Require Import Base Fld Spec_Curve Proof_Curve Proof_CurveMul.
Import ListNotations.

Section Endo.
Context {K : fld} {b : K}.
Add Field Kendo : (fld_field K).
Local Open Scope fld_scope.
Hypothesis H2 : (1 + 1 : K) <> 0.
Hypothesis NoTwo : forall x : K, x * x * x + b <> 0.
Context (w : K).
Hypothesis Hw : w * w + w + 1 = 0.

Definition endo (P : point K) : point K :=
  match P with Infinity => Infinity | Affine x y => Affine (w * x) y end.

Lemma w_cube : w * w * w = 1.
Proof. replace (w * w * w) with ((w - 1) * (w * w + w + 1) + 1) by ring. rewrite Hw. ring. Qed.
Lemma w_nonzero : w <> 0.
Proof. intros E. pose proof w_cube as C. rewrite E in C. apply (@f1_neq_0 K). rewrite <- C. ring. Qed.
Lemma w_inv : finv w = w * w.
Proof. apply finv_unique. transitivity (w * w * w); [ring|apply w_cube]. Qed.

Lemma endo_on_curve P : on_curve b P -> on_curve b (endo P).
Proof.
  destruct P as [|x y]; [trivial|]. cbn. intros ->.
  replace (w * x * (w * x) * (w * x)) with (w * w * w * (x * x * x)) by ring. rewrite w_cube. ring.
Qed.
Lemma endo_neg (P : point K) : endo (point_neg P) = point_neg (endo P).
Proof. destruct P; reflexivity. Qed.
Lemma feqb_scale (x y : K) : feqb (w * x) (w * y) = feqb x y.
Proof.
  destruct (fdec x y) as [->|N]; [now rewrite !feqb_refl|].
  assert (w * x <> w * y).
  { intros E. apply N. apply (cancel_l w); [apply w_nonzero|exact E]. }
  now rewrite (proj2 (feqb_false _ _)), (proj2 (feqb_false x y)).
Qed.

Lemma third_scale m x1 y1 x2 : third (w * w * m) (w * x1) y1 (w * x2) = endo (third m x1 y1 x2).
Proof.
  unfold third. cbn. pose proof w_cube as C.
  assert (E : w * w * m * (w * w * m) - w * x1 - w * x2 = w * (m * m - x1 - x2)).
  { transitivity (w * w * w * w * m * m - w * x1 - w * x2); [ring|]. rewrite C. ring. }
  rewrite E. f_equal.
  transitivity (w * w * w * (m * (x1 - (m * m - x1 - x2))) - y1); [ring|]. rewrite C. ring.
Qed.
Lemma endo_add (P Q : point K) : point_add (endo P) (endo Q) = endo (point_add P Q).
Proof.
  destruct P as [|x1 y1], Q as [|x2 y2]; try reflexivity.
  cbn [endo point_add]. rewrite feqb_scale.
  destruct (feqb x1 x2) eqn:EX.
  - destruct (feqb y1 (- y2)); [reflexivity|].
    rewrite <- third_scale. f_equal. unfold fdiv. ring.
  - rewrite <- third_scale. f_equal.
    assert (N : x2 - x1 <> 0).
    { intros E. apply (proj1 (feqb_false _ _) EX). replace x1 with (x2 - (x2 - x1)) by ring. rewrite E. ring. }
    assert (M : w * (x2 - x1) <> 0) by (apply mul_nonzero; [apply w_nonzero|exact N]).
    replace (w * x2 - w * x1) with (w * (x2 - x1)) by ring.
    transitivity ((y2 - y1) * (finv w * finv (x2 - x1))).
    + unfold fdiv. f_equal. apply finv_unique.
      transitivity (finv w * w * (finv (x2 - x1) * (x2 - x1))); [ring|].
      rewrite !finv_l by (try exact w_nonzero; exact N). ring.
    + rewrite w_inv. unfold fdiv. ring.
Qed.
Lemma endo_zmul n (P : point K) : point_zmul n (endo P) = endo (point_zmul n P).
Proof.
  assert (I : forall q, Pos.iter (point_add (endo P)) Infinity q = endo (Pos.iter (point_add P) Infinity q)).
  { intros q. induction q using Pos.peano_ind; [cbn; now destruct P|].
    rewrite !Pos.iter_succ, IHq. apply endo_add. }
  destruct n; [reflexivity|apply I|]. cbn. rewrite endo_neg. f_equal. apply I.
Qed.

Lemma b_nonzero : b <> 0.
Proof. intros E. apply (NoTwo 0). rewrite E. ring. Qed.
Lemma w_minus_one : w - 1 <> 0 \/ (1 + 1 + 1 : K) = 0.
Proof.
  destruct (fdec (w - 1) 0) as [E|N]; [right|now left].
  assert (w = 1) by (replace w with (w - 1 + 1) by ring; rewrite E; ring).
  rewrite <- Hw. rewrite H. ring.
Qed.
Hypothesis H3 : (1 + 1 + 1 : K) <> 0.

(** P, endo P and endo (endo P) are collinear *)
Lemma endo_line P : on_curve b P -> point_add P (endo P) = point_neg (endo (endo P)).
Proof.
  destruct P as [|x y]; [reflexivity|]. intros C. cbn in C. cbn [endo point_add point_neg].
  assert (WW : w * w = - w - 1) by (replace (w * w) with (w * w + w + 1 - w - 1) by ring; rewrite Hw; ring).
  assert (NW : w - 1 <> 0) by (destruct w_minus_one; [assumption|contradiction]).
  destruct (fdec x (w * x)) as [E|N].
  - assert (X : x = 0).
    { apply (cancel_l (w - 1)); [exact NW|]. transitivity (w * x - x); [ring|]. rewrite <- E. ring. }
    subst x. rewrite <- E, feqb_refl.
    assert (Y : y <> 0). { intros ->. apply b_nonzero. transitivity (0 * 0 * 0 + b); [ring|]. rewrite <- C. ring. }
    rewrite (proj2 (feqb_false _ _)).
    2:{ intros F. apply Y. apply (cancel_l (1 + 1)); [exact H2|]. transitivity (y - (- y)); [ring|]. rewrite <- F. ring. }
    unfold third, fdiv. cbv zeta. f_equal; [ring [E]|].
    ring.
  - rewrite (proj2 (feqb_false _ _)) by exact N.
    unfold third, fdiv. cbv zeta. f_equal; [|ring].
    transitivity (- x - w * x); [ring|]. transitivity (w * w * x); [rewrite WW; ring|ring].
Qed.
Lemma endo_sum P : on_curve b P ->
  point_add (endo (endo P)) (point_add (endo P) P) = Infinity.
Proof.
  intros C. pose proof (endo_on_curve P C) as C1. pose proof (endo_on_curve _ C1) as C2.
  rewrite (point_add_comm b H2 NoTwo (endo P) P C1 C). rewrite (endo_line P C).
  apply point_add_neg_r.
Qed.
End Endo.

Section Scale.
Context {K : fld}.
Add Field Kendo2 : (fld_field K).
Local Open Scope fld_scope.
Lemma cube_scale (w x : K) : w * (w * (w * x)) = w * w * w * x. Proof. ring. Qed.
Lemma one_scale (x : K) : 1 * x = x. Proof. ring. Qed.
End Scale.

(** ** the subgroup on which the endomorphism is multiplication by [lam] *)
Section Eigen.
Context {K : fld} {b : K}.
Local Open Scope fld_scope.
Hypothesis H2 : (1 + 1 : K) <> 0.
Hypothesis H3 : (1 + 1 + 1 : K) <> 0.
Hypothesis NoTwo : forall x : K, x * x * x + b <> 0.
Context (w : K).
Hypothesis Hw : w * w + w + 1 = 0.
Context (lam : Z).
Local Open Scope Z_scope.
Let ZADD := pt_zmul_add (b:=b) H2 NoTwo.
Let ZADDR := pt_zmul_add_r (b:=b) H2 NoTwo.
Let ZMUL := pt_zmul_mul (b:=b) H2 NoTwo.
Let ZOPP := pt_zmul_opp (b:=b) H2 NoTwo.
Let ZON := zmul_on_curve (b:=b) H2 NoTwo.
Let ONE := pt_zmul_1 (b:=b).
Let EON := endo_on_curve (b:=b) w Hw.
Let A := point_add_assoc b H2 NoTwo.
Let C := point_add_comm b H2 NoTwo.
Notation endo := (endo w).

Lemma eigen_order P : on_curve b P -> endo P = point_zmul lam P -> point_zmul (lam * lam + lam + 1) P = Infinity.
Proof.
  intros D E. rewrite !ZADD, ZMUL, ONE by auto.
  rewrite <- E. rewrite endo_zmul by exact Hw. rewrite <- E. rewrite <- (A _ _ _) by auto.
  apply (endo_sum (b:=b)); assumption.
Qed.
Lemma eigen_test P : on_curve b P ->
  (point_add (point_zmul (lam + 1) P) (point_zmul lam (endo P)) = Infinity <-> endo P = point_zmul lam P).
Proof.
  intros D. split; intros H.
  - pose proof (EON P D) as D1. pose proof (EON _ D1) as D2.
    (* apply the endomorphism: endo P + lam (endo P + endo endo P) = 0 *)
    rewrite ZADD, ONE in H by auto.
    assert (G : point_add (point_zmul lam (point_add P (endo P))) P = Infinity).
    { rewrite ZADDR by auto. rewrite <- H. rewrite <- (A (point_zmul lam P) P) by auto.
      rewrite (C P) by auto. rewrite (A (point_zmul lam P)) by auto. reflexivity. }
    rewrite (endo_line (b:=b) H2 NoTwo w Hw H3 P D) in G.
    rewrite (pt_zmul_neg_r (b:=b) H2 NoTwo) in G by auto.
    rewrite C in G by (auto using point_neg_on_curve).
    assert (G' : P = point_zmul lam (endo (endo P))).
    { apply (pt_neg_unique (b:=b) H2 NoTwo) in G; auto using point_neg_on_curve.
      transitivity (point_neg (point_neg P)); [symmetry; apply pt_neg_neg|]. rewrite <- G. apply pt_neg_neg. }
    rewrite G' at 1. rewrite <- endo_zmul by exact Hw. f_equal.
    destruct P as [|x y]; [reflexivity|]. cbn. f_equal.
    transitivity (fmul (fmul (fmul w w) w) x).
    + apply cube_scale.
    + rewrite (w_cube w Hw). apply one_scale.
  - rewrite H. pose proof (eigen_order P D H) as G. rewrite <- ZMUL by auto. rewrite <- ZADD by auto.
    rewrite <- G. f_equal. ring.
Qed.
End Eigen.
