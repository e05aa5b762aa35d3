(** * Proof_Twist: the maps (x, y) -> (c^2 s(x), c^3 s(y)) for a field automorphism s *)
From Coq Require Import ZArith List Bool Lia.
From Verif Require Import Base Fld Spec_Curve Proof_Curve Proof_CurveMul.
Import ListNotations.

Section Twist.
Context {K : fld} {b : K}.
Add Field Ktwist : (fld_field K).
Local Open Scope fld_scope.
Context (s : K -> K) (c : K).
Hypothesis s1 : s 1 = 1.
Hypothesis s_add : forall x y, s (x + y) = s x + s y.
Hypothesis s_mul : forall x y, s (x * y) = s x * s y.
Hypothesis c_nz : c <> 0.
Hypothesis sb : c * c * c * c * c * c * s b = b.

Lemma s_zero : s 0 = 0.
Proof.
  assert (E : s 0 + s 0 = s 0) by (rewrite <- s_add; f_equal; ring).
  transitivity (s 0 + s 0 - s 0); [ring|]. rewrite E. ring.
Qed.
Lemma s_neg x : s (- x) = - s x.
Proof.
  transitivity (s (- x) + s x - s x); [ring|]. rewrite <- s_add.
  replace (- x + x) with (0 : K) by ring. rewrite s_zero. ring.
Qed.
Lemma s_sub x y : s (x - y) = s x - s y.
Proof. replace (x - y) with (x + - y) by ring. rewrite s_add, s_neg. ring. Qed.
Lemma s_inv x : x <> 0 -> s x * s (finv x) = 1.
Proof. intros N. rewrite <- s_mul, <- s1. f_equal. transitivity (finv x * x); [ring|]. now apply finv_l. Qed.
Lemma s_nz x : x <> 0 -> s x <> 0.
Proof. intros N E. pose proof (s_inv x N) as I. rewrite E in I. apply (@f1_neq_0 K). rewrite <- I. ring. Qed.
Lemma s_finv x : x <> 0 -> s (finv x) = finv (s x).
Proof.
  intros N. symmetry. apply finv_unique. transitivity (s x * s (finv x)); [ring|]. now apply s_inv.
Qed.
Lemma s_inj x y : s x = s y -> x = y.
Proof.
  intros E. destruct (fdec (x - y) 0) as [Z|N].
  - transitivity (x - y + y); [ring|]. rewrite Z. ring.
  - exfalso. apply (s_nz _ N). rewrite s_sub, E. ring.
Qed.

Definition twist (P : point K) : point K :=
  match P with Infinity => Infinity | Affine x y => Affine (c * c * s x) (c * c * c * s y) end.

Lemma twist_on_curve P : on_curve b P -> on_curve b (twist P).
Proof.
  destruct P as [|x y]; [trivial|]. cbn. intros E.
  transitivity (c * c * c * c * c * c * s (y * y)); [rewrite s_mul; ring|].
  rewrite E, s_add, !s_mul.
  transitivity (c * c * s x * (c * c * s x) * (c * c * s x) + c * c * c * c * c * c * s b); [ring|]. now rewrite sb.
Qed.
Lemma twist_neg (P : point K) : twist (point_neg P) = point_neg (twist P).
Proof. destruct P as [|x y]; [reflexivity|]. cbn. f_equal. rewrite s_neg. ring. Qed.
Lemma cc_nz : c * c <> 0. Proof. now apply mul_nonzero. Qed.
Lemma ccc_nz : c * c * c <> 0. Proof. apply mul_nonzero; [apply cc_nz|exact c_nz]. Qed.
Lemma feqb_twist a x y : a <> 0 -> feqb (a * s x) (a * s y) = feqb x y.
Proof.
  intros A. destruct (fdec x y) as [->|N]; [now rewrite !feqb_refl|].
  assert (a * s x <> a * s y).
  { intros E. apply N, s_inj. apply (cancel_l a); assumption. }
  now rewrite (proj2 (feqb_false _ _)), (proj2 (feqb_false x y)).
Qed.
Lemma third_twist m x1 y1 x2 : third (c * s m) (c * c * s x1) (c * c * c * s y1) (c * c * s x2) = twist (third m x1 y1 x2).
Proof.
  unfold third. cbn.
  assert (E : c * s m * (c * s m) - c * c * s x1 - c * c * s x2 = c * c * s (m * m - x1 - x2)).
  { rewrite !s_sub, s_mul. ring. }
  rewrite E. f_equal. rewrite (s_sub (m * _)), s_mul, (s_sub x1). ring.
Qed.
Lemma slope_twist (u v : K) : v <> 0 -> (c * c * c * s u) / (c * c * s v) = c * s (u / v).
Proof.
  intros N. unfold fdiv. rewrite s_mul, s_finv by exact N.
  assert (I : finv (c * c * s v) = finv c * finv c * finv (s v)).
  { apply finv_unique. transitivity (finv c * c * (finv c * c) * (finv (s v) * s v)); [ring|].
    rewrite !finv_l by (try exact c_nz; now apply s_nz). ring. }
  rewrite I. transitivity (finv c * c * (finv c * c) * (c * (s u * finv (s v)))); [ring|].
  rewrite finv_l by exact c_nz. ring.
Qed.
Hypothesis H2 : (1 + 1 : K) <> 0.
Hypothesis NoTwo : forall x : K, x * x * x + b <> 0.
Lemma twist_add (P Q : point K) : on_curve b P -> point_add (twist P) (twist Q) = twist (point_add P Q).
Proof.
  destruct P as [|x1 y1], Q as [|x2 y2]; try reflexivity. intros CP. cbn in CP.
  cbn [twist point_add]. rewrite feqb_twist by apply cc_nz.
  replace (- (c * c * c * s y2)) with (c * c * c * s (- y2)) by (rewrite s_neg; ring).
  rewrite feqb_twist by apply ccc_nz.
  destruct (feqb x1 x2) eqn:EX.
  - destruct (feqb y1 (- y2)); [reflexivity|].
    assert (Y : (1 + 1) * y1 <> 0).
    { apply mul_nonzero; [exact H2|]. intros ->. apply (NoTwo x1). rewrite <- CP. ring. }
    rewrite <- third_twist. f_equal. rewrite <- slope_twist by exact Y.
    rewrite !s_mul, !s_add, s1. 
    assert (U : (1 + 1 + 1) * (c * c * s x1 * (c * c * s x1)) = c * (c * c * c * ((1 + 1 + 1) * (s x1 * s x1)))) by ring.
    assert (V : (1 + 1) * (c * c * c * s y1) = c * (c * c * ((1 + 1) * s y1))) by ring.
    rewrite U, V. unfold fdiv.
    assert (W : c * c * ((1 + 1) * s y1) <> 0).
    { apply mul_nonzero; [apply cc_nz|]. apply mul_nonzero; [exact H2|]. apply s_nz. intros ->. apply Y. ring. }
    assert (I : finv (c * (c * c * ((1 + 1) * s y1))) = finv c * finv (c * c * ((1 + 1) * s y1))).
    { apply finv_unique. transitivity (finv c * c * (finv (c * c * ((1 + 1) * s y1)) * (c * c * ((1 + 1) * s y1)))); [ring|].
      rewrite !finv_l by assumption. ring. }
    rewrite I. transitivity (finv c * c * (c * c * c * ((1 + 1 + 1) * (s x1 * s x1)) * finv (c * c * ((1 + 1) * s y1)))); [ring|].
    rewrite finv_l by exact c_nz. ring.
  - rewrite <- third_twist. f_equal.
    assert (N : x2 - x1 <> 0).
    { intros E. apply (proj1 (feqb_false _ _) EX). replace x1 with (x2 - (x2 - x1)) by ring. rewrite E. ring. }
    rewrite <- slope_twist by exact N. rewrite !s_sub. f_equal; ring.
Qed.
Lemma twist_zmul n (P : point K) : on_curve b P -> point_zmul n (twist P) = twist (point_zmul n P).
Proof.
  intros C.
  assert (I : forall q, Pos.iter (point_add (twist P)) Infinity q = twist (Pos.iter (point_add P) Infinity q)).
  { intros q. induction q using Pos.peano_ind; [cbn; now destruct P|].
    rewrite !Pos.iter_succ, IHq. now apply twist_add. }
  destruct n; [reflexivity|apply I|]. cbn. rewrite twist_neg. f_equal. apply I.
Qed.
Lemma twist_twice w P : (forall x, s (s x) = x) -> c * c * s (c * c) = w -> c * c * c * s (c * c * c) = - (1) ->
  twist (twist P) = match P with Infinity => Infinity | Affine x y => Affine (w * x) (- y) end.
Proof.
  intros SS W Y. destruct P as [|x y]; [reflexivity|]. unfold twist. f_equal.
  - rewrite (s_mul (c * c)), SS, <- W. ring.
  - rewrite (s_mul (c * c * c)), SS. transitivity (c * c * c * s (c * c * c) * y); [ring|]. rewrite Y. ring.
Qed.
Lemma twist_point_of X Y Z : projective b X Y Z ->
  projective b (s X * (c * c)) (s Y * (c * c * c)) (s Z) /\ point_of (s X * (c * c)) (s Y * (c * c * c)) (s Z) = twist (point_of X Y Z).
Proof.
  intros H. destruct (fdec Z 0) as [->|N].
  - destruct (projective_inf b X Y H) as [-> NY]. rewrite s_zero, !point_of_inf.
    replace (0 * (c * c)) with (0 : K) by ring. split; [|reflexivity]. apply projective_inf_of.
    apply mul_nonzero; [now apply s_nz|apply ccc_nz].
  - destruct (projective_aff b X Y Z N H) as (EX & EY & C). set (x := X / Z) in *. set (y := Y / Z) in *.
    rewrite EX, EY, point_of_aff, !s_mul by exact N.
    replace (s Z * s x * (c * c)) with (s Z * (c * c * s x)) by ring.
    replace (s Z * s y * (c * c * c)) with (s Z * (c * c * c * s y)) by ring.
    assert (NZ : s Z <> 0) by now apply s_nz. rewrite point_of_aff by exact NZ. split; [|reflexivity].
    apply projective_of_aff; [exact NZ|]. exact (twist_on_curve (Affine x y) C).
Qed.
End Twist.
