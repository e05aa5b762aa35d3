(** * Proof_Lines: lines on y^2 = x^3 + b *)
From Coq Require Import ZArith List Bool Ring Field.
From Verif Require Import Base Fld Spec_Curve Proof_Curve Power Spec_Pair.
Import ListNotations.

Section Lines.
Context {K : fld} (b : K).
Add Field Kline : (fld_field K).
Local Open Scope fld_scope.
(** the line y = m x + c meets the curve in exactly the three given points *)
Definition col (m c x1 y1 x2 y2 x3 y3 : K) : Prop :=
  (y1 = m * x1 + c /\ y2 = m * x2 + c /\ y3 = m * x3 + c) /\
  m * m = x1 + x2 + x3 /\ - ((1 + 1) * (m * c)) = x1 * x2 + x1 * x3 + x2 * x3 /\ c * c - b = x1 * x2 * x3.
Lemma col_swap m c x1 y1 x2 y2 x3 y3 : col m c x1 y1 x2 y2 x3 y3 -> col m c x2 y2 x1 y1 x3 y3.
Proof.
  intros ((Y1 & Y2 & Y3) & E1 & E2 & E3). split; [exact (conj Y2 (conj Y1 Y3))|]. rewrite E1, E2, E3. split; [|split]; ring.
Qed.
Lemma col_rot m c x1 y1 x2 y2 x3 y3 : col m c x1 y1 x2 y2 x3 y3 -> col m c x2 y2 x3 y3 x1 y1.
Proof.
  intros ((Y1 & Y2 & Y3) & E1 & E2 & E3). split; [exact (conj Y2 (conj Y3 Y1))|]. rewrite E1, E2, E3. split; [|split]; ring.
Qed.
Lemma col_neg m c x1 y1 x2 y2 x3 y3 : col m c x1 y1 x2 y2 x3 y3 -> col (- m) (- c) x1 (- y1) x2 (- y2) x3 (- y3).
Proof.
  intros ((Y1 & Y2 & Y3) & E1 & E2 & E3). split; [rewrite Y1, Y2, Y3; split; [|split]; ring|].
  split; [rewrite <- E1; ring|]. split; [rewrite <- E2; ring|]. rewrite <- E3. ring.
Qed.
Lemma col_intro m c x1 y1 x2 y2 x3 y3 : y1 * y1 = x1 * x1 * x1 + b ->
  y1 = m * x1 + c -> y2 = m * x2 + c -> y3 = m * x3 + c -> m * m = x1 + x2 + x3 ->
  - ((1 + 1) * (m * c)) = x1 * x2 + x1 * x3 + x2 * x3 -> col m c x1 y1 x2 y2 x3 y3.
Proof.
  intros C Y1 Y2 Y3 E1 E2. split; [exact (conj Y1 (conj Y2 Y3))|]. split; [exact E1|]. split; [exact E2|].
  transitivity (y1 * y1 - b - m * m * (x1 * x1) + x1 * - ((1 + 1) * (m * c))); [rewrite Y1; ring|]. rewrite C, E1, E2. ring.
Qed.
(** the value of the line at (x, y) and at (x, -y) *)
Lemma line_norm m c x1 y1 x2 y2 x3 y3 x y : col m c x1 y1 x2 y2 x3 y3 -> y * y = x * x * x + b ->
  (y - (m * x + c)) * (- y - (m * x + c)) = - ((x - x1) * (x - x2) * (x - x3)).
Proof.
  intros (_ & E1 & E2 & E3) C.
  transitivity (m * m * (x * x) - - ((1 + 1) * (m * c)) * x + (c * c - b) - (y * y - b)); [ring|].
  rewrite C, E1, E2, E3. ring.
Qed.
(** two lines: the product of the values of one at the three points of the other *)
Lemma line_reciprocity m c x1 y1 x2 y2 x3 y3 n d u1 v1 u2 v2 u3 v3 :
  col m c x1 y1 x2 y2 x3 y3 -> col n d u1 v1 u2 v2 u3 v3 ->
  (v1 - (m * u1 + c)) * (v2 - (m * u2 + c)) * (v3 - (m * u3 + c)) =
  - ((y1 - (n * x1 + d)) * (y2 - (n * x2 + d)) * (y3 - (n * x3 + d))).
Proof.
  intros ((Y1 & Y2 & Y3) & E1 & E2 & E3) ((V1 & V2 & V3) & F1 & F2 & F3).
  transitivity ((n - m) * (n - m) * (n - m) * (u1 * u2 * u3) + (n - m) * (n - m) * (d - c) * (u1 * u2 + u1 * u3 + u2 * u3)
    + (n - m) * (d - c) * (d - c) * (u1 + u2 + u3) + (d - c) * (d - c) * (d - c)); [rewrite V1, V2, V3; ring|].
  rewrite <- F1, <- F2, <- F3.
  transitivity ((n - m) * (n - m) * (n - m) * (x1 * x2 * x3) + (n - m) * (n - m) * (d - c) * (x1 * x2 + x1 * x3 + x2 * x3)
    + (n - m) * (d - c) * (d - c) * (x1 + x2 + x3) + (d - c) * (d - c) * (d - c)); [|rewrite Y1, Y2, Y3; ring].
  rewrite <- E1, <- E2, <- E3. ring.
Qed.

(** ** the lines of the group law *)
Hypothesis H2 : (1 + 1 : K) <> 0.
Hypothesis NoTwo : forall x : K, x * x * x + b <> 0.
Let yn := curve_y b NoTwo.
Lemma slope_line x1 y1 x2 y2 x3 y3 : y1 * y1 = x1 * x1 * x1 + b -> y2 * y2 = x2 * x2 * x2 + b ->
  point_add (Affine x1 y1) (Affine x2 y2) = Affine x3 y3 ->
  let m := slope (Affine x1 y1) (Affine x2 y2) in col m (y1 - m * x1) x1 y1 x2 y2 x3 (- y3).
Proof.
  intros C1 C2. unfold point_add, slope. destruct (feqb x1 x2) eqn:X.
  - apply feqb_spec in X. subst x2. destruct (feqb y1 (- y2)) eqn:Y; [discriminate|]. apply feqb_false in Y.
    assert (Ey : y2 = y1).
    { assert (F : (y1 - y2) * (y1 + y2) = 0) by (transitivity (y1 * y1 - y2 * y2); [ring|rewrite C1, C2; ring]).
      apply fmul_eq_0 in F. destruct F as [F|F].
      - symmetry. apply fsub_eq_0, F.
      - destruct Y. transitivity (y1 + y2 - y2); [ring|]. rewrite F. ring. }
    subst y2. pose proof (yn x1 y1 C1) as N. set (m := (1 + 1 + 1) * (x1 * x1) / ((1 + 1) * y1)). cbv zeta.
    assert (M : (1 + 1) * y1 * m = (1 + 1 + 1) * (x1 * x1)) by (unfold m, fdiv; field; split; assumption).
    unfold third. intros E. injection E as <- <-. cbv zeta. apply (col_intro m _ _ _ _ _ _ _ C1); try ring.
    transitivity ((1 + 1) * (m * m) * x1 - (1 + 1) * y1 * m); [ring|]. rewrite M. ring.
  - apply feqb_false in X. assert (D : x2 - x1 <> 0) by (intros F; apply X; symmetry; apply fsub_eq_0, F).
    set (m := (y2 - y1) / (x2 - x1)). assert (M : y2 = m * (x2 - x1) + y1) by (unfold m, fdiv; field; exact D). cbv zeta.
    unfold third. intros E. injection E as <- <-. cbv zeta. apply (col_intro m _ _ _ _ _ _ _ C1); try ring.
    + rewrite M. ring.
    + apply (fmul_cancel_l (x2 - x1)); [exact D|].
      transitivity ((x2 - x1) * (x1 + x2) * (m * m) - (y2 - y1) * (y1 + y2)).
      * rewrite M. ring.
      * transitivity ((x2 - x1) * (x1 + x2) * (m * m) - (y2 * y2 - y1 * y1)); [ring|]. rewrite C1, C2. ring.
Qed.
Lemma line_slope m c x1 y1 x2 y2 x3 y3 : col m c x1 y1 x2 y2 x3 y3 -> y1 * y1 = x1 * x1 * x1 + b -> ~ (x1 = x2 /\ y1 = - y2) ->
  slope (Affine x1 y1) (Affine x2 y2) = m /\ point_add (Affine x1 y1) (Affine x2 y2) = Affine x3 (- y3).
Proof.
  intros ((Y1 & Y2 & Y3) & E1 & E2 & E3) C1 N. unfold point_add, slope. destruct (feqb x1 x2) eqn:X.
  - apply feqb_spec in X. subst x2. assert (Ey : y2 = y1) by (rewrite Y1, Y2; reflexivity).
    assert (N1 : y1 <> 0) by exact (yn x1 y1 C1).
    destruct (feqb y1 (- y2)) eqn:Y; [apply feqb_spec in Y; destruct N; auto|].
    assert (M : (1 + 1 + 1) * (x1 * x1) / ((1 + 1) * y1) = m).
    { unfold fdiv. transitivity ((1 + 1) * y1 * m * finv ((1 + 1) * y1)); [|field; split; assumption]. f_equal.
      transitivity ((1 + 1) * (m * m) * x1 - - ((1 + 1) * (m * c))); [rewrite E1, E2; ring|rewrite Y1; ring]. }
    rewrite M. split; [reflexivity|]. unfold third. cbv zeta. rewrite E1.
    assert (X3 : x1 + x1 + x3 - x1 - x1 = x3) by ring. rewrite X3. f_equal. rewrite Y1, Y3. ring.
  - apply feqb_false in X. assert (D : x2 - x1 <> 0) by (intros F; apply X; symmetry; apply fsub_eq_0, F).
    assert (M : (y2 - y1) / (x2 - x1) = m) by (rewrite Y1, Y2; unfold fdiv; field; exact D).
    rewrite M. split; [reflexivity|]. unfold third. cbv zeta. rewrite E1.
    assert (X3 : x1 + x2 + x3 - x1 - x2 = x3) by ring. rewrite X3. f_equal. rewrite Y1, Y3. ring.
Qed.
(** if the line is tangent at the first point *)
Lemma col_tangent m c x1 y1 x2 y2 x3 y3 : col m c x1 y1 x2 y2 x3 y3 ->
  (1 + 1 + 1) * (x1 * x1) - (1 + 1) * (y1 * m) = (x1 - x2) * (x1 - x3).
Proof.
  intros ((Y1 & _) & E1 & E2 & E3). transitivity ((1 + 1 + 1) * (x1 * x1) - (1 + 1) * (m * m) * x1 + - ((1 + 1) * (m * c))); [rewrite Y1; ring|].
  rewrite E1, E2. ring.
Qed.
(** four lines: A B -S, S C -R, B C -T.  The sum of the first two slopes *)
Lemma slope_sum m1 c1 m2 c2 m3 c3 xa ya xb yb xs ys xc yc xr yr xt yt : yb <> 0 ->
  col m1 c1 xa ya xb yb xs (- ys) -> col m2 c2 xs ys xc yc xr (- yr) -> col m3 c3 xb yb xc yc xt (- yt) ->
  (m1 + m2) * (m3 - m1) = xc - xa.
Proof.
  intros NB K1 K2 K3. pose proof K1 as ((A1 & A2 & A3) & A4 & A5 & A6). pose proof K2 as ((B1 & B2 & B3) & B4 & B5 & B6). pose proof K3 as ((D1 & D2 & D3) & _).
  (* L1 + L2 vanishes at s *)
  assert (S : forall x, (m1 * x + c1) + (m2 * x + c2) = (m1 + m2) * (x - xs)).
  { intros x. transitivity ((m1 + m2) * (x - xs) + (m1 * xs + c1) + (m2 * xs + c2)); [ring|]. rewrite <- A3, <- B1. ring. }
  (* the two factorisations of x^3 + b + L1 L2 *)
  assert (Q : forall x, (x - xa) * (x - xb) + (m1 + m2) * (m1 * x + c1) = (x - xc) * (x - xr) + (m1 + m2) * (m2 * x + c2)).
  { intros x. assert (G1 : xa * xb = - ((1 + 1) * (m1 * c1)) - xs * (m1 * m1 - xs)) by (rewrite A4, A5; ring).
    assert (G2 : xc * xr = - ((1 + 1) * (m2 * c2)) - xs * (m2 * m2 - xs)) by (rewrite B4, B5; ring).
    assert (G3 : xa + xb = m1 * m1 - xs) by (rewrite A4; ring). assert (G4 : xc + xr = m2 * m2 - xs) by (rewrite B4; ring).
    assert (G5 : c1 = - ys - m1 * xs) by (rewrite A3; ring). assert (G6 : c2 = ys - m2 * xs) by (rewrite B1; ring).
    transitivity (x * x - (xa + xb) * x + xa * xb + (m1 + m2) * (m1 * x + c1)); [ring|].
    transitivity (x * x - (xc + xr) * x + xc * xr + (m1 + m2) * (m2 * x + c2)); [|ring].
    rewrite G1, G2, G3, G4, G5, G6. ring. }
  destruct (fdec xb xc) as [E|N].
  - (* tangent at b *)
    subst xc. assert (Ey : yc = yb) by (rewrite D1, D2; reflexivity).
    apply (fmul_cancel_l ((1 + 1) * yb)); [apply fmul_neq_0; assumption|].
    pose proof (col_tangent _ _ _ _ _ _ _ _ K3) as T3. pose proof (col_tangent _ _ _ _ _ _ _ _ (col_swap _ _ _ _ _ _ _ _ K1)) as T1.
    assert (T : (1 + 1) * yb * (m3 - m1) = (xb - xa) * (xb - xs)).
    { rewrite <- T1. transitivity ((1 + 1 + 1) * (xb * xb) - (1 + 1) * (yb * m1) - ((1 + 1 + 1) * (xb * xb) - (1 + 1) * (yb * m3))); [ring|]. rewrite T3. ring. }
    assert (SB : (1 + 1) * yb = (m1 + m2) * (xb - xs)).
    { rewrite <- S. rewrite <- A2, <- B2, Ey. ring. }
    transitivity ((m1 + m2) * ((1 + 1) * yb * (m3 - m1))); [ring|]. rewrite T.
    transitivity ((m1 + m2) * (xb - xs) * (xb - xa)); [ring|]. rewrite <- SB. ring.
  - assert (NB' : xc - xb <> 0) by (intros Z; apply N; symmetry; apply fsub_eq_0, Z).
    apply (fmul_cancel_l (xc - xb)); [exact NB'|]. specialize (Q xc). rewrite <- B2 in Q.
    transitivity ((m1 + m2) * ((m3 * xc + c3) - (m1 * xc + c1) - (m3 * xb + c3 - (m1 * xb + c1)))); [ring|]. rewrite <- D1, <- D2, <- A2.
    transitivity ((xc - xc) * (xc - xr) + (m1 + m2) * yc - (m1 + m2) * (m1 * xc + c1)); [ring|]. rewrite <- Q. ring.
Qed.
(** the lines of A, B and of S, C, at (x, y) *)
Lemma two_lines m1 c1 m2 c2 xa ya xb yb xs ys xc yc xr yr x y : y * y = x * x * x + b ->
  col m1 c1 xa ya xb yb xs (- ys) -> col m2 c2 xs ys xc yc xr (- yr) ->
  (y - (m1 * x + c1)) * (y - (m2 * x + c2)) = (x - xs) * ((x - xa) * (x - xb) + (m1 + m2) * (m1 * x + c1) - y * (m1 + m2)).
Proof.
  intros C ((A1 & A2 & A3) & A4 & A5 & A6) ((B1 & B2 & B3) & B4 & B5 & B6).
  assert (S : m2 * x + c2 = (m1 + m2) * (x - xs) - (m1 * x + c1)).
  { transitivity ((m1 + m2) * (x - xs) - (m1 * x + c1) + (m1 * xs + c1) + (m2 * xs + c2)); [ring|]. rewrite <- A3, <- B1. ring. }
  rewrite S. transitivity (y * y - y * ((m1 + m2) * (x - xs)) + (m1 * x + c1) * ((m1 + m2) * (x - xs)) - (m1 * m1 * (x * x) - - ((1 + 1) * (m1 * c1)) * x + (c1 * c1 - b) + b)); [ring|].
  rewrite C, A4, A5, A6. ring.
Qed.
(** the four lines of (A + B) + C = A + (B + C) *)
Theorem line_cocycle m1 c1 m2 c2 m3 c3 m4 c4 xa ya xb yb xs ys xc yc xr yr xt yt xr' yr' x y : yb <> 0 -> xa <> xc -> y * y = x * x * x + b ->
  col m1 c1 xa ya xb yb xs (- ys) -> col m2 c2 xs ys xc yc xr (- yr) ->
  col m3 c3 xb yb xc yc xt (- yt) -> col m4 c4 xa ya xt yt xr' (- yr') ->
  exists k, (y - (m1 * x + c1)) * (y - (m2 * x + c2)) = (x - xs) * k /\ (y - (m3 * x + c3)) * (y - (m4 * x + c4)) = (x - xt) * k.
Proof.
  intros NB NX C L1 L2 L3 L4.
  pose proof (slope_sum _ _ _ _ _ _ _ _ _ _ _ _ _ _ _ _ _ _ NB L1 L2 L3) as S1.
  pose proof (slope_sum _ _ _ _ _ _ _ _ _ _ _ _ _ _ _ _ _ _ NB (col_swap _ _ _ _ _ _ _ _ L3) (col_swap _ _ _ _ _ _ _ _ L4) (col_swap _ _ _ _ _ _ _ _ L1)) as S3.
  assert (E : m3 + m4 = m1 + m2).
  { assert (N : m3 - m1 <> 0).
    { intros Z. rewrite Z in S1. apply NX. symmetry. apply fsub_eq_0. rewrite <- S1. ring. }
    apply (fmul_cancel_l (m3 - m1)); [exact N|]. transitivity (- ((m3 + m4) * (m1 - m3))); [ring|]. rewrite S3.
    transitivity ((m1 + m2) * (m3 - m1)); [rewrite S1; ring|ring]. }
  exists ((x - xa) * (x - xb) + (m1 + m2) * (m1 * x + c1) - y * (m1 + m2)). split.
  - exact (two_lines _ _ _ _ _ _ _ _ _ _ _ _ _ _ _ _ C L1 L2).
  - rewrite (two_lines _ _ _ _ _ _ _ _ _ _ _ _ _ _ _ _ C (col_swap _ _ _ _ _ _ _ _ L3) (col_swap _ _ _ _ _ _ _ _ L4)).
    rewrite E. f_equal. pose proof L1 as ((_ & B1 & _) & _). pose proof L3 as ((B3 & _ & _) & _).
    apply fsub_eq_0. transitivity ((x - xb) * (xa - xc) + (m1 + m2) * ((m3 - m1) * (x - xb)) + (m1 + m2) * ((m3 * xb + c3) - (m1 * xb + c1))); [ring|].
    rewrite <- B1, <- B3. transitivity ((x - xb) * (xa - xc) + (m1 + m2) * (m3 - m1) * (x - xb)); [ring|]. rewrite S1. ring.
Qed.
End Lines.
