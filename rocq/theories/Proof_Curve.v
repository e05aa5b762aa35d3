(** * Proof_Curve: chord and tangent make the curve an abelian group

    The proof goes through the complete addition formulas of Renes, Costello and Batina for
    y^2 = x^3 + b, which also are the formulas of the code. *)
From Coq Require Import ZArith List Bool Lia Field.
From Verif Require Import Base Fld Spec_Curve.
Import ListNotations.

Section Group.
Context {K : fld} (b : K).
Add Field Kcurve : (fld_field K).
Local Open Scope fld_scope.

Definition two : K := 1 + 1.
Definition three : K := 1 + 1 + 1.
Definition b3 : K := three * b.

(** the complete addition formulas *)
Definition cx (x1 y1 z1 x2 y2 z2 : K) : K :=
  (x1 * y2 + x2 * y1) * (y1 * y2 - b3 * z1 * z2) - b3 * (y1 * z2 + y2 * z1) * (x1 * z2 + x2 * z1).
Definition cy (x1 y1 z1 x2 y2 z2 : K) : K :=
  (y1 * y2 + b3 * z1 * z2) * (y1 * y2 - b3 * z1 * z2) + three * b3 * x1 * x2 * (x1 * z2 + x2 * z1).
Definition cz (x1 y1 z1 x2 y2 z2 : K) : K :=
  (y1 * z2 + y2 * z1) * (y1 * y2 + b3 * z1 * z2) + three * x1 * x2 * (x1 * y2 + x2 * y1).

Hypothesis H2 : two <> 0.
(** no point of order two *)
Hypothesis NoTwo : forall x : K, x * x * x + b <> 0.

Lemma mul_zero (x y : K) : x * y = 0 -> x = 0 \/ y = 0.
Proof.
  intros H. destruct (fdec x 0) as [|N]; [now left|right].
  transitivity (x * y / x); [field; exact N|]. rewrite H. field. exact N.
Qed.
Lemma mul_nonzero (x y : K) : x <> 0 -> y <> 0 -> x * y <> 0.
Proof. intros A B H. destruct (mul_zero _ _ H); auto. Qed.
Lemma cancel_l (c x y : K) : c <> 0 -> c * x = c * y -> x = y.
Proof.
  intros C H. transitivity (c * x / c); [field; exact C|]. rewrite H. field. exact C.
Qed.
Lemma sub_zero (x y : K) : x - y = 0 <-> x = y.
Proof. split; intros H; [transitivity (x - y + y); [ring|rewrite H; ring]|rewrite H; ring]. Qed.
Lemma div_eq (x y z : K) : z <> 0 -> x = y * z -> x / z = y.
Proof. intros Z ->. field. exact Z. Qed.

Lemma curve_y (x y : K) : y * y = x * x * x + b -> y <> 0.
Proof. intros H ->. apply (NoTwo x). rewrite <- H. ring. Qed.

(** ** homogeneous points *)
Lemma projective_inf X Y : projective b X Y 0 -> X = 0 /\ Y <> 0.
Proof.
  intros [E N]. assert (X0 : X = 0).
  { assert (H : X * X * X = 0). { transitivity (X * X * X + b * (0 * 0 * 0)); [ring|]. rewrite <- E. ring. }
    destruct (mul_zero _ _ H) as [H'|H']; [destruct (mul_zero _ _ H')|]; auto. }
  split; [exact X0|]. intros Y0. apply N. auto.
Qed.
Lemma projective_aff X Y Z : Z <> 0 -> projective b X Y Z ->
  let x := X / Z in let y := Y / Z in X = Z * x /\ Y = Z * y /\ y * y = x * x * x + b.
Proof.
  intros HZ [E N] x y. repeat split; [unfold x; field; exact HZ|unfold y; field; exact HZ|].
  apply (cancel_l (Z * Z * Z)); [auto using mul_nonzero|].
  transitivity (Y * Y * Z); [unfold y; field; exact HZ|]. rewrite E. unfold x. field. exact HZ.
Qed.
Lemma projective_of_aff (Z x y : K) : Z <> 0 -> y * y = x * x * x + b -> projective b (Z * x) (Z * y) Z.
Proof.
  intros HZ E. split; [|intros (_ & _ & H); auto]. transitivity (Z * Z * Z * (y * y)); [ring|]. rewrite E. ring.
Qed.
Lemma projective_inf_of Y : Y <> 0 -> projective b 0 Y 0.
Proof. intros H. split; [ring|]. intros (_ & H' & _). auto. Qed.
Lemma point_of_aff (Z x y : K) : Z <> 0 -> point_of (Z * x) (Z * y) Z = Affine x y.
Proof.
  intros HZ. unfold point_of. apply feqb_false in HZ as HZb. rewrite HZb. f_equal; field; exact HZ.
Qed.
Lemma point_of_inf X Y : point_of X Y (0 : K) = Infinity.
Proof. unfold point_of. now rewrite feqb_refl. Qed.
Lemma point_of_scale (c X Y Z : K) : c <> 0 -> point_of (c * X) (c * Y) (c * Z) = point_of X Y Z.
Proof.
  intros C. unfold point_of. destruct (feqb Z 0) eqn:E.
  - apply feqb_spec in E. subst. replace (c * 0) with (0 : K) by ring. now rewrite feqb_refl.
  - apply feqb_false in E. assert (N := mul_nonzero c Z C E). apply feqb_false in N. rewrite N.
    f_equal; field; auto.
Qed.
Lemma projective_scale (c X Y Z : K) : c <> 0 -> projective b X Y Z -> projective b (c * X) (c * Y) (c * Z).
Proof.
  intros C [E N]. split.
  - transitivity (c * c * c * (Y * Y * Z)); [ring|]. rewrite E. ring.
  - intros (A & B & D). apply N. destruct (mul_zero _ _ A), (mul_zero _ _ B), (mul_zero _ _ D); tauto.
Qed.
Lemma point_of_on_curve X Y Z : projective b X Y Z -> on_curve b (point_of X Y Z).
Proof.
  intros P. unfold point_of. destruct (feqb Z 0) eqn:E; [exact I|]. apply feqb_false in E.
  destruct (projective_aff X Y Z E P) as (_ & _ & H). exact H.
Qed.

(** ** the formulas on affine points *)
Section Affine.
Variables x1 y1 x2 y2 : K.
Hypothesis E1 : y1 * y1 = x1 * x1 * x1 + b.
Hypothesis E2 : y2 * y2 = x2 * x2 * x2 + b.
Let X := cx x1 y1 1 x2 y2 1.
Let Y := cy x1 y1 1 x2 y2 1.
Let Z := cz x1 y1 1 x2 y2 1.

Lemma complete_curve : Y * Y * Z = X * X * X + b * (Z * Z * Z).
Proof. unfold X, Y, Z, cx, cy, cz, b3, three. ring [E1 E2]. Qed.

Lemma chord_ok : x1 <> x2 -> Z <> 0 /\ point_of X Y Z = third ((y2 - y1) / (x2 - x1)) x1 y1 x2.
Proof.
  intros N. set (d := x2 - x1). assert (D : d <> 0) by (unfold d; intros H; apply N; symmetry; now apply sub_zero).
  assert (ZN : Z <> 0).
  { (* up to a sign Z is d^3 times the ordinate of the difference of the points *)
    set (m := (y2 + y1) / d). set (x3 := m * m - x1 - x2). set (y3 := m * (x1 - x3) + y1).
    assert (C : y3 * y3 = x3 * x3 * x3 + b).
    { apply (cancel_l (d * d * d * (d * d * d))); [auto using mul_nonzero|].
      transitivity (((y2 + y1) * (d * d * x1 - ((y2 + y1) * (y2 + y1) - d * d * (x1 + x2))) + y1 * (d * d * d))
                    * ((y2 + y1) * (d * d * x1 - ((y2 + y1) * (y2 + y1) - d * d * (x1 + x2))) + y1 * (d * d * d))).
      { unfold y3, x3, m. field. exact D. }
      transitivity (((y2 + y1) * (y2 + y1) - d * d * (x1 + x2)) * ((y2 + y1) * (y2 + y1) - d * d * (x1 + x2)) * ((y2 + y1) * (y2 + y1) - d * d * (x1 + x2))
                    + b * (d * d * d * (d * d * d))).
      { unfold d. ring [E1 E2]. }
      unfold x3, m. field. exact D. }
    assert (R : Z = - (d * d * d * y3)).
    { transitivity (- ((y2 + y1) * (d * d * x1 - ((y2 + y1) * (y2 + y1) - d * d * (x1 + x2))) + y1 * (d * d * d))).
      { unfold Z, cz, b3, three, d. ring [E1 E2]. }
      unfold y3, x3, m. field. exact D. }
    rewrite R. intros H. apply (curve_y _ _ C).
    apply (cancel_l (d * d * d)); [auto using mul_nonzero|]. transitivity (- (- (d * d * d * y3))); [ring|]. rewrite H. ring. }
  split; [exact ZN|].
  unfold point_of. apply feqb_false in ZN as Zb. rewrite Zb. unfold third. fold d. f_equal.
  - apply div_eq; [exact ZN|]. apply (cancel_l (d * d)); [auto using mul_nonzero|].
    transitivity (((y2 - y1) * (y2 - y1) - d * d * (x1 + x2)) * Z).
    + unfold X, Z, cx, cz, b3, three, d. ring [E1 E2].
    + field. exact D.
  - apply div_eq; [exact ZN|]. apply (cancel_l (d * d * d)); [auto using mul_nonzero|].
    transitivity (((y2 - y1) * (d * d * x1 - ((y2 - y1) * (y2 - y1) - d * d * (x1 + x2))) - y1 * (d * d * d)) * Z).
    + unfold Y, Z, cy, cz, b3, three, d. ring [E1 E2].
    + field. exact D.
Qed.

Lemma same_x : x1 = x2 -> y1 = y2 \/ y1 = - y2.
Proof.
  intros E. assert (H : (y1 - y2) * (y1 + y2) = 0) by (transitivity (y1 * y1 - y2 * y2); [ring|rewrite E1, E2, E; ring]).
  destruct (mul_zero _ _ H) as [H'|H']; [left; now apply sub_zero|right; apply sub_zero; rewrite <- H'; ring].
Qed.
Lemma tangent_curve (x y : K) : y * y = x * x * x + b ->
  let m := (three * (x * x)) / (two * y) in let x3 := m * m - x - x in let y3 := m * (x - x3) - y in
  y3 * y3 = x3 * x3 * x3 + b /\
  two * two * two * (y * y * y) * y3 = y * y * (y * y) + two * three * three * b * (y * y) - three * three * three * (b * b).
Proof.
  intros E m x3 y3. assert (N := curve_y _ _ E). assert (T := mul_nonzero _ _ H2 N).
  set (t := two * y) in *.
  assert (Ey3 : t * t * t * y3 = three * (x * x) * (t * t * x - (three * (x * x) * (three * (x * x)) - t * t * (x + x))) - y * (t * t * t))
    by (unfold y3, x3, m; fold t; field; exact T).
  assert (Ex3 : t * t * x3 = three * (x * x) * (three * (x * x)) - t * t * (x + x))
    by (unfold x3, m; fold t; field; exact T).
  split.
  - apply (cancel_l (t * t * t * (t * t * t))); [auto using mul_nonzero|].
    transitivity ((t * t * t * y3) * (t * t * t * y3)); [ring|]. rewrite Ey3.
    transitivity ((t * t * x3) * (t * t * x3) * (t * t * x3) + b * (t * t * t * (t * t * t))); [|ring]. rewrite Ex3.
    unfold t, two, three. ring [E].
  - transitivity (t * t * t * y3); [unfold t; ring|]. rewrite Ey3. unfold t, two, three. ring [E].
Qed.

Lemma opposite_ok : x1 = x2 -> y1 = - y2 -> X = 0 /\ Z = 0 /\ Y <> 0.
Proof.
  intros Ex Ey. split; [unfold X, cx; rewrite Ex, Ey; ring|]. split; [unfold Z, cz; rewrite Ex, Ey; ring|].
  destruct (tangent_curve x2 y2 E2) as [C R]. cbv zeta in C, R. set (y3 := _ - y2) in *.
  assert (RY : Y = two * two * two * (y2 * y2 * y2) * y3).
  { rewrite R. unfold Y, cy, b3. rewrite Ex, Ey. unfold two, three. ring [E2]. }
  rewrite RY. assert (N := curve_y _ _ E2). pose proof (curve_y _ _ C). auto 10 using mul_nonzero.
Qed.

Lemma tangent_ok : x1 = x2 -> y1 = y2 ->
  Z <> 0 /\ point_of X Y Z = third ((three * (x1 * x1)) / (two * y1)) x1 y1 x2.
Proof.
  intros <- <-. assert (N := curve_y _ _ E1). assert (T := mul_nonzero _ _ H2 N).
  assert (RZ : Z = two * two * two * (y1 * y1 * y1)) by (unfold Z, cz, b3, two, three; ring [E1]).
  assert (ZN : Z <> 0) by (rewrite RZ; auto 10 using mul_nonzero).
  split; [exact ZN|]. unfold point_of. apply feqb_false in ZN as Zb. rewrite Zb. unfold third.
  set (t := two * y1) in *. f_equal.
  - apply div_eq; [exact ZN|]. apply (cancel_l (t * t)); [auto using mul_nonzero|].
    transitivity ((three * (x1 * x1) * (three * (x1 * x1)) - t * t * (x1 + x1)) * Z).
    + unfold X, Z, cx, cz, b3, t, two, three. ring [E1].
    + field. exact T.
  - apply div_eq; [exact ZN|]. apply (cancel_l (t * t * t)); [auto using mul_nonzero|].
    transitivity ((three * (x1 * x1) * (t * t * x1 - (three * (x1 * x1) * (three * (x1 * x1)) - t * t * (x1 + x1))) - y1 * (t * t * t)) * Z).
    + unfold Y, Z, cy, cz, b3, t, two, three. ring [E1].
    + field. exact T.
Qed.

Lemma affine_ok : ~ (X = 0 /\ Y = 0 /\ Z = 0) /\ point_of X Y Z = point_add (Affine x1 y1) (Affine x2 y2).
Proof.
  cbn [point_add]. destruct (feqb x1 x2) eqn:Ex.
  - apply feqb_spec in Ex. destruct (feqb y1 (- y2)) eqn:Ey.
    + apply feqb_spec in Ey. destruct (opposite_ok Ex Ey) as (A & B & C). split; [tauto|]. rewrite B. apply point_of_inf.
    + apply feqb_false in Ey. destruct (same_x Ex) as [Ey'|Ey']; [|congruence].
      destruct (tangent_ok Ex Ey') as [A B]. split; [tauto|exact B].
  - apply feqb_false in Ex. destruct (chord_ok Ex) as [A B]. split; [tauto|exact B].
Qed.
End Affine.

(** ** the formulas in homogeneous coordinates *)
Lemma cx_scale (c d x1 y1 z1 x2 y2 z2 : K) :
  cx (c * x1) (c * y1) (c * z1) (d * x2) (d * y2) (d * z2) = c * c * (d * d) * cx x1 y1 z1 x2 y2 z2.
Proof. unfold cx. ring. Qed.
Lemma cy_scale (c d x1 y1 z1 x2 y2 z2 : K) :
  cy (c * x1) (c * y1) (c * z1) (d * x2) (d * y2) (d * z2) = c * c * (d * d) * cy x1 y1 z1 x2 y2 z2.
Proof. unfold cy. ring. Qed.
Lemma cz_scale (c d x1 y1 z1 x2 y2 z2 : K) :
  cz (c * x1) (c * y1) (c * z1) (d * x2) (d * y2) (d * z2) = c * c * (d * d) * cz x1 y1 z1 x2 y2 z2.
Proof. unfold cz. ring. Qed.

Theorem complete_ok (x1 y1 z1 x2 y2 z2 : K) : projective b x1 y1 z1 -> projective b x2 y2 z2 ->
  let X := cx x1 y1 z1 x2 y2 z2 in let Y := cy x1 y1 z1 x2 y2 z2 in let Z := cz x1 y1 z1 x2 y2 z2 in
  projective b X Y Z /\ point_of X Y Z = point_add (point_of x1 y1 z1) (point_of x2 y2 z2).
Proof.
  intros P1 P2.
  destruct (fdec z1 0) as [->|Z1]; [|destruct (fdec z2 0) as [->|Z2]].
  - (* the first point is infinity *)
    destruct (projective_inf _ _ P1) as [-> Y1]. cbv zeta. rewrite (point_of_inf 0 y1). cbn [point_add].
    destruct (fdec z2 0) as [->|Z2].
    + destruct (projective_inf _ _ P2) as [-> Y2]. rewrite point_of_inf.
      replace (cx 0 y1 0 0 y2 0) with (0 : K) by (unfold cx; ring).
      replace (cz 0 y1 0 0 y2 0) with (0 : K) by (unfold cz; ring).
      replace (cy 0 y1 0 0 y2 0) with (y1 * y2 * (y1 * y2)) by (unfold cy; ring).
      split; [apply projective_inf_of; auto using mul_nonzero|apply point_of_inf].
    + destruct (projective_aff _ _ _ Z2 P2) as (_ & _ & E). pose proof (curve_y _ _ E) as N.
      assert (Y2 : y2 <> 0) by (intros ->; apply N; field; exact Z2).
      replace (cx 0 y1 0 x2 y2 z2) with (y1 * y1 * y2 * x2) by (unfold cx; ring).
      replace (cy 0 y1 0 x2 y2 z2) with (y1 * y1 * y2 * y2) by (unfold cy; ring).
      replace (cz 0 y1 0 x2 y2 z2) with (y1 * y1 * y2 * z2) by (unfold cz; ring).
      split; [apply projective_scale|apply point_of_scale]; auto using mul_nonzero.
  - (* only the second is infinity *)
    destruct (projective_inf _ _ P2) as [-> Y2]. cbv zeta. rewrite (point_of_inf 0 y2).
    destruct (projective_aff _ _ _ Z1 P1) as (_ & _ & E). pose proof (curve_y _ _ E) as N.
    assert (Y1 : y1 <> 0) by (intros ->; apply N; field; exact Z1).
    replace (cx x1 y1 z1 0 y2 0) with (y2 * y2 * y1 * x1) by (unfold cx; ring).
    replace (cy x1 y1 z1 0 y2 0) with (y2 * y2 * y1 * y1) by (unfold cy; ring).
    replace (cz x1 y1 z1 0 y2 0) with (y2 * y2 * y1 * z1) by (unfold cz; ring).
    split; [apply projective_scale; auto using mul_nonzero|].
    rewrite point_of_scale by auto using mul_nonzero.
    unfold point_of. apply feqb_false in Z1 as Zb. rewrite Zb. reflexivity.
  - destruct (projective_aff _ _ _ Z1 P1) as (A1 & B1 & E1). destruct (projective_aff _ _ _ Z2 P2) as (A2 & B2 & E2).
    set (u1 := x1 / z1) in *. set (v1 := y1 / z1) in *. set (u2 := x2 / z2) in *. set (v2 := y2 / z2) in *.
    clearbody u1 v1 u2 v2. subst x1 y1 x2 y2.
    assert (C1 : z1 = z1 * 1) by ring. assert (C2 : z2 = z2 * 1) by ring.
    set (c := z1 * z1 * (z2 * z2)). assert (C : c <> 0) by (unfold c; auto using mul_nonzero).
    assert (RX : cx (z1 * u1) (z1 * v1) z1 (z2 * u2) (z2 * v2) z2 = c * cx u1 v1 1 u2 v2 1)
      by (rewrite C1 at 3; rewrite C2 at 3; apply cx_scale).
    assert (RY : cy (z1 * u1) (z1 * v1) z1 (z2 * u2) (z2 * v2) z2 = c * cy u1 v1 1 u2 v2 1)
      by (rewrite C1 at 3; rewrite C2 at 3; apply cy_scale).
    assert (RZ : cz (z1 * u1) (z1 * v1) z1 (z2 * u2) (z2 * v2) z2 = c * cz u1 v1 1 u2 v2 1)
      by (rewrite C1 at 3; rewrite C2 at 3; apply cz_scale).
    cbv zeta. rewrite RX, RY, RZ. destruct (affine_ok u1 v1 u2 v2 E1 E2) as [N S].
    split.
    + apply projective_scale; [exact C|]. split; [apply complete_curve; assumption|exact N].
    + rewrite point_of_scale by exact C. rewrite !point_of_aff by assumption. exact S.
Qed.

(** ** the group laws *)
Definition px (P : point K) : K := match P with Infinity => 0 | Affine x _ => x end.
Definition py (P : point K) : K := match P with Infinity => 1 | Affine _ y => y end.
Definition pz (P : point K) : K := match P with Infinity => 0 | Affine _ _ => 1 end.
Lemma f1_neq_0 : (1 : K) <> 0. Proof. exact (F_1_neq_0 (fld_th K)). Qed.
Lemma projective_pt P : on_curve b P -> projective b (px P) (py P) (pz P).
Proof.
  destruct P as [|x y]; cbn; intros H.
  - apply projective_inf_of. apply f1_neq_0.
  - split; [rewrite H; ring|]. intros (_ & _ & H'). now apply f1_neq_0.
Qed.
Lemma point_of_pt (P : point K) : point_of (px P) (py P) (pz P) = P.
Proof.
  destruct P as [|x y]; cbn; [apply point_of_inf|].
  transitivity (point_of (1 * x) (1 * y) (1 : K)); [f_equal; ring|]. apply point_of_aff, f1_neq_0.
Qed.
Lemma point_add_formula P Q : on_curve b P -> on_curve b Q ->
  point_add P Q = point_of (cx (px P) (py P) (pz P) (px Q) (py Q) (pz Q)) (cy (px P) (py P) (pz P) (px Q) (py Q) (pz Q)) (cz (px P) (py P) (pz P) (px Q) (py Q) (pz Q)).
Proof.
  intros HP HQ. destruct (complete_ok _ _ _ _ _ _ (projective_pt P HP) (projective_pt Q HQ)) as [_ H].
  rewrite !point_of_pt in H. symmetry. exact H.
Qed.

Theorem point_add_on_curve P Q : on_curve b P -> on_curve b Q -> on_curve b (point_add P Q).
Proof.
  intros HP HQ. destruct (complete_ok _ _ _ _ _ _ (projective_pt P HP) (projective_pt Q HQ)) as [HR H].
  rewrite !point_of_pt in H. cbv zeta in H. rewrite <- H. now apply point_of_on_curve.
Qed.
Theorem point_neg_on_curve P : on_curve b P -> on_curve b (point_neg P).
Proof. destruct P; cbn; [trivial|]. intros <-. ring. Qed.
Theorem point_add_comm P Q : on_curve b P -> on_curve b Q -> point_add P Q = point_add Q P.
Proof.
  intros HP HQ. rewrite !point_add_formula by assumption.
  f_equal; unfold cx, cy, cz; ring.
Qed.
Theorem point_add_0_l (P : point K) : point_add Infinity P = P. Proof. reflexivity. Qed.
Theorem point_add_0_r (P : point K) : point_add P Infinity = P. Proof. now destruct P. Qed.
Theorem point_add_neg_r (P : point K) : point_add P (point_neg P) = Infinity.
Proof.
  destruct P as [|x y]; [reflexivity|]. cbn. rewrite feqb_refl.
  replace (- - y) with y by ring. now rewrite feqb_refl.
Qed.

(** two homogeneous triples with vanishing cross products are the same point *)
Lemma point_of_cross X Y Z X' Y' Z' : projective b X Y Z -> projective b X' Y' Z' ->
  X * Z' = X' * Z -> Y * Z' = Y' * Z -> point_of X Y Z = point_of X' Y' Z'.
Proof.
  intros P P' A B. unfold point_of. destruct (fdec Z 0) as [->|HZ], (fdec Z' 0) as [->|HZ'].
  - now rewrite feqb_refl.
  - destruct (projective_inf _ _ P) as [_ HY]. exfalso. apply (mul_nonzero _ _ HY HZ'). rewrite B. ring.
  - destruct (projective_inf _ _ P') as [_ HY]. exfalso. apply (mul_nonzero _ _ HY HZ). rewrite <- B. ring.
  - apply feqb_false in HZ as E, HZ' as E'. rewrite E, E'. f_equal.
    + apply div_eq; [exact HZ|]. apply (cancel_l Z'); [exact HZ'|]. transitivity (X' * Z); [rewrite <- A; ring|field; exact HZ'].
    + apply div_eq; [exact HZ|]. apply (cancel_l Z'); [exact HZ'|]. transitivity (Y' * Z); [rewrite <- B; ring|field; exact HZ'].
Qed.

Theorem point_add_assoc P Q R : on_curve b P -> on_curve b Q -> on_curve b R ->
  point_add P (point_add Q R) = point_add (point_add P Q) R.
Proof.
  destruct P as [|x1 y1]; [reflexivity|]. destruct Q as [|x2 y2]; [now rewrite point_add_0_r|].
  destruct R as [|x3 y3]; [now rewrite !point_add_0_r|]. intros HP HQ HR.
  destruct (complete_ok _ _ _ _ _ _ (projective_pt _ HP) (projective_pt _ HQ)) as [C12 D12].
  destruct (complete_ok _ _ _ _ _ _ (projective_pt _ HQ) (projective_pt _ HR)) as [C23 D23].
  destruct (complete_ok _ _ _ _ _ _ (projective_pt _ HP) C23) as [CL DL].
  destruct (complete_ok _ _ _ _ _ _ C12 (projective_pt _ HR)) as [CR DR].
  cbv zeta in *. rewrite !point_of_pt in *. rewrite D23 in DL. rewrite D12 in DR. rewrite <- DL, <- DR.
  apply point_of_cross; [exact CL|exact CR| |]; cbn [px py pz] in *; cbn in HP, HQ, HR;
    unfold cx, cy, cz, b3, three; ring [HP HQ HR].
Qed.
End Group.
