(** * Proof_Ladder: the x-coordinate of a multiple of a point is a quotient of two polynomials of known degree

    The differential ladder on (X : Z) coordinates.  For odd n = 2 k + 1 the points killed by n have their
    x-coordinates among the roots of one polynomial of degree (n * n - 1) / 2. *)
From Coq Require Import ZArith List Bool Lia Ring Field.
From Verif Require Import Base Fld Poly Spec_Curve Proof_Curve Proof_CurveMul Proof_G1Sub.
Import ListNotations.

Section Ladder.
Context {K : fld} (b : K).
Add Field Kla : (fld_field K).
Local Open Scope fld_scope.
Definition eight : K := (1 + 1) * (1 + 1) * (1 + 1).
Definition xdbl (v : K * K) : K * K :=
  let '(X, Z) := v in (X * (X * X * X - eight * (b * (Z * Z * Z))), (1 + 1) * (1 + 1) * (Z * (X * X * X + b * (Z * Z * Z)))).
Definition xdet (v1 v2 : K * K) : K := let '(X1, Z1) := v1 in let '(X2, Z2) := v2 in X2 * Z1 - X1 * Z2.
Definition xadd (x : K) (v1 v2 : K * K) : K * K :=
  let '(X1, Z1) := v1 in let '(X2, Z2) := v2 in
  let D := xdet v1 v2 in
  ((1 + 1) * ((X1 * Z2 + X2 * Z1) * (X1 * X2) + (1 + 1) * (b * (Z1 * Z1 * (Z2 * Z2)))) - x * (D * D), D * D).
Fixpoint lad (n : positive) (x : K) : (K * K) * (K * K) :=
  match n with
  | xH => ((x, 1), xdbl (x, 1))
  | xO n => let '(v1, v2) := lad n x in (xdbl v1, xadd x v1 v2)
  | xI n => let '(v1, v2) := lad n x in (xadd x v1 v2, xdbl v2)
  end.
Definition xpoly (n : positive) (x : K) : K := xdet (fst (lad n x)) (snd (lad n x)).
Definition xrep (P : point K) (v : K * K) : Prop :=
  match P with Infinity => snd v = 0 /\ fst v <> 0 | Affine x _ => snd v <> 0 /\ fst v = x * snd v end.

Hypothesis H2 : (1 + 1 : K) <> 0.
Hypothesis NoTwo : forall x : K, x * x * x + b <> 0.
Let y_nz (x y : K) : on_curve b (Affine x y) -> y <> 0.
Proof. intros C E. apply (NoTwo x). cbn [on_curve] in C. rewrite <- C, E. ring. Qed.
Lemma xdbl_ok P v : on_curve b P -> xrep P v -> xrep (point_add P P) (xdbl v).
Proof.
  destruct v as [X Z]. destruct P as [|x y]; cbn [xrep fst snd].
  - intros _ [-> N]. cbn [point_add xrep xdbl fst snd]. split; [ring|]. intros E. apply N.
    assert (E' : (X * X) * (X * X) = 0) by (rewrite <- E; ring). apply fmul_eq_0 in E'. destruct E' as [E'|E']; apply fmul_eq_0 in E'; destruct E'; assumption.
  - intros C [N ->]. pose proof (y_nz x y C) as NY. cbn [on_curve] in C. cbn [point_add]. rewrite feqb_refl.
    assert (NE : y <> - y). { intros E. apply NY. apply (fmul_cancel_l (1 + 1)); [exact H2|]. transitivity (y + y); [ring|]. transitivity (y - y); [rewrite E at 2; ring|ring]. }
    rewrite (proj2 (feqb_false _ _) NE). unfold third. cbv zeta. cbn [xrep xdbl fst snd].
    assert (EZ : (1 + 1) * (1 + 1) * (Z * (x * Z * (x * Z) * (x * Z) + b * (Z * Z * Z))) = ((1 + 1) * y) * ((1 + 1) * y) * (Z * Z * (Z * Z))).
    { transitivity ((1 + 1) * (1 + 1) * (Z * Z * (Z * Z)) * (x * x * x + b)); [ring|]. rewrite <- C. ring. }
    rewrite EZ. split.
    + repeat apply mul_nonzero; assumption.
    + replace b with (y * y - x * x * x) by (rewrite C; ring). unfold eight. field. split; assumption.
Qed.
Lemma xadd_ok x y P1 P2 v1 v2 : on_curve b (Affine x y) -> on_curve b P1 -> on_curve b P2 -> point_add P1 (Affine x y) = P2 ->
  xrep P1 v1 -> xrep P2 v2 -> xrep (point_add P1 P2) (xadd x v1 v2) /\ (point_add P1 P2 = Infinity <-> xdet v1 v2 = 0).
Proof.
  intros C C1 C2 E R1 R2. destruct v1 as [X1 Z1], v2 as [X2 Z2].
  assert (SQ : forall a c : K, a <> 0 -> c <> 0 -> a * c <> 0) by (intros; apply mul_nonzero; assumption).
  destruct P1 as [|x1 y1].
  - cbn [point_add] in E. subst P2. cbn [xrep fst snd] in R1, R2. destruct R1 as [-> N1], R2 as [N2 ->]. cbn [point_add xrep xadd xdet fst snd].
    split; [split; [|ring]|].
    + replace (x * Z2 * 0 - X1 * Z2) with (- (X1 * Z2)) by ring. intros Z. apply (SQ (X1 * Z2) (X1 * Z2)); [apply SQ; assumption|apply SQ; assumption|]. rewrite <- Z. ring.
    + split; [discriminate|]. intros Z. destruct (SQ X1 Z2 N1 N2). transitivity (- (x * Z2 * 0 - X1 * Z2)); [ring|]. rewrite Z. ring.
  - destruct P2 as [|x2 y2].
    + cbn [xrep fst snd] in R1, R2. destruct R1 as [N1 ->], R2 as [-> N2]. cbn [point_add] in E.
      assert (EX : x1 = x). { destruct (feqb x1 x) eqn:EX; [apply feqb_spec; exact EX|]. discriminate E. }
      subst x1. cbn [point_add xrep xadd xdet fst snd]. split; [split; [|ring]|].
      * replace (X2 * Z1 - x * Z1 * 0) with (X2 * Z1) by ring. apply SQ; apply SQ; assumption.
      * split; [discriminate|]. intros Z. destruct (SQ X2 Z1 N2 N1). rewrite <- Z. ring.
    + cbn [xrep fst snd] in R1, R2. destruct R1 as [N1 ->], R2 as [N2 ->].
      pose proof (y_nz _ _ C1) as NY1.
      assert (EB : point_add (Affine x2 y2) (point_neg (Affine x1 y1)) = Affine x y).
      { apply (pt_cancel (b:=b) H2 NoTwo (Affine x1 y1)); [exact C1|apply (point_add_on_curve b H2 NoTwo); [exact C2|exact (point_neg_on_curve b _ C1)]|exact C|].
        rewrite E. rewrite (point_add_comm b H2 NoTwo (Affine x2 y2) (point_neg (Affine x1 y1))); [|exact C2|exact (point_neg_on_curve b _ C1)].
        rewrite (point_add_assoc b H2 NoTwo); [|exact C1|exact (point_neg_on_curve b _ C1)|exact C2]. rewrite point_add_neg_r. reflexivity. }
      cbn [xadd xdet]. destruct (fdec x1 x2) as [EX|NX].
      * subst x2. destruct (same_x b x1 y2 x1 y1 C2 C1 eq_refl) as [EY|EY]; subst y2.
        { exfalso. rewrite point_add_neg_r in EB. discriminate EB. }
        change (Affine x1 (- y1)) with (point_neg (Affine x1 y1)). rewrite point_add_neg_r. cbn [xrep fst snd].
        assert (D0 : x1 * Z2 * Z1 - x1 * Z1 * Z2 = 0) by ring. rewrite D0. split; [split; [ring|]|split; reflexivity].
        intros Z. apply (SQ ((1 + 1) * y1 * (Z1 * Z2)) ((1 + 1) * y1 * (Z1 * Z2))); [apply SQ; apply SQ; assumption|apply SQ; apply SQ; assumption|].
        rewrite <- Z. cbn [on_curve] in C1. transitivity ((1 + 1) * (1 + 1) * (y1 * y1) * (Z1 * Z2) * (Z1 * Z2)); [ring|]. rewrite C1. ring.
      * assert (ND : x2 - x1 <> 0) by (intros Z; apply NX; symmetry; apply fsub_eq_0; exact Z).
        assert (ND' : x1 - x2 <> 0) by (intros Z; apply NX; apply fsub_eq_0; exact Z).
        cbn [point_add point_neg] in EB |- *. rewrite (proj2 (feqb_false _ _) NX). rewrite (proj2 (feqb_false x2 x1) (fun Z => NX (eq_sym Z))) in EB.
        unfold third in EB |- *. cbv zeta in EB |- *.
        assert (EX : (- y1 - y2) / (x1 - x2) * ((- y1 - y2) / (x1 - x2)) - x2 - x1 = x) by exact (f_equal (fun P : point K => match P with Affine x _ => x | Infinity => x end) EB).
        cbn [xrep fst snd]. assert (ED : x2 * Z2 * Z1 - x1 * Z1 * Z2 = (x2 - x1) * (Z1 * Z2)) by ring. rewrite ED. split; [split|].
        -- apply SQ; apply SQ; try assumption; apply SQ; assumption.
        -- rewrite <- EX. cbn [on_curve] in C1, C2. replace b with (y1 * y1 - x1 * x1 * x1) by (rewrite C1; ring).
           assert (E2 : y2 * y2 = y1 * y1 - x1 * x1 * x1 + x2 * x2 * x2) by (rewrite C1, C2; ring).
           apply (fmul_cancel_l ((x2 - x1) * (x2 - x1))); [apply SQ; assumption|].
           assert (EN : forall m, m = (- y1 - y2) / (x1 - x2) -> (x2 - x1) * m = y1 + y2) by (intros m ->; field; exact ND').
           assert (EN' : forall m, m = (y2 - y1) / (x2 - x1) -> (x2 - x1) * m = y2 - y1) by (intros m ->; field; exact ND).
           set (m1 := (- y1 - y2) / (x1 - x2)) in *. set (m2 := (y2 - y1) / (x2 - x1)) in *. specialize (EN m1 eq_refl). specialize (EN' m2 eq_refl). clearbody m1 m2.
           transitivity ((x2 - x1) * (x2 - x1) * (Z1 * Z2) * (Z1 * Z2) * ((1 + 1) * ((x1 + x2) * (x1 * x2) + (1 + 1) * (y1 * y1 - x1 * x1 * x1)) - (((x2 - x1) * m1) * ((x2 - x1) * m1) - (x1 + x2) * ((x2 - x1) * (x2 - x1))))); [ring|].
           transitivity ((x2 - x1) * (x2 - x1) * (Z1 * Z2) * (Z1 * Z2) * (((x2 - x1) * m2) * ((x2 - x1) * m2) - (x1 + x2) * ((x2 - x1) * (x2 - x1)))); [|ring].
           rewrite EN, EN'. apply (f_equal (fmul ((x2 - x1) * (x2 - x1) * (Z1 * Z2) * (Z1 * Z2)))). ring [E2].
        -- split; [discriminate|]. intros Z. destruct (SQ (x2 - x1) (Z1 * Z2)); [exact ND|apply SQ; assumption|exact Z].
Qed.
Let ZADD := pt_zmul_add (b:=b) H2 NoTwo.
Let ZON := zmul_on_curve (b:=b) H2 NoTwo.
Theorem lad_ok n x y : on_curve b (Affine x y) ->
  xrep (point_zmul (Zpos n) (Affine x y)) (fst (lad n x)) /\ xrep (point_zmul (Zpos n + 1)%Z (Affine x y)) (snd (lad n x)).
Proof.
  intros C. set (P := Affine x y) in *. assert (ONE : point_zmul 1 P = P) by (apply (pt_zmul_1 (b:=b)); exact C).
  assert (STEP : forall m, point_add (point_zmul m P) P = point_zmul (m + 1)%Z P) by (intros m; rewrite ZADD, ONE by exact C; reflexivity).
  induction n as [n IH|n IH|].
  - cbn [lad]. destruct (lad n x) as [v1 v2]. cbn [fst snd] in IH |- *. destruct IH as [I1 I2]. split.
    + replace (Zpos n~1) with (Zpos n + (Zpos n + 1))%Z by lia. rewrite ZADD by exact C. apply (xadd_ok x y); auto.
    + replace (Zpos n~1 + 1)%Z with (Zpos n + 1 + (Zpos n + 1))%Z by lia. rewrite ZADD by exact C. apply xdbl_ok; auto.
  - cbn [lad]. destruct (lad n x) as [v1 v2]. cbn [fst snd] in IH |- *. destruct IH as [I1 I2]. split.
    + replace (Zpos n~0) with (Zpos n + Zpos n)%Z by lia. rewrite ZADD by exact C. apply xdbl_ok; auto.
    + replace (Zpos n~0 + 1)%Z with (Zpos n + (Zpos n + 1))%Z by lia. rewrite ZADD by exact C. apply (xadd_ok x y); auto.
  - assert (R : xrep P (x, 1)) by (split; [exact f1_neq_0|cbn [fst snd]; ring]). cbn [lad fst snd]. split; [rewrite ONE; exact R|].
    replace (1 + 1)%Z with (1 + 1)%Z by lia. rewrite ZADD by exact C. rewrite ONE. apply xdbl_ok; assumption.
Qed.
(** the points killed by 2 n + 1 *)
Theorem xpoly_ok n x y : on_curve b (Affine x y) -> (point_zmul (Zpos (xI n)) (Affine x y) = Infinity <-> xpoly n x = 0).
Proof.
  intros C. destruct (lad_ok n x y C) as [R1 R2]. set (P := Affine x y) in *. assert (ONE : point_zmul 1 P = P) by (apply (pt_zmul_1 (b:=b)); exact C).
  assert (STEP : point_add (point_zmul (Zpos n) P) P = point_zmul (Zpos n + 1)%Z P) by (rewrite ZADD, ONE by exact C; reflexivity).
  replace (Zpos n~1) with (Zpos n + (Zpos n + 1))%Z by lia. rewrite ZADD by exact C.
  exact (proj2 (xadd_ok x y _ _ _ _ C (ZON _ _ C) (ZON _ _ C) STEP R1 R2)).
Qed.
End Ladder.

(** ** degrees *)
Section Degree.
Context {K : fld}.
Add Field Kde : (fld_field K).
Definition pdeg (f : K -> K) (n : nat) : Prop := exists l, (length l <= S n)%nat /\ forall x, f x = peval l x.
Lemma pdeg_le f n m : pdeg f n -> (n <= m)%nat -> pdeg f m.
Proof. intros (l & L & E) H. exists l. split; [lia|exact E]. Qed.
Lemma pdeg_const c n : pdeg (fun _ => c) n.
Proof. exists [c]. split; [cbn [length]; lia|]. intros x. cbn [peval]. ring. Qed.
Lemma pdeg_x : pdeg (fun x => x) 1.
Proof. exists [f0; f1]. split; [cbn [length]; lia|]. intros x. cbn [peval]. ring. Qed.
Lemma pdeg_mul f g n m : pdeg f n -> pdeg g m -> pdeg (fun x => fmul (f x) (g x)) (n + m).
Proof.
  intros (l & L & E) (l' & L' & E'). exists (pmul l l'). split; [rewrite pmul_length; lia|]. intros x. rewrite peval_pmul, E, E'. reflexivity.
Qed.
Lemma pdeg_sub f g n : pdeg f n -> pdeg g n -> pdeg (fun x => fsub (f x) (g x)) n.
Proof.
  intros (l & L & E) (l' & L' & E'). exists (psub l l'). split; [rewrite psub_length; lia|]. intros x. rewrite peval_psub, E, E'. reflexivity.
Qed.
Lemma pdeg_ext f g n : (forall x, f x = g x) -> pdeg f n -> pdeg g n.
Proof. intros H (l & L & E). exists l. split; [exact L|]. intros x. rewrite <- H. apply E. Qed.
Lemma pdeg_add f g n : pdeg f n -> pdeg g n -> pdeg (fun x => fadd (f x) (g x)) n.
Proof.
  intros F G. apply (pdeg_ext (fun x => fsub (f x) (fsub f0 (g x)))); [intros x; ring|].
  apply pdeg_sub; [exact F|]. apply pdeg_sub; [apply pdeg_const|exact G].
Qed.
Lemma pdeg_scale c f n : pdeg f n -> pdeg (fun x => fmul c (f x)) n.
Proof. intros F. apply (pdeg_le _ (0 + n)); [|lia]. apply (pdeg_mul (fun _ => c)); [apply pdeg_const|exact F]. Qed.
Theorem pdeg_roots f n xs : pdeg f n -> NoDup xs -> (n < length xs)%nat -> (forall x, In x xs -> f x = f0) -> forall x, f x = f0.
Proof.
  intros (l & L & E) ND LEN R x. rewrite E. rewrite (peval_ext l []); [reflexivity|]. intros i. rewrite coef_nil.
  apply (roots_bound xs); [exact ND|lia|]. intros y I. rewrite <- E. apply R. exact I.
Qed.
Context (b : K).
Definition vdeg (v : K -> K * K) (n : nat) : Prop := exists m, n = S m /\ pdeg (fun x => fst (v x)) n /\ pdeg (fun x => snd (v x)) m.
Lemma vdeg_dbl v n : vdeg v n -> vdeg (fun x => xdbl b (v x)) (4 * n).
Proof.
  intros (m & -> & X & Z).
  assert (X3 : pdeg (fun x => fmul (fmul (fst (v x)) (fst (v x))) (fst (v x))) (3 * S m)).
  { apply (pdeg_le _ (S m + S m + S m)); [|lia]. apply pdeg_mul; [apply pdeg_mul|]; exact X. }
  assert (Z3 : pdeg (fun x => fmul b (fmul (fmul (snd (v x)) (snd (v x))) (snd (v x)))) (3 * S m)).
  { apply pdeg_scale. apply (pdeg_le _ (m + m + m)); [|lia]. apply pdeg_mul; [apply pdeg_mul|]; exact Z. }
  exists (4 * m + 3)%nat. split; [lia|]. split.
  - apply (pdeg_ext (fun x => fmul (fst (v x)) (fsub (fmul (fmul (fst (v x)) (fst (v x))) (fst (v x))) (fmul eight (fmul b (fmul (fmul (snd (v x)) (snd (v x))) (snd (v x)))))))).
    { intros x. destruct (v x) as [X' Z']. reflexivity. }
    apply (pdeg_le _ (S m + 3 * S m)); [|lia]. apply pdeg_mul; [exact X|]. apply pdeg_sub; [exact X3|]. apply pdeg_scale. exact Z3.
  - apply (pdeg_ext (fun x => fmul (fmul (fadd f1 f1) (fadd f1 f1)) (fmul (snd (v x)) (fadd (fmul (fmul (fst (v x)) (fst (v x))) (fst (v x))) (fmul b (fmul (fmul (snd (v x)) (snd (v x))) (snd (v x)))))))).
    { intros x. destruct (v x) as [X' Z']. reflexivity. }
    apply pdeg_scale. apply (pdeg_le _ (m + 3 * S m)); [|lia]. apply pdeg_mul; [exact Z|]. apply pdeg_add; assumption.
Qed.
Lemma det_deg v1 v2 n1 n2 : vdeg v1 n1 -> vdeg v2 n2 -> pdeg (fun x => xdet (v1 x) (v2 x)) (n1 + n2 - 1).
Proof.
  intros (m1 & -> & X1 & Z1) (m2 & -> & X2 & Z2).
  apply (pdeg_ext (fun x => fsub (fmul (fst (v2 x)) (snd (v1 x))) (fmul (fst (v1 x)) (snd (v2 x))))).
  { intros x. destruct (v1 x), (v2 x). reflexivity. }
  apply pdeg_sub; [apply (pdeg_le _ (S m2 + m1)); [|lia]|apply (pdeg_le _ (S m1 + m2)); [|lia]]; apply pdeg_mul; assumption.
Qed.
Lemma vdeg_add v1 v2 n1 n2 : vdeg v1 n1 -> vdeg v2 n2 -> vdeg (fun x => xadd b x (v1 x) (v2 x)) (2 * n1 + 2 * n2 - 1).
Proof.
  intros V1 V2. pose proof (det_deg v1 v2 n1 n2 V1 V2) as DD. destruct V1 as (m1 & -> & X1 & Z1), V2 as (m2 & -> & X2 & Z2).
  assert (D2 : pdeg (fun x => fmul (xdet (v1 x) (v2 x)) (xdet (v1 x) (v2 x))) (2 * S m1 + 2 * S m2 - 2)).
  { apply (pdeg_le _ ((S m1 + S m2 - 1) + (S m1 + S m2 - 1))); [|lia]. apply pdeg_mul; exact DD. }
  exists (2 * S m1 + 2 * S m2 - 2)%nat. split; [lia|]. split.
  - apply (pdeg_ext (fun x => fsub (fmul (fadd f1 f1) (fadd (fmul (fadd (fmul (fst (v1 x)) (snd (v2 x))) (fmul (fst (v2 x)) (snd (v1 x)))) (fmul (fst (v1 x)) (fst (v2 x))))
       (fmul (fadd f1 f1) (fmul b (fmul (fmul (snd (v1 x)) (snd (v1 x))) (fmul (snd (v2 x)) (snd (v2 x)))))))) (fmul x (fmul (xdet (v1 x) (v2 x)) (xdet (v1 x) (v2 x)))))).
    { intros x. destruct (v1 x), (v2 x). reflexivity. }
    apply pdeg_sub.
    + apply pdeg_scale, pdeg_add.
      * apply (pdeg_le _ ((S m1 + S m2 - 1) + (S m1 + S m2))); [|lia]. apply pdeg_mul; [|apply pdeg_mul; assumption].
        apply pdeg_add; [apply (pdeg_le _ (S m1 + m2)); [|lia]|apply (pdeg_le _ (S m2 + m1)); [|lia]]; apply pdeg_mul; assumption.
      * apply pdeg_scale, pdeg_scale. apply (pdeg_le _ ((m1 + m1) + (m2 + m2))); [|lia]. apply pdeg_mul; apply pdeg_mul; assumption.
    + apply (pdeg_le _ (1 + (2 * S m1 + 2 * S m2 - 2))); [|lia]. apply (pdeg_mul (fun x => x)); [exact pdeg_x|exact D2].
  - apply (pdeg_ext (fun x => fmul (xdet (v1 x) (v2 x)) (xdet (v1 x) (v2 x)))); [intros x; destruct (v1 x), (v2 x); reflexivity|]. exact D2.
Qed.
Lemma vdeg_ext v w n : (forall x, v x = w x) -> vdeg v n -> vdeg w n.
Proof. intros H (m & E & X & Z). exists m. split; [exact E|]. split; [refine (pdeg_ext _ _ _ _ X)|refine (pdeg_ext _ _ _ _ Z)]; intros x; rewrite H; reflexivity. Qed.
Lemma vdeg_eq v n m : n = m -> vdeg v n -> vdeg v m. Proof. intros ->. exact (fun H => H). Qed.
Lemma lad_deg n : let k := Pos.to_nat n in vdeg (fun x => fst (lad b n x)) (k * k) /\ vdeg (fun x => snd (lad b n x)) (S k * S k).
Proof.
  induction n as [n IH|n IH|]; cbv zeta in *.
  - destruct IH as [I1 I2]. rewrite Pos2Nat.inj_xI. split.
    + apply (vdeg_ext (fun x => xadd b x (fst (lad b n x)) (snd (lad b n x)))); [intros x; cbn [lad]; destruct (lad b n x); reflexivity|].
      refine (vdeg_eq _ _ _ _ (vdeg_add _ _ _ _ I1 I2)). nia.
    + apply (vdeg_ext (fun x => xdbl b (snd (lad b n x)))); [intros x; cbn [lad]; destruct (lad b n x); reflexivity|].
      refine (vdeg_eq _ _ _ _ (vdeg_dbl _ _ I2)). nia.
  - destruct IH as [I1 I2]. rewrite Pos2Nat.inj_xO. split.
    + apply (vdeg_ext (fun x => xdbl b (fst (lad b n x)))); [intros x; cbn [lad]; destruct (lad b n x); reflexivity|].
      refine (vdeg_eq _ _ _ _ (vdeg_dbl _ _ I1)). nia.
    + apply (vdeg_ext (fun x => xadd b x (fst (lad b n x)) (snd (lad b n x)))); [intros x; cbn [lad]; destruct (lad b n x); reflexivity|].
      refine (vdeg_eq _ _ _ _ (vdeg_add _ _ _ _ I1 I2)). nia.
  - assert (V : vdeg (fun x : K => (x, f1)) 1) by (exists 0%nat; split; [reflexivity|]; split; [exact pdeg_x|exact (pdeg_const f1 0)]).
    split; [exact V|]. exact (vdeg_dbl _ _ V).
Qed.
Theorem xpoly_deg n : pdeg (xpoly b n) (2 * Pos.to_nat n * (Pos.to_nat n + 1)).
Proof.
  destruct (lad_deg n) as [I1 I2]. refine (pdeg_le _ _ _ (det_deg _ _ _ _ I1 I2) _). nia.
Qed.
End Degree.

(** ** change of curve *)
Section Scale.
Context {k K : fld} (j : k -> K) (u : K) (bk : k) (b : K).
Add Field Ksc : (fld_field K).
Add Field ksc : (fld_field k).
Local Open Scope fld_scope.
Hypothesis j1 : j 1 = 1.
Hypothesis j_add : forall x y, j (x + y) = j x + j y.
Hypothesis j_sub : forall x y, j (x - y) = j x - j y.
Hypothesis j_mul : forall x y, j (x * y) = j x * j y.
Hypothesis u_nz : u <> 0.
Hypothesis jb : j bk * (u * u * u) = b.
Definition scaled (s : K) (w : K * K) (v : k * k) : Prop := s <> 0 /\ fst w = s * u * j (fst v) /\ snd w = s * j (snd v).
Lemma scale_dbl s w v : scaled s w v -> exists s', scaled s' (xdbl b w) (xdbl bk v).
Proof.
  destruct w as [X Z], v as [X' Z']. unfold scaled. cbn [fst snd]. intros (N & -> & ->). exists (s * s * (s * s) * (u * u * u)). cbn [xdbl fst snd].
  split; [repeat apply mul_nonzero; assumption|]. unfold eight. rewrite !j_mul, ?j_sub, ?j_add, !j_mul, ?j_add, !j1, <- jb. split; ring.
Qed.
Lemma scale_det s1 s2 w1 w2 v1 v2 : scaled s1 w1 v1 -> scaled s2 w2 v2 -> xdet w1 w2 = s1 * s2 * u * j (xdet v1 v2).
Proof.
  destruct w1 as [X1 Z1], v1 as [X1' Z1'], w2 as [X2 Z2], v2 as [X2' Z2']. unfold scaled. cbn [fst snd]. intros (N1 & -> & ->) (N2 & -> & ->).
  cbn [xdet]. rewrite j_sub, !j_mul. ring.
Qed.
Lemma scale_add s1 s2 x w1 w2 v1 v2 : scaled s1 w1 v1 -> scaled s2 w2 v2 -> exists s', scaled s' (xadd b (j x * u) w1 w2) (xadd bk x v1 v2).
Proof.
  intros S1 S2. pose proof (scale_det _ _ _ _ _ _ S1 S2) as D. destruct w1 as [X1 Z1], v1 as [X1' Z1'], w2 as [X2 Z2], v2 as [X2' Z2'].
  unfold scaled in *. cbn [fst snd] in S1, S2. destruct S1 as (N1 & -> & ->), S2 as (N2 & -> & ->). exists (s1 * s2 * (s1 * s2) * (u * u)).
  cbn [xadd]. rewrite D. cbv zeta. cbn [fst snd]. split; [repeat apply mul_nonzero; assumption|].
  set (d := xdet (X1', Z1') (X2', Z2')). clearbody d. rewrite !j_mul. split; [|ring].
  rewrite j_sub, !j_mul, !j_add, !j_mul, !j_add, !j_mul, !j1, <- jb. ring.
Qed.
Lemma lad_scale n x : exists s1 s2, scaled s1 (fst (lad b n (j x * u))) (fst (lad bk n x)) /\ scaled s2 (snd (lad b n (j x * u))) (snd (lad bk n x)).
Proof.
  induction n as [n (s1 & s2 & I1 & I2)|n (s1 & s2 & I1 & I2)|].
  - cbn [lad]. destruct (lad b n (j x * u)) as [w1 w2], (lad bk n x) as [v1 v2]. cbn [fst snd] in *.
    destruct (scale_add s1 s2 x _ _ _ _ I1 I2) as [t1 T1], (scale_dbl s2 _ _ I2) as [t2 T2]. exists t1, t2. split; assumption.
  - cbn [lad]. destruct (lad b n (j x * u)) as [w1 w2], (lad bk n x) as [v1 v2]. cbn [fst snd] in *.
    destruct (scale_add s1 s2 x _ _ _ _ I1 I2) as [t1 T1], (scale_dbl s1 _ _ I1) as [t2 T2]. exists t2, t1. split; assumption.
  - assert (V : scaled 1 (j x * u, 1) (x, 1)) by (split; [exact f1_neq_0|]; cbn [fst snd]; rewrite j1; split; ring).
    destruct (scale_dbl 1 _ _ V) as [t T]. exists 1, t. split; [exact V|exact T].
Qed.
Lemma j_zero : j 0 = 0. Proof. replace (0 : k) with (0 - 0 : k) by ring. rewrite j_sub. ring. Qed.
Lemma j_nz (x : k) : x <> 0 -> j x <> 0.
Proof. intros N E. apply (@f1_neq_0 K). rewrite <- j1. replace (1 : k) with (x * finv x) by (field; exact N). rewrite j_mul, E. ring. Qed.
Theorem xpoly_scale n x : xpoly b n (j x * u) = 0 <-> xpoly bk n x = 0.
Proof.
  destruct (lad_scale n x) as (s1 & s2 & I1 & I2). unfold xpoly. rewrite (scale_det _ _ _ _ _ _ I1 I2). split; intros E.
  - destruct (fdec (xdet (fst (lad bk n x)) (snd (lad bk n x))) 0) as [Z|N]; [exact Z|]. exfalso. revert E.
    destruct I1 as (N1 & _), I2 as (N2 & _). repeat apply mul_nonzero; try assumption. apply j_nz. exact N.
  - rewrite E, j_zero. ring.
Qed.
End Scale.

(** ** a list of points has at least half as many x-coordinates *)
Section Half.
Context {K : fld} (b : K).
Definition other (A Q : point K) : bool := if point_dec Q A then false else true.
Lemma other_In A Q l : In Q (filter (other A) l) <-> In Q l /\ Q <> A.
Proof. rewrite filter_In. unfold other. destruct (point_dec Q A) as [E|N]; split; intros [I H]; split; auto; try discriminate; contradiction. Qed.
Lemma other_all A l : ~ In A l -> filter (other A) l = l.
Proof.
  induction l as [|Q l IH]; intros N; [reflexivity|]. cbn [filter]. unfold other at 1. destruct (point_dec Q A) as [->|_]; [destruct N; left; reflexivity|].
  rewrite IH; [reflexivity|]. intros I. apply N. right. exact I.
Qed.
Lemma other_length A l : NoDup l -> (length l <= S (length (filter (other A) l)))%nat.
Proof.
  induction l as [|Q l IH]; intros ND; [cbn; lia|]. inversion ND as [|? ? NI ND']; subst. cbn [filter]. unfold other at 1. destruct (point_dec Q A) as [->|N].
  - cbn [length]. rewrite (other_all A l NI). lia.
  - cbn [length]. specialize (IH ND'). lia.
Qed.
Theorem half_x n : forall l : list (point K), (length l <= n)%nat -> NoDup l -> (forall P, In P l -> on_curve b P /\ P <> Infinity) ->
  exists xs, NoDup xs /\ (length l <= 2 * length xs)%nat /\ forall x, In x xs -> exists y, In (Affine x y) l.
Proof.
  induction n as [|n IH]; intros l LEN ND H.
  - exists []. destruct l; [|cbn in LEN; lia]. split; [constructor|]. split; [cbn; lia|]. intros x [].
  - destruct l as [|P l]; [exists []; split; [constructor|]; split; [cbn; lia|]; intros x []|].
    inversion ND as [|? ? NI ND']; subst. destruct (H P (or_introl eq_refl)) as [C N]. destruct P as [|x y]; [destruct N; reflexivity|].
    set (l' := filter (other (Affine x (fneg y))) l). pose proof (other_length (Affine x (fneg y)) l ND') as L1. fold l' in L1.
    assert (L2 : (length l' <= length l)%nat) by (unfold l'; clear; induction l as [|a l IH]; cbn [filter]; [lia|]; destruct (other _ a); cbn [length]; lia).
    destruct (IH l') as (xs & NX & LX & HX).
    + cbn [length] in LEN. lia.
    + apply NoDup_filter. exact ND'.
    + intros Q I. apply other_In in I. apply H. right. exact (proj1 I).
    + exists (x :: xs). split; [constructor; [|exact NX]|split].
      * intros I. destruct (HX x I) as (y' & I'). apply other_In in I'. destruct I' as [I' NE]. destruct (H _ (or_intror I')) as [C' _].
        destruct (same_x b x y' x y C' C eq_refl) as [E|E]; subst y'; [exact (NI I')|exact (NE eq_refl)].
      * cbn [length] in LEN |- *. lia.
      * intros z [<-|I]; [exists y; left; reflexivity|]. destruct (HX z I) as (y' & I'). apply other_In in I'. exists y'. right. exact (proj1 I').
Qed.
End Half.
