(** * Proof_CurveCode: the point arithmetic computes the group law *)
From Coq Require Import ZArith List Bool Lia Field.
From Verif Require Import Base Fld Spec_Curve Proof_Curve Model_Curve Spec_CurveCode.
Import ListNotations.

Section Code.
Context {F : fops} {K : fld} {b : K} {rep : F -> K -> Prop} (OK : fops_ok F K b rep).
Add Field Kcode : (fld_field K).
Local Open Scope fld_scope.
Hypothesis H2 : (1 + 1 : K) <> 0.
Hypothesis NoTwo : forall x : K, x * x * x + b <> 0.

Notation pstands := (proj_stands b rep).
Notation astands := (aff_stands b rep).

Lemma rep_to s x y : x = y -> rep s x -> rep s y. Proof. now intros ->. Qed.

Ltac reps := repeat first
  [ eassumption | apply (rep_add _ _ _ _ OK) | apply (rep_sub _ _ _ _ OK) | apply (rep_neg _ _ _ _ OK)
  | apply (rep_mul _ _ _ _ OK) | apply (rep_square _ _ _ _ OK) | apply (rep_3b _ _ _ _ OK)
  | apply (rep_zero _ _ _ _ OK) | apply (rep_one _ _ _ _ OK) | apply (rep_B _ _ _ _ OK) ].

Lemma proj_stands_on_curve p P : pstands p P -> on_curve b P.
Proof. destruct p. intros (X & Y & Z & _ & _ & _ & C & <-). now apply point_of_on_curve. Qed.
Lemma aff_stands_on_curve p P : astands p P -> on_curve b P.
Proof. destruct p. intros (X & Y & _ & _ & C & _). exact C. Qed.
Lemma proj_stands_unique p P Q : pstands p P -> pstands p Q -> P = Q.
Proof.
  destruct p. intros (X & Y & Z & RX & RY & RZ & _ & <-) (X' & Y' & Z' & RX' & RY' & RZ' & _ & <-).
  rewrite (rep_unique _ _ _ _ OK _ _ _ RX RX'), (rep_unique _ _ _ _ OK _ _ _ RY RY'), (rep_unique _ _ _ _ OK _ _ _ RZ RZ').
  reflexivity.
Qed.
Lemma aff_stands_unique p P Q : astands p P -> astands p Q -> P = Q.
Proof.
  destruct p as [x y i]. intros (X & Y & RX & RY & _ & H) (X' & Y' & RX' & RY' & _ & H').
  destruct i; [destruct H as (_ & _ & ->), H' as (_ & _ & ->); reflexivity|]. subst.
  rewrite (rep_unique _ _ _ _ OK _ _ _ RX RX'), (rep_unique _ _ _ _ OK _ _ _ RY RY'). reflexivity.
Qed.

Theorem proj_identity_ok : pstands proj_identity Infinity.
Proof.
  exists 0, 1, 0. repeat split; try reps. 
  - ring.
  - intros (_ & H & _). revert H. apply f1_neq_0.
  - apply point_of_inf.
Qed.
Theorem aff_identity_ok : astands aff_identity Infinity.
Proof. exists 0, 1. repeat split; try reps. apply f1_neq_0. Qed.

Theorem proj_is_identity_ok p P : pstands p P -> (proj_is_identity p = true <-> P = Infinity).
Proof.
  destruct p. intros (X & Y & Z & _ & _ & RZ & _ & <-). cbn. rewrite (rep_is_zero _ _ _ _ OK _ _ RZ).
  unfold point_of. destruct (feqb Z 0); split; congruence.
Qed.
Theorem aff_is_identity_ok p P : astands p P -> (aff_is_identity p = true <-> P = Infinity).
Proof.
  destruct p as [x y i]. intros (X & Y & _ & _ & _ & H). cbn. destruct i; [tauto|]. subst. split; congruence.
Qed.

Theorem proj_neg_ok p P : pstands p P -> pstands (proj_neg p) (point_neg P).
Proof.
  destruct p as [x y z]. intros (X & Y & Z & RX & RY & RZ & [C N] & <-). exists X, (- Y), Z.
  repeat split; try reps.
  - rewrite <- C. ring.
  - intros (A & B & D). apply N. repeat split; [exact A| |exact D]. transitivity (- - Y); [ring|rewrite B; ring].
  - unfold point_of. destruct (feqb Z 0) eqn:E; [reflexivity|]. apply feqb_false in E. cbn. f_equal. field. exact E.
Qed.
Theorem aff_neg_ok p P : astands p P -> astands (aff_neg p) (point_neg P).
Proof.
  destruct p as [x y i]. intros (X & Y & RX & RY & C & H). cbn. destruct i; cbn.
  - destruct H as (-> & HY & ->). exists 0, 1. repeat split; try reps. apply f1_neq_0.
  - subst. exists X, (- Y). repeat split; try reps. cbn in *. rewrite <- C. ring.
Qed.

Theorem proj_from_aff_ok p P : astands p P -> pstands (proj_from_aff p) P.
Proof.
  destruct p as [x y i]. intros (X & Y & RX & RY & C & H). cbn. destruct i; cbn.
  - destruct H as (-> & HY & ->). exists 0, Y, 0. split; [reps|]. split; [reps|]. split; [reps|].
    split; [now apply projective_inf_of|apply point_of_inf].
  - subst. exists X, Y, 1. split; [reps|]. split; [reps|]. split; [reps|]. cbn in C. split.
    + split; [rewrite C; ring|]. intros (_ & _ & A). revert A. apply f1_neq_0.
    + unfold point_of. rewrite (proj2 (feqb_false 1 0)) by apply f1_neq_0. f_equal; field; apply f1_neq_0.
Qed.
Theorem aff_from_proj_ok p P : pstands p P -> astands (aff_from_proj p) P.
Proof.
  destruct p as [x y z]. intros (X & Y & Z & RX & RY & RZ & C & <-).
  pose proof (point_of_on_curve b X Y Z C) as O.
  unfold aff_from_proj. pose proof (rep_invert _ _ _ _ OK z Z RZ) as I. cbv zeta.
  destruct (fo_invert z) as [t|].
  - destruct I as [NZ R]. rewrite (rep_is_zero _ _ _ _ OK _ _ R).
    assert (NI : finv Z <> 0).
    { intros H. apply (@f1_neq_0 K). transitivity (Z * finv Z); [field; exact NZ|rewrite H; ring]. }
    rewrite (proj2 (feqb_false _ _)) by exact NI. cbn [select].
    exists (X * finv Z), (Y * finv Z). split; [reps|]. split; [reps|]. split; [exact O|].
    unfold point_of. rewrite (proj2 (feqb_false _ _)) by exact NZ. f_equal; field; exact NZ.
  - subst Z. rewrite (rep_is_zero _ _ _ _ OK _ _ (rep_zero _ _ _ _ OK)), feqb_refl. cbn [select].
    rewrite point_of_inf. apply aff_identity_ok.
Qed.

Theorem proj_add_ok p q P Q : pstands p P -> pstands q Q -> pstands (proj_add p q) (point_add P Q).
Proof.
  destruct p as [x1 y1 z1], q as [x2 y2 z2].
  intros (X1 & Y1 & Z1 & RX1 & RY1 & RZ1 & C1 & <-) (X2 & Y2 & Z2 & RX2 & RY2 & RZ2 & C2 & <-).
  destruct (complete_ok b H2 NoTwo _ _ _ _ _ _ C1 C2) as [C S].
  unfold proj_add. cbv zeta.
  exists (cx b X1 Y1 Z1 X2 Y2 Z2), (cy b X1 Y1 Z1 X2 Y2 Z2), (cz b X1 Y1 Z1 X2 Y2 Z2).
  split; [|split; [|split; [|split; [exact C|exact S]]]].
  - eapply rep_to; [|reps]. unfold cx, b3, three. ring.
  - eapply rep_to; [|reps]. unfold cy, b3, three. ring.
  - eapply rep_to; [|reps]. unfold cz, b3, three. ring.
Qed.

Theorem proj_double_ok p P : pstands p P -> pstands (proj_double p) (point_add P P).
Proof.
  destruct p as [x y z]. intros (X & Y & Z & RX & RY & RZ & C & <-).
  unfold proj_double, proj_is_identity. cbv zeta. rewrite (rep_is_zero _ _ _ _ OK _ _ RZ).
  destruct (feqb Z 0) eqn:E; cbn [select].
  - apply feqb_spec in E. subst Z. rewrite point_of_inf. apply proj_identity_ok.
  - destruct (complete_ok b H2 NoTwo _ _ _ _ _ _ C C) as [C' S].
    assert (EC : X * X * X = Y * Y * Z - b * (Z * Z * Z)) by (destruct C as [C _]; rewrite C; ring).
    exists (cx b X Y Z X Y Z), (cy b X Y Z X Y Z), (cz b X Y Z X Y Z).
    split; [|split; [|split; [|split; [exact C'|exact S]]]].
    + eapply rep_to; [|reps]. unfold cx, b3, three. ring.
    + eapply rep_to; [|reps]. unfold cy, b3, three. ring [EC].
    + eapply rep_to; [|reps]. unfold cz, b3, three. ring [EC].
Qed.

Theorem proj_add_mixed_ok p q P Q : pstands p P -> astands q Q -> pstands (proj_add_mixed p q) (point_add P Q).
Proof.
  destruct p as [x1 y1 z1], q as [x2 y2 i].
  intros HP HQ. destruct HQ as (X2 & Y2 & RX2 & RY2 & C2 & H).
  unfold proj_add_mixed, aff_is_identity. cbv zeta. destruct i; cbn [select].
  - destruct H as (_ & _ & ->). rewrite point_add_0_r. exact HP.
  - subst Q. destruct HP as (X1 & Y1 & Z1 & RX1 & RY1 & RZ1 & C1 & <-).
    destruct (complete_ok b H2 NoTwo _ _ _ _ _ _ C1 (projective_pt b (Affine X2 Y2) C2)) as [C S].
    rewrite point_of_pt in S. cbn [px py pz] in *.
    exists (cx b X1 Y1 Z1 X2 Y2 1), (cy b X1 Y1 Z1 X2 Y2 1), (cz b X1 Y1 Z1 X2 Y2 1).
    split; [|split; [|split; [|split; [exact C|exact S]]]].
    + eapply rep_to; [|reps]. unfold cx, b3, three. ring.
    + eapply rep_to; [|reps]. unfold cy, b3, three. ring.
    + eapply rep_to; [|reps]. unfold cz, b3, three. ring.
Qed.

Theorem proj_sub_ok p q P Q : pstands p P -> pstands q Q -> pstands (proj_sub p q) (point_add P (point_neg Q)).
Proof. intros. apply proj_add_ok; auto using proj_neg_ok. Qed.
Theorem proj_sub_mixed_ok p q P Q : pstands p P -> astands q Q -> pstands (proj_sub_mixed p q) (point_add P (point_neg Q)).
Proof. intros. apply proj_add_mixed_ok; auto using aff_neg_ok. Qed.

Lemma frac_eq (x z x' z' : K) : z <> 0 -> z' <> 0 -> (x / z = x' / z' <-> x * z' = x' * z).
Proof.
  intros A B. split; intros H.
  - transitivity ((x / z) * (z * z')); [field; exact A|]. rewrite H. field. exact B.
  - transitivity ((x * z') / (z * z')); [field; auto|]. rewrite H. field; auto.
Qed.
Theorem proj_eq_ok p q P Q : pstands p P -> pstands q Q -> (proj_eq p q = true <-> P = Q).
Proof.
  destruct p as [x1 y1 z1], q as [x2 y2 z2].
  intros (X1 & Y1 & Z1 & RX1 & RY1 & RZ1 & C1 & <-) (X2 & Y2 & Z2 & RX2 & RY2 & RZ2 & C2 & <-).
  unfold proj_eq. cbv zeta. rewrite (rep_is_zero _ _ _ _ OK _ _ RZ1), (rep_is_zero _ _ _ _ OK _ _ RZ2).
  rewrite (rep_eq _ _ _ _ OK _ _ (X1 * Z2) (X2 * Z1)) by reps.
  rewrite (rep_eq _ _ _ _ OK _ _ (Y1 * Z2) (Y2 * Z1)) by reps.
  unfold point_of. destruct (feqb Z1 0) eqn:E1, (feqb Z2 0) eqn:E2; cbn; try (split; congruence).
  apply feqb_false in E1, E2. rewrite andb_true_iff, !feqb_spec. split.
  - intros [A B]. f_equal; now apply frac_eq.
  - intros H. injection H as A B. split; now apply frac_eq.
Qed.
Theorem aff_eq_ok p q P Q : astands p P -> astands q Q -> (aff_eq p q = true <-> P = Q).
Proof.
  destruct p as [x1 y1 i1], q as [x2 y2 i2].
  intros (X1 & Y1 & RX1 & RY1 & C1 & D1) (X2 & Y2 & RX2 & RY2 & C2 & D2).
  unfold aff_eq. rewrite (rep_eq _ _ _ _ OK _ _ _ _ RX1 RX2), (rep_eq _ _ _ _ OK _ _ _ _ RY1 RY2).
  destruct i1, i2; cbn.
  - destruct D1 as (_ & _ & ->), D2 as (_ & _ & ->). tauto.
  - destruct D1 as (_ & _ & ->). subst. split; congruence.
  - destruct D2 as (_ & _ & ->). subst. split; congruence.
  - subst. rewrite andb_true_iff, !feqb_spec. split; [intros [-> ->]; reflexivity|intros H; injection H; auto].
Qed.

(** the curve test; on homogeneous coordinates with z = 0 the answer is always yes *)
Theorem aff_is_on_curve_ok x y i X Y : rep x X -> rep y Y ->
  (aff_is_on_curve (Aff x y i) = true <-> i = true \/ on_curve b (Affine X Y)).
Proof.
  intros RX RY. cbn. rewrite (rep_eq _ _ _ _ OK _ _ (Y * Y - X * X * X) b) by reps.
  rewrite orb_true_iff, feqb_spec.
  assert (H : Y * Y - X * X * X = b <-> Y * Y = X * X * X + b).
  { split; intros H; [rewrite <- H; ring|rewrite H; ring]. }
  rewrite H. tauto.
Qed.
Theorem proj_is_on_curve_ok x y z X Y Z : rep x X -> rep y Y -> rep z Z ->
  (proj_is_on_curve (Proj x y z) = true <-> Z = 0 \/ projective b X Y Z).
Proof.
  intros RX RY RZ. cbn. rewrite (rep_is_zero _ _ _ _ OK _ _ RZ).
  rewrite (rep_eq _ _ _ _ OK _ _ (Y * Y * Z) (X * X * X + Z * Z * Z * b)) by reps.
  rewrite orb_true_iff, !feqb_spec. unfold projective.
  destruct (fdec Z 0) as [E|E]; [tauto|]. split; (intros [H|H]; [|try tauto]).
  - right. split; [rewrite H; ring|tauto].
  - tauto.
  - left. destruct H as [H _]. rewrite H. ring.
Qed.

(** ** sums *)
Lemma fold_add_ok l : forall L p P, Forall2 pstands l L -> pstands p P ->
  pstands (fold_left proj_add l p) (fold_left point_add L P).
Proof.
  induction l; intros L p P H HP; inversion H; subst; cbn; [exact HP|].
  apply IHl; [assumption|]. now apply proj_add_ok.
Qed.
Theorem proj_sum_ok l L : Forall2 pstands l L -> pstands (proj_sum l) (fold_left point_add L Infinity).
Proof. intros H. apply fold_add_ok; [exact H|apply proj_identity_ok]. Qed.
End Code.
