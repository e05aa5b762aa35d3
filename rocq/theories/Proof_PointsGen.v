(** * Proof_PointsGen: Jacobian coordinates over any coordinate type *)
From Coq Require Import ZArith List Bool Lia Field.
From Verif Require Import Base Fld Zr Spec_Scalar Spec_Curve Proof_Curve Model_Curve Spec_CurveCode Proof_CurveCode Model_Scalar Model_Points Spec_Points.
Import ListNotations.

Section Field.
Context {K : fld} (b : K).
Local Open Scope fld_scope.
Add Field FK : (fld_field K).
Lemma jac_hom_x (X Z : K) : Z <> 0 -> X * Z / (Z * (Z * Z)) = X / (Z * Z).
Proof. intros N. field. exact N. Qed.
Lemma jac_hom_y (Y Z : K) : Z <> 0 -> Y / (Z * (Z * Z)) = Y / (Z * Z * Z).
Proof. intros N. field. exact N. Qed.
Lemma hom_jac_x (X Z : K) : Z <> 0 -> X / Z = X * Z / (Z * Z).
Proof. intros N. field. exact N. Qed.
Lemma hom_jac_y (Y Z : K) : Z <> 0 -> Y / Z = Y * (Z * Z) / (Z * Z * Z).
Proof. intros N. field. exact N. Qed.
Lemma jac_projective (X Y Z : K) : Z <> 0 -> on_curve b (Affine (X / (Z * Z)) (Y / (Z * Z * Z))) -> projective b (X * Z) Y (Z * (Z * Z)).
Proof.
  intros N C. cbn in C. split.
  - assert (E : Y * Y * (Z * (Z * Z)) = (Y / (Z * Z * Z) * (Y / (Z * Z * Z))) * ((Z * (Z * Z)) * ((Z * (Z * Z)) * (Z * (Z * Z))))) by (field; exact N).
    rewrite E, C. field. exact N.
  - intros (_ & _ & E). apply N. destruct (mul_zero _ _ E) as [G|G]; [exact G|]. destruct (mul_zero _ _ G); assumption.
Qed.
Lemma jac_x_back (X Z x : K) : Z <> 0 -> x = X / (Z * Z) -> x * (Z * Z) = X.
Proof. intros N E. rewrite E. field. exact N. Qed.
Lemma cube_nonzero (Z : K) : Z <> 0 -> Z * (Z * Z) <> 0.
Proof. intros N E. destruct (mul_zero _ _ E) as [G|G]; [exact (N G)|]. destruct (mul_zero _ _ G); contradiction. Qed.
Lemma div_one (X : K) : X / 1 = X.
Proof. field. apply f1_neq_0. Qed.
Lemma div_one_sq (X : K) : X / (1 * 1) = X / 1.
Proof. field. apply f1_neq_0. Qed.
Lemma div_one_cu (X : K) : X / (1 * 1 * 1) = X / 1.
Proof. field. apply f1_neq_0. Qed.
End Field.

Section Gen.
Context {F : fops} {K : fld} {b : K} {rep : F -> K -> Prop} (OK : fops_ok F K b rep).
Local Open Scope fld_scope.
Hypothesis H2 : (1 + 1 : K) <> 0.
Hypothesis NoTwo : forall x : K, x * x * x + b <> 0.
Notation jst := (jac_stands b rep).
Notation pst := (proj_stands b rep).

Lemma jac_on_curve x y z P : jst x y z P -> on_curve b P.
Proof. intros [C _]. exact C. Qed.
Lemma jac_unique x y z P Q : jst x y z P -> jst x y z Q -> P = Q.
Proof.
  intros (_ & X & Y & Z & RX & RY & RZ & A0 & A1) (_ & X' & Y' & Z' & RX' & RY' & RZ' & B0 & B1).
  rewrite <- (rep_unique _ _ _ _ OK _ _ _ RX RX') in *. rewrite <- (rep_unique _ _ _ _ OK _ _ _ RY RY') in *. rewrite <- (rep_unique _ _ _ _ OK _ _ _ RZ RZ') in *.
  destruct (feqb Z 0) eqn:E; [apply feqb_spec in E; rewrite (A0 E), (B0 E); reflexivity|].
  assert (N : Z <> 0) by (intros G; apply feqb_spec in G; congruence). rewrite (A1 N), (B1 N). reflexivity.
Qed.
Lemma jac_zero x y X Y : rep x X -> rep y Y -> jst x y fo_zero Infinity.
Proof.
  intros A B. split; [exact I|]. exists X, Y, 0. split; [exact A|]. split; [exact B|]. split; [exact (rep_zero _ _ _ _ OK)|].
  split; [reflexivity|]. intros G. contradiction G. reflexivity.
Qed.
Lemma jac_of_proj_one x y P : pst (Proj x y fo_one) P -> jst x y fo_one P.
Proof.
  intros (X & Y & Z & RX & RY & RZ & C & E). pose proof (rep_unique _ _ _ _ OK _ _ _ RZ (rep_one _ _ _ _ OK)) as EZ. subst Z.
  split; [rewrite <- E; apply point_of_on_curve; exact C|]. exists X, Y, 1. split; [exact RX|]. split; [exact RY|]. split; [exact RZ|].
  split; [intros G; exfalso; exact (f1_neq_0 G)|]. intros N. rewrite <- E. unfold point_of.
  destruct (feqb 1 0) eqn:G; [apply feqb_spec in G; contradiction|]. rewrite div_one_sq, div_one_cu. reflexivity.
Qed.
Lemma jac_of_affine x y X Y : rep x X -> rep y Y -> on_curve b (Affine X Y) -> jst x y fo_one (Affine X Y).
Proof.
  intros RX RY C. split; [exact C|]. exists X, Y, 1. split; [exact RX|]. split; [exact RY|]. split; [exact (rep_one _ _ _ _ OK)|].
  split; [intros G; exfalso; exact (f1_neq_0 G)|]. intros N. rewrite div_one_sq, div_one_cu, !div_one. reflexivity.
Qed.

(** a library: change to homogeneous coordinates, compute there, change back *)
Definition to_hom (x y z : F) : proj F := if fo_is_zero z then proj_identity else Proj (fo_mul x z) y (fo_mul z (fo_mul z z)).
Lemma to_hom_ok x y z P : jst x y z P -> pst (to_hom x y z) P.
Proof.
  intros (C & X & Y & Z & RX & RY & RZ & A0 & A1). unfold to_hom. rewrite (rep_is_zero _ _ _ _ OK _ _ RZ).
  destruct (feqb Z 0) eqn:E.
  - apply feqb_spec in E. rewrite (A0 E). exact (proj_identity_ok OK).
  - assert (N : Z <> 0) by (intros G; apply feqb_spec in G; congruence). specialize (A1 N). subst P.
    exists (X * Z), Y, (Z * (Z * Z)). split; [apply (rep_mul _ _ _ _ OK); assumption|]. split; [exact RY|].
    split; [apply (rep_mul _ _ _ _ OK); [exact RZ|apply (rep_mul _ _ _ _ OK); exact RZ]|].
    split; [apply jac_projective; assumption|]. unfold point_of.
    destruct (feqb (Z * (Z * Z)) 0) eqn:G; [apply feqb_spec in G; exfalso; exact (cube_nonzero _ N G)|].
    rewrite jac_hom_x, jac_hom_y by exact N. reflexivity.
Qed.
Definition of_hom (q : proj F) : F * F * F := let '(Proj x y z) := q in (fo_mul x z, fo_mul y (fo_mul z z), z).
Lemma of_hom_ok q P : pst q P -> let '(x, y, z) := of_hom q in jst x y z P.
Proof.
  destruct q as [x y z]. intros (X & Y & Z & RX & RY & RZ & C & E). cbn [of_hom].
  split; [rewrite <- E; apply point_of_on_curve; exact C|]. exists (X * Z), (Y * (Z * Z)), Z.
  split; [apply (rep_mul _ _ _ _ OK); assumption|]. split; [apply (rep_mul _ _ _ _ OK); [exact RY|apply (rep_mul _ _ _ _ OK); exact RZ]|].
  split; [exact RZ|]. rewrite <- E. unfold point_of. split; intros G.
  - rewrite G. rewrite (proj2 (feqb_spec K 0 0) eq_refl). reflexivity.
  - destruct (feqb Z 0) eqn:H; [apply feqb_spec in H; contradiction|]. rewrite <- hom_jac_x, <- hom_jac_y by exact G. reflexivity.
Qed.
Fixpoint hom_mul (n : nat) (q : proj F) : proj F := match n with O => proj_identity | S n => proj_add q (hom_mul n q) end.
Lemma hom_mul_ok n q P : pst q P -> pst (hom_mul n q) (point_mul n P).
Proof.
  intros H. induction n as [|n IH]; cbn [hom_mul point_mul]; [exact (proj_identity_ok OK)|]. exact (proj_add_ok OK H2 NoTwo _ _ _ _ H IH).
Qed.
Context {T : Type} (open : T -> F * F * F) (close : F * F * F -> T) (value : scalar -> nat).
Definition hom_of (a : T) : proj F := let '(x, y, z) := open a in to_hom x y z.
Definition close_hom (q : proj F) : T := close (of_hom q).
Definition hom_lib : point_lib T := PointLib T
  (fun a b => close_hom (proj_add (hom_of a) (hom_of b))) (fun a => close_hom (proj_double (hom_of a)))
  (fun a => close_hom (proj_neg (hom_of a))) (fun a b => close_hom (proj_sub (hom_of a) (hom_of b)))
  (fun a b => proj_eq (hom_of a) (hom_of b)) (fun a => proj_is_identity (hom_of a))
  (fun a s => close_hom (hom_mul (value s) (hom_of a))).
Context (stands : T -> point K -> Prop).
Hypothesis S1 : forall a P, stands a P -> let '(x, y, z) := open a in jst x y z P.
Hypothesis S2 : forall x y z P, jst x y z P -> stands (close (x, y, z)) P.
Lemma hom_of_ok a P : stands a P -> pst (hom_of a) P.
Proof. intros H. specialize (S1 _ _ H). unfold hom_of. destruct (open a) as [[x y] z]. exact (to_hom_ok _ _ _ _ S1). Qed.
Lemma close_hom_ok q P : pst q P -> stands (close_hom q) P.
Proof. intros H. apply of_hom_ok in H. unfold close_hom. destruct (of_hom q) as [[x y] z]. exact (S2 _ _ _ _ H). Qed.
Hypothesis VAL : forall s (x : Fr), represents s x -> Z.of_nat (value s) = val x.
Lemma zmul_mul n (P : point K) : point_zmul (Z.of_nat n) P = point_mul n P.
Proof.
  destruct n as [|n]; [reflexivity|]. cbn [Z.of_nat point_zmul]. induction n as [|n IH]; [reflexivity|].
  cbn [Pos.of_succ_nat]. rewrite Pos.iter_succ, IH. reflexivity.
Qed.
Theorem hom_lib_ok : lib_ok stands hom_lib.
Proof.
  split; cbn [hom_lib pl_add pl_double pl_neg pl_sub pl_equal pl_is_inf pl_mul].
  - intros a c A C HA HC. apply close_hom_ok. exact (proj_add_ok OK H2 NoTwo _ _ _ _ (hom_of_ok _ _ HA) (hom_of_ok _ _ HC)).
  - intros a A HA. apply close_hom_ok. exact (proj_double_ok OK H2 NoTwo _ _ (hom_of_ok _ _ HA)).
  - intros a A HA. apply close_hom_ok. exact (proj_neg_ok OK _ _ (hom_of_ok _ _ HA)).
  - intros a c A C HA HC. apply close_hom_ok. exact (proj_sub_ok OK H2 NoTwo _ _ _ _ (hom_of_ok _ _ HA) (hom_of_ok _ _ HC)).
  - intros a c A C HA HC. exact (proj_eq_ok OK _ _ _ _ (hom_of_ok _ _ HA) (hom_of_ok _ _ HC)).
  - intros a A HA. exact (proj_is_identity_ok OK _ _ (hom_of_ok _ _ HA)).
  - intros a s A x HA _ RX. apply close_hom_ok. rewrite <- (VAL _ _ RX), zmul_mul. exact (hom_mul_ok _ _ _ (hom_of_ok _ _ HA)).
Qed.
End Gen.

(** ** the methods of the crates, over any library *)
Section Methods.
Context {T : Type} {K : fld} (stands : T -> point K -> Prop) (L : point_lib T) (OK : lib_ok stands L).
Lemma fs_methods : methods_ok stands (fs_add_or_dbl L) (fs_dbl L) (fs_sub L) (fs_equals L).
Proof.
  split.
  - exact (ok_add _ _ OK).
  - exact (ok_double _ _ OK).
  - intros a b A B HA HB. exact (ok_add _ _ OK _ _ _ _ HA (ok_neg _ _ OK _ _ HB)).
  - exact (ok_equal _ _ OK).
Qed.
Lemma mcl_methods : methods_ok stands (mcl_add_or_dbl L) (mcl_dbl L) (mcl_sub L) (mcl_equals L).
Proof.
  split.
  - intros a b A B HA HB. unfold mcl_add_or_dbl, fst. destruct (pl_equal L a b) eqn:E.
    + rewrite <- (proj1 (ok_equal _ _ OK _ _ _ _ HA HB) E). exact (ok_double _ _ OK _ _ HA).
    + exact (ok_add _ _ OK _ _ _ _ HA HB).
  - exact (ok_double _ _ OK).
  - exact (ok_sub _ _ OK).
  - exact (ok_equal _ _ OK).
Qed.
Lemma ckzg_g2_methods : methods_ok stands (ckzg_g2_add_or_dbl L) (ckzg_dbl L) (ckzg_sub L) (ckzg_equals L).
Proof. split; [exact (ok_add _ _ OK)|exact (ok_double _ _ OK)|exact (ok_sub _ _ OK)|exact (ok_equal _ _ OK)]. Qed.
Lemma ckzg_g1_methods (C : forall a b A B, stands a A -> stands b B -> point_add B A = point_add A B) :
  methods_ok stands (ckzg_g1_add_or_dbl L) (ckzg_dbl L) (ckzg_sub L) (ckzg_equals L).
Proof.
  split; [|exact (ok_double _ _ OK)|exact (ok_sub _ _ OK)|exact (ok_equal _ _ OK)].
  intros a b A B HA HB. rewrite <- (C _ _ _ _ HA HB). exact (ok_add _ _ OK _ _ _ _ HB HA).
Qed.
End Methods.
