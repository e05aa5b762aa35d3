(** * Tower: quadratic and cubic extensions of a field

    The extension fields of the curve: [quad_fld d] adjoins a square root of the non-square [d],
    [cubic_fld xi] adjoins a cube root of the non-cube [xi].  Products are the schoolbook ones. *)
From Coq Require Import ZArith List Bool Ring Field.
From Verif Require Import Base Fld Power.
Import ListNotations.

Inductive quad (K : fld) := Quad (a0 a1 : K).
Arguments Quad {K}.
Inductive cubic (K : fld) := Cubic (a0 a1 a2 : K).
Arguments Cubic {K}.

Section Quad.
Context {K : fld}.
Add Field Kq : (fld_field K).
Local Open Scope fld_scope.
Definition q0 (x : quad K) : K := let '(Quad a _) := x in a.
Definition q1 (x : quad K) : K := let '(Quad _ a) := x in a.
Definition quad_add (x y : quad K) : quad K := Quad (q0 x + q0 y) (q1 x + q1 y).
Definition quad_sub (x y : quad K) : quad K := Quad (q0 x - q0 y) (q1 x - q1 y).
Definition quad_neg (x : quad K) : quad K := Quad (- q0 x) (- q1 x).
Definition quad_conj (x : quad K) : quad K := Quad (q0 x) (- q1 x).
Definition quad_eqb (x y : quad K) : bool := feqb (q0 x) (q0 y) && feqb (q1 x) (q1 y).
Definition quad_of (x : K) : quad K := Quad x 0.
Context (d : K).
Definition quad_mul (x y : quad K) : quad K := Quad (q0 x * q0 y + d * (q1 x * q1 y)) (q0 x * q1 y + q1 x * q0 y).
Definition quad_norm (x : quad K) : K := q0 x * q0 x - d * (q1 x * q1 x).
Definition quad_inv (x : quad K) : quad K := Quad (q0 x * finv (quad_norm x)) (- q1 x * finv (quad_norm x)).

Lemma quad_ring : ring_theory (Quad 0 0) (Quad 1 0) quad_add quad_mul quad_sub quad_neg eq.
Proof.
  constructor; intros; repeat match goal with x : quad K |- _ => destruct x end;
    unfold quad_add, quad_mul, quad_sub, quad_neg; cbn [q0 q1]; f_equal; ring.
Qed.
Lemma quad_eqb_spec x y : quad_eqb x y = true <-> x = y.
Proof.
  destruct x as [a b], y as [a' b']. unfold quad_eqb. cbn [q0 q1]. rewrite andb_true_iff, !feqb_spec. split.
  - intros [-> ->]. reflexivity.
  - intros H. split; [exact (f_equal q0 H)|exact (f_equal q1 H)].
Qed.
Lemma quad_norm_mul x y : quad_norm (quad_mul x y) = quad_norm x * quad_norm y.
Proof. unfold quad_norm, quad_mul. cbn [q0 q1]. ring. Qed.
Lemma quad_mul_conj x : quad_mul x (quad_conj x) = quad_of (quad_norm x).
Proof. unfold quad_norm, quad_mul, quad_conj, quad_of. cbn [q0 q1]. f_equal; ring. Qed.

(** [d] is not a square *)
Context (ND : forall x : K, x * x <> d).
Lemma quad_norm_0 x : quad_norm x = 0 -> x = Quad 0 0.
Proof.
  destruct x as [a b]. unfold quad_norm. cbn [q0 q1]. intros H. apply fsub_eq_0 in H.
  destruct (fdec b 0) as [->|N].
  - assert (E : a * a = 0) by (rewrite H; ring). apply fmul_eq_0 in E. assert (E' : a = 0) by (destruct E; assumption).
    rewrite E'. reflexivity.
  - exfalso. apply (ND (a * finv b)). transitivity (a * a * (finv b * finv b)); [ring|]. rewrite H. field. exact N.
Qed.
Lemma quad_inv_l x : x <> Quad 0 0 -> quad_mul (quad_inv x) x = Quad 1 0.
Proof.
  intros N. assert (NZ : quad_norm x <> 0) by (intros E; apply N, quad_norm_0, E).
  destruct x as [a b]. unfold quad_mul, quad_inv. cbn [q0 q1]. set (n := quad_norm (Quad a b)) in *.
  f_equal.
  - transitivity (finv n * n); [|apply finv_l; exact NZ]. unfold n at 4. unfold quad_norm. cbn [q0 q1]. ring.
  - ring.
Qed.
Lemma quad_field : field_theory (Quad 0 0) (Quad 1 0) quad_add quad_mul quad_sub quad_neg
  (fun x y => quad_mul x (quad_inv y)) quad_inv eq.
Proof.
  constructor.
  - exact quad_ring.
  - intros E. exact (f1_neq_0 (f_equal q0 E)).
  - reflexivity.
  - intros x N. apply quad_inv_l. exact N.
Qed.
Lemma quad_inv_0 : quad_inv (Quad 0 0) = Quad 0 0.
Proof. unfold quad_inv. cbn [q0 q1]. f_equal; ring. Qed.
Definition quad_fld : fld :=
  mkFld (quad K) (Quad 0 0) (Quad 1 0) quad_add quad_mul quad_sub quad_neg quad_inv quad_eqb
        quad_field quad_inv_0 quad_eqb_spec.

(** conjugation is multiplicative and additive *)
Lemma quad_conj_mul (x y : quad K) : quad_conj (quad_mul x y) = quad_mul (quad_conj x) (quad_conj y).
Proof. unfold quad_conj, quad_mul. cbn [q0 q1]. f_equal; ring. Qed.
Lemma quad_conj_add (x y : quad K) : quad_conj (quad_add x y) = quad_add (quad_conj x) (quad_conj y).
Proof. unfold quad_conj, quad_add. cbn [q0 q1]. f_equal; ring. Qed.
Lemma quad_conj_conj (x : quad K) : quad_conj (quad_conj x) = x.
Proof. destruct x. unfold quad_conj. cbn [q0 q1]. f_equal. ring. Qed.
Lemma quad_of_mul (x y : K) : quad_of (x * y) = quad_mul (quad_of x) (quad_of y).
Proof. unfold quad_of, quad_mul. cbn [q0 q1]. f_equal; ring. Qed.
Lemma quad_of_add (x y : K) : quad_of (x + y) = quad_add (quad_of x) (quad_of y).
Proof. unfold quad_of, quad_add. cbn [q0 q1]. f_equal; ring. Qed.
Lemma quad_of_pow (x : K) n : (quad_of x : quad_fld) ^ n = quad_of (x ^ n).
Proof.
  induction n as [|n IH]; [reflexivity|]. rewrite !fpow_S, IH. symmetry. exact (quad_of_mul _ _).
Qed.
Lemma quad_of_fnat n : (fnat n : quad_fld) = quad_of (fnat n).
Proof. induction n as [|n IH]; [reflexivity|]. cbn [fnat]. rewrite IH. symmetry. exact (quad_of_add _ _). Qed.
(** the adjoined root *)
Definition quad_root : quad_fld := Quad 0 1.
Lemma quad_root_square : (quad_root * quad_root : quad_fld) = quad_of d.
Proof. change (quad_mul (Quad 0 1) (Quad 0 1) = Quad d 0). unfold quad_mul. cbn [q0 q1]. f_equal; ring. Qed.
Lemma quad_split (a b : K) : Quad a b = @fadd quad_fld (quad_of a) (@fmul quad_fld quad_root (quad_of b)).
Proof.
  change (Quad a b = quad_add (quad_of a) (quad_mul (Quad 0 1) (quad_of b))).
  unfold quad_add, quad_mul, quad_of. cbn [q0 q1]. f_equal; ring.
Qed.
End Quad.

Section Cubic.
Context {K : fld}.
Add Field Kc : (fld_field K).
Local Open Scope fld_scope.
Definition k0 (x : cubic K) : K := let '(Cubic a _ _) := x in a.
Definition k1 (x : cubic K) : K := let '(Cubic _ a _) := x in a.
Definition k2 (x : cubic K) : K := let '(Cubic _ _ a) := x in a.
Definition cubic_add (x y : cubic K) : cubic K := Cubic (k0 x + k0 y) (k1 x + k1 y) (k2 x + k2 y).
Definition cubic_sub (x y : cubic K) : cubic K := Cubic (k0 x - k0 y) (k1 x - k1 y) (k2 x - k2 y).
Definition cubic_neg (x : cubic K) : cubic K := Cubic (- k0 x) (- k1 x) (- k2 x).
Definition cubic_eqb (x y : cubic K) : bool := feqb (k0 x) (k0 y) && feqb (k1 x) (k1 y) && feqb (k2 x) (k2 y).
Definition cubic_of (x : K) : cubic K := Cubic x 0 0.
Context (xi : K).
Definition cubic_mul (x y : cubic K) : cubic K :=
  Cubic (k0 x * k0 y + xi * (k1 x * k2 y + k2 x * k1 y))
        (k0 x * k1 y + k1 x * k0 y + xi * (k2 x * k2 y))
        (k0 x * k2 y + k1 x * k1 y + k2 x * k0 y).
(** the cofactors: x times its adjoint is the norm *)
Definition cubic_adj (x : cubic K) : cubic K :=
  Cubic (k0 x * k0 x - xi * (k1 x * k2 x)) (xi * (k2 x * k2 x) - k0 x * k1 x) (k1 x * k1 x - k0 x * k2 x).
Definition cubic_norm (x : cubic K) : K :=
  k0 x * k0 x * k0 x + xi * (k1 x * k1 x * k1 x) + xi * xi * (k2 x * k2 x * k2 x)
  - (1 + 1 + 1) * xi * (k0 x * k1 x * k2 x).
Definition cubic_inv (x : cubic K) : cubic K :=
  let t := finv (cubic_norm x) in let a := cubic_adj x in Cubic (t * k0 a) (t * k1 a) (t * k2 a).

Lemma cubic_ring : ring_theory (Cubic 0 0 0) (Cubic 1 0 0) cubic_add cubic_mul cubic_sub cubic_neg eq.
Proof.
  constructor; intros; repeat match goal with x : cubic K |- _ => destruct x end;
    unfold cubic_add, cubic_mul, cubic_sub, cubic_neg; cbn [k0 k1 k2]; f_equal; ring.
Qed.
Lemma cubic_eqb_spec x y : cubic_eqb x y = true <-> x = y.
Proof.
  destruct x as [a b c], y as [a' b' c']. unfold cubic_eqb. cbn [k0 k1 k2]. rewrite !andb_true_iff, !feqb_spec. split.
  - intros [[-> ->] ->]. reflexivity.
  - intros H. split; [split; [exact (f_equal k0 H)|exact (f_equal k1 H)]|exact (f_equal k2 H)].
Qed.
Lemma cubic_norm_mul x y : cubic_norm (cubic_mul x y) = cubic_norm x * cubic_norm y.
Proof. unfold cubic_norm, cubic_mul. cbn [k0 k1 k2]. ring. Qed.

(** [xi] is not a cube *)
Context (NX : forall x : K, x * x * x <> xi).
Lemma cubic_no_ratio a b c : b * b = a * c -> xi * (c * c) = a * b -> c = 0.
Proof.
  intros E1 E2. destruct (fdec c 0) as [|N]; [assumption|]. exfalso. apply (NX (b * finv c)).
  transitivity (b * b * b * (finv c * finv c * finv c)); [ring|].
  rewrite E1. transitivity (a * b * (finv c * finv c)); [field; exact N|]. rewrite <- E2. field. exact N.
Qed.
Lemma cubic_geometric a b c : b * b = a * c -> xi * (c * c) = a * b -> a * a = xi * (b * c) -> Cubic a b c = Cubic 0 0 0.
Proof.
  intros E1 E2 E3. pose proof (cubic_no_ratio _ _ _ E1 E2) as ->.
  assert (B : b = 0).
  { assert (E : b * b = 0) by (rewrite E1; ring). apply fmul_eq_0 in E. destruct E; assumption. }
  subst b. assert (A : a = 0).
  { assert (E : a * a = 0) by (rewrite E3; ring). apply fmul_eq_0 in E. destruct E; assumption. }
  rewrite A. reflexivity.
Qed.
Lemma cubic_norm_0 x : cubic_norm x = 0 -> x = Cubic 0 0 0.
Proof.
  intros H. destruct x as [a b c].
  assert (Z : cubic_adj (Cubic a b c) = Cubic 0 0 0).
  { unfold cubic_adj. cbn [k0 k1 k2]. unfold cubic_norm in H. cbn [k0 k1 k2] in H.
    apply cubic_geometric; apply fsub_eq_0.
    - match type of H with ?n = 0 => transitivity (c * n); [ring|rewrite H; ring] end.
    - match type of H with ?n = 0 => transitivity (b * n); [ring|rewrite H; ring] end.
    - match type of H with ?n = 0 => transitivity (a * n); [ring|rewrite H; ring] end. }
  unfold cubic_adj in Z. cbn [k0 k1 k2] in Z.
  apply cubic_geometric; apply fsub_eq_0.
  - exact (f_equal k2 Z).
  - exact (f_equal k1 Z).
  - exact (f_equal k0 Z).
Qed.
Lemma cubic_inv_l x : x <> Cubic 0 0 0 -> cubic_mul (cubic_inv x) x = Cubic 1 0 0.
Proof.
  intros N. assert (NZ : cubic_norm x <> 0) by (intros E; apply N, cubic_norm_0, E).
  destruct x as [a b c]. unfold cubic_mul, cubic_inv. cbv zeta. set (n := cubic_norm (Cubic a b c)) in *.
  unfold cubic_adj. cbn [k0 k1 k2].
  f_equal.
  - transitivity (finv n * n); [|apply finv_l; exact NZ].
    transitivity (finv n * cubic_norm (Cubic a b c)); [|reflexivity]. generalize (finv n). intros t. unfold cubic_norm. cbn [k0 k1 k2]. ring.
  - ring.
  - ring.
Qed.
Lemma cubic_field : field_theory (Cubic 0 0 0) (Cubic 1 0 0) cubic_add cubic_mul cubic_sub cubic_neg
  (fun x y => cubic_mul x (cubic_inv y)) cubic_inv eq.
Proof.
  constructor.
  - exact cubic_ring.
  - intros E. exact (f1_neq_0 (f_equal k0 E)).
  - reflexivity.
  - intros x N. apply cubic_inv_l. exact N.
Qed.
Lemma cubic_inv_0 : cubic_inv (Cubic 0 0 0) = Cubic 0 0 0.
Proof. unfold cubic_inv, cubic_adj. cbv zeta. cbn [k0 k1 k2]. f_equal; ring. Qed.
Definition cubic_fld : fld :=
  mkFld (cubic K) (Cubic 0 0 0) (Cubic 1 0 0) cubic_add cubic_mul cubic_sub cubic_neg cubic_inv cubic_eqb
        cubic_field cubic_inv_0 cubic_eqb_spec.
Lemma cubic_of_mul (x y : K) : cubic_of (x * y) = cubic_mul (cubic_of x) (cubic_of y).
Proof. unfold cubic_of, cubic_mul. cbn [k0 k1 k2]. f_equal; ring. Qed.
Lemma cubic_of_add (x y : K) : cubic_of (x + y) = cubic_add (cubic_of x) (cubic_of y).
Proof. unfold cubic_of, cubic_add. cbn [k0 k1 k2]. f_equal; ring. Qed.
Lemma cubic_of_pow (x : K) n : (cubic_of x : cubic_fld) ^ n = cubic_of (x ^ n).
Proof. induction n as [|n IH]; [reflexivity|]. rewrite !fpow_S, IH. symmetry. exact (cubic_of_mul _ _). Qed.
Lemma cubic_of_fnat n : (fnat n : cubic_fld) = cubic_of (fnat n).
Proof. induction n as [|n IH]; [reflexivity|]. cbn [fnat]. rewrite IH. symmetry. exact (cubic_of_add _ _). Qed.
Definition cubic_root : cubic_fld := Cubic 0 1 0.
Lemma cubic_root_cube : (cubic_root * cubic_root * cubic_root : cubic_fld) = cubic_of xi.
Proof.
  change (cubic_mul (cubic_mul (Cubic 0 1 0) (Cubic 0 1 0)) (Cubic 0 1 0) = Cubic xi 0 0).
  unfold cubic_mul. cbn [k0 k1 k2]. f_equal; ring.
Qed.
Lemma cubic_split (a b c : K) : Cubic a b c = @fadd cubic_fld (cubic_of a) (@fmul cubic_fld cubic_root (@fadd cubic_fld (cubic_of b) (@fmul cubic_fld cubic_root (cubic_of c)))).
Proof.
  change (Cubic a b c = cubic_add (cubic_of a) (cubic_mul (Cubic 0 1 0) (cubic_add (cubic_of b) (cubic_mul (Cubic 0 1 0) (cubic_of c))))).
  unfold cubic_add, cubic_mul, cubic_of. cbn [k0 k1 k2]. f_equal; ring.
Qed.
(** if [xi] is not a square, the adjoined root is not a square either *)
Lemma cubic_root_nonsquare : (forall x : K, x * x <> xi) -> forall x : cubic_fld, x * x <> cubic_root.
Proof.
  intros NS x E. apply (NS (cubic_norm x)). rewrite <- cubic_norm_mul.
  change (cubic_mul x x) with (fmul x x : cubic_fld). rewrite E.
  unfold cubic_norm, cubic_root. cbn [k0 k1 k2]. ring.
Qed.
End Cubic.
