(** * Proof_Bilin: Miller's function is bilinear after the final power

    Two curves over the fields [k1] and [k2] with embeddings of their coordinates into [K].  [G2 A B P] is the value
    at a point of the first curve of the line through two points of the second one, and [G1 P Q A] vice versa. *)
From Coq Require Import ZArith List Bool Lia Ring Field.
From Verif Require Import Base Fld Spec_Curve Proof_Curve Proof_CurveMul Power Spec_Pair Proof_Lines Proof_Side.
Import ListNotations.

Record side_ok {k K : fld} (bk : k) (b : K) (ex ey em : k -> K) : Prop := {
  s_H2 : (fadd f1 f1 : k) <> f0;
  s_NoTwo : forall x : k, fadd (fmul (fmul x x) x) bk <> f0;
  s_H2K : (fadd f1 f1 : K) <> f0;
  s_ey_neg : forall y, ey (fneg y) = fneg (ey y);
  s_em_neg : forall y, em (fneg y) = fneg (em y);
  s_ecol : forall m c x1 y1 x2 y2 x3 y3, col bk m c x1 y1 x2 y2 x3 y3 ->
    col b (em m) (ey c) (ex x1) (ey y1) (ex x2) (ey y2) (ex x3) (ey y3);
  s_ex_inj : forall x x', ex x = ex x' -> x = x';
  s_ey_nz : forall y, y <> f0 -> ey y <> f0 }.
Record chi_ok {K : fld} (chi : K -> K) (small : K -> Prop) : Prop := {
  c_mul : forall x y, chi (fmul x y) = fmul (chi x) (chi y);
  c_small_mul : forall x y, small x -> small y -> small (fmul x y);
  c_small_m1 : small (fneg f1);
  c_small : forall u, small u -> u <> f0 -> chi u = f1 }.

Section Bilin.
Context {k1 k2 K : fld} (b1 : k1) (b2 : k2) (b : K).
Context (x1 y1 m1 : k1 -> K) (x2 y2 m2 : k2 -> K) (chi : K -> K) (small : K -> Prop).
Context (S1 : side_ok b1 b x1 y1 m1) (S2 : side_ok b2 b x2 y2 m2) (X : chi_ok chi small).
Add Field Kbil : (fld_field K).
Add Field k1bil : (fld_field k1).
Add Field k2bil : (fld_field k2).
Local Open Scope fld_scope.
Notation G1 := (G y1 m1 chi).
Notation G2 := (G y2 m2 chi).
Definition e1 : point k1 -> point K := pmap x1 y1.
Definition e2 : point k2 -> point K := pmap x2 y2.
Hypothesis adm1 : forall P, on_curve b1 P -> adm b2 b x2 small (e1 P).
Hypothesis adm2 : forall A, on_curve b2 A -> adm b1 b x1 small (e2 A).
Let H21 := s_H2 _ _ _ _ _ S1. Let NT1 := s_NoTwo _ _ _ _ _ S1. Let H22 := s_H2 _ _ _ _ _ S2. Let NT2 := s_NoTwo _ _ _ _ _ S2.
Let AC2 := point_add_on_curve b2 H22 NT2. Let AC1 := point_add_on_curve b1 H21 NT1.
Lemma e1_neg P : e1 (point_neg P) = point_neg (e1 P).
Proof. destruct P as [|x y]; [reflexivity|]. unfold e1. cbn [pmap point_neg]. rewrite (s_ey_neg _ _ _ _ _ S1). reflexivity. Qed.
Lemma e2_neg P : e2 (point_neg P) = point_neg (e2 P).
Proof. destruct P as [|x y]; [reflexivity|]. unfold e2. cbn [pmap point_neg]. rewrite (s_ey_neg _ _ _ _ _ S2). reflexivity. Qed.
Lemma G2_norm A B P : on_curve b2 A -> on_curve b2 B -> on_curve b1 P -> G2 A B (e1 P) * G2 A B (e1 (point_neg P)) = 1.
Proof.
  intros CA CB CP. rewrite e1_neg. apply (G_norm b2 b H22 NT2 x2 y2 m2 (s_ecol _ _ _ _ _ S2) chi small (c_mul _ _ X) (c_small_mul _ _ X) (c_small_m1 _ _ X) (c_small _ _ X)); auto.
Qed.
Lemma G1_norm A B P : on_curve b1 A -> on_curve b1 B -> on_curve b2 P -> G1 A B (e2 P) * G1 A B (e2 (point_neg P)) = 1.
Proof.
  intros CA CB CP. rewrite e2_neg. apply (G_norm b1 b H21 NT1 x1 y1 m1 (s_ecol _ _ _ _ _ S1) chi small (c_mul _ _ X) (c_small_mul _ _ X) (c_small_m1 _ _ X) (c_small _ _ X)); auto.
Qed.
Lemma chin x : chi (- x) = chi x.
Proof. exact (chi_neg chi small (c_mul _ _ X) (c_small_m1 _ _ X) (c_small _ _ X) x). Qed.
(** the reciprocity law for two lines *)
Theorem reciprocity A B P Q : on_curve b2 A -> on_curve b2 B -> on_curve b1 P -> on_curve b1 Q ->
  G2 A B (e1 P) * G2 A B (e1 Q) * G1 P Q (e2 (point_add A B)) = G2 A B (e1 (point_add P Q)) * G1 P Q (e2 A) * G1 P Q (e2 B).
Proof.
  intros CA CB CP CQ. pose proof (AC2 A B CA CB) as CS. pose proof (AC1 P Q CP CQ) as CT.
  destruct P as [|xp yp].
  { rewrite !G_inf_l, point_add_0_l. change (e1 Infinity) with (@Infinity K). rewrite G_at_inf. ring. }
  destruct Q as [|xq yq].
  { rewrite !G_inf_r, point_add_0_r. change (e1 Infinity) with (@Infinity K). rewrite G_at_inf. ring. }
  set (P := Affine xp yp) in *. set (Q := Affine xq yq) in *.
  destruct (point_add P Q) as [|xt yt] eqn:ET.
  { rewrite !(G_opp y1 m1 chi P Q) by exact ET. change (e1 Infinity) with (@Infinity K). rewrite G_at_inf.
    assert (EQ : Q = point_neg P) by (apply (pt_neg_unique (b:=b1) H21 NT1); auto). rewrite EQ.
    rewrite (G2_norm A B P) by auto. ring. }
  destruct A as [|xa ya].
  { rewrite !G_inf_l, point_add_0_l. change (e2 Infinity) with (@Infinity K). rewrite G_at_inf. ring. }
  destruct B as [|xb yb].
  { rewrite !G_inf_r, point_add_0_r. change (e2 Infinity) with (@Infinity K). rewrite G_at_inf. ring. }
  set (A := Affine xa ya) in *. set (B := Affine xb yb) in *.
  destruct (point_add A B) as [|xs ys] eqn:ES.
  { rewrite !(G_opp y2 m2 chi A B) by exact ES. change (e2 Infinity) with (@Infinity K). rewrite G_at_inf.
    assert (EB : B = point_neg A) by (apply (pt_neg_unique (b:=b2) H22 NT2); auto). rewrite EB.
    transitivity (1 * (G1 P Q (e2 A) * G1 P Q (e2 (point_neg A)))); [|ring]. rewrite (G1_norm P Q A) by auto. ring. }
  destruct (G_expand b2 H22 NT2 y2 m2 chi _ _ _ _ _ _ CA CB ES) as (m & c & L & V). destruct (G_expand b1 H21 NT1 y1 m1 chi _ _ _ _ _ _ CP CQ ET) as (n & d & M & W).
  pose proof (line_reciprocity b _ _ _ _ _ _ _ _ _ _ _ _ _ _ _ _ (s_ecol _ _ _ _ _ S2 _ _ _ _ _ _ _ _ L) (s_ecol _ _ _ _ _ S1 _ _ _ _ _ _ _ _ M)) as R.
  pose proof (G2_norm A B (Affine xt yt) CA CB CT) as NT. pose proof (G1_norm P Q (Affine xs ys) CP CQ CS) as NS.
  unfold A, B, P, Q, e1, e2 in *. cbn [pmap point_neg] in *. rewrite !V in *. rewrite !W in *.
  apply (f_equal chi) in R. rewrite chin, !(c_mul _ _ X) in R.
  change (y1 yp - (m2 m * x1 xp + y2 c)) with (lval y2 m2 m c (x1 xp) (y1 yp)) in R. change (y1 yq - (m2 m * x1 xq + y2 c)) with (lval y2 m2 m c (x1 xq) (y1 yq)) in R.
  change (y1 (- yt) - (m2 m * x1 xt + y2 c)) with (lval y2 m2 m c (x1 xt) (y1 (- yt))) in R.
  change (y2 ya - (m1 n * x2 xa + y1 d)) with (lval y1 m1 n d (x2 xa) (y2 ya)) in R. change (y2 yb - (m1 n * x2 xb + y1 d)) with (lval y1 m1 n d (x2 xb) (y2 yb)) in R.
  change (y2 (- ys) - (m1 n * x2 xs + y1 d)) with (lval y1 m1 n d (x2 xs) (y2 (- ys))) in R.
  set (g1 := chi (lval y2 m2 m c (x1 xp) (y1 yp))) in *. set (g2 := chi (lval y2 m2 m c (x1 xq) (y1 yq))) in *. set (g3 := chi (lval y2 m2 m c (x1 xt) (y1 yt))) in *.
  set (g4 := chi (lval y2 m2 m c (x1 xt) (y1 (- yt)))) in *. set (h1 := chi (lval y1 m1 n d (x2 xa) (y2 ya))) in *. set (h2 := chi (lval y1 m1 n d (x2 xb) (y2 yb))) in *.
  set (h3 := chi (lval y1 m1 n d (x2 xs) (y2 ys))) in *. set (h4 := chi (lval y1 m1 n d (x2 xs) (y2 (- ys)))) in *.
  transitivity (g1 * g2 * h3 * (g3 * g4)); [rewrite NT; ring|]. transitivity (g1 * g2 * g4 * (g3 * h3)); [ring|]. rewrite R.
  transitivity (g3 * h1 * h2 * (h3 * h4)); [ring|]. rewrite NS. ring.
Qed.

(** ** Miller's function with divisor n(A) - (nA) - (n-1)(O) *)
Fixpoint M (n : nat) (A : point k2) (P : point K) : K :=
  match n with O => 1 | S n => M n A P * G2 (point_zmul (Z.of_nat n) A) A P end.
Let ZC n A := zmul_on_curve (b:=b2) H22 NT2 n A.
Lemma zmul_succ n A : on_curve b2 A -> point_zmul (Z.of_nat (S n)) A = point_add (point_zmul (Z.of_nat n) A) A.
Proof.
  intros C. rewrite Nat2Z.inj_succ, <- Z.add_1_r. rewrite (pt_zmul_add (b:=b2) H22 NT2) by exact C. rewrite (pt_zmul_1 (b:=b2)) by exact C. reflexivity.
Qed.
Let COC := G_cocycle b2 b H22 NT2 x2 y2 m2 (s_ey_neg _ _ _ _ _ S2) (s_ecol _ _ _ _ _ S2) chi small (c_mul _ _ X) (c_small_mul _ _ X) (c_small_m1 _ _ X) (c_small _ _ X) (s_em_neg _ _ _ _ _ S2)
  (s_H2K _ _ _ _ _ S2) (s_ex_inj _ _ _ _ _ S2) (s_ey_nz _ _ _ _ _ S2).
Let FOUR := G_four b2 b H22 NT2 x2 y2 m2 (s_ey_neg _ _ _ _ _ S2) (s_ecol _ _ _ _ _ S2) chi small (c_mul _ _ X) (c_small_mul _ _ X) (c_small_m1 _ _ X) (c_small _ _ X) (s_em_neg _ _ _ _ _ S2)
  (s_H2K _ _ _ _ _ S2) (s_ex_inj _ _ _ _ _ S2) (s_ey_nz _ _ _ _ _ S2).
Theorem M_add a c A P : on_curve b2 A -> on_curve b1 P ->
  M (a + c) A (e1 P) = M a A (e1 P) * M c A (e1 P) * G2 (point_zmul (Z.of_nat a) A) (point_zmul (Z.of_nat c) A) (e1 P).
Proof.
  intros C CP. induction c as [|c IH].
  - rewrite Nat.add_0_r. cbn [M]. change (point_zmul (Z.of_nat 0) A) with (@Infinity k2). rewrite G_inf_r. ring.
  - rewrite Nat.add_succ_r. cbn [M]. rewrite IH. rewrite zmul_succ by exact C.
    pose proof (COC (point_zmul (Z.of_nat a) A) (point_zmul (Z.of_nat c) A) A (e1 P) (ZC _ _ C) (ZC _ _ C) C (adm1 P CP)) as E.
    rewrite Nat2Z.inj_add, (pt_zmul_add (b:=b2) H22 NT2) by exact C.
    transitivity (M a A (e1 P) * M c A (e1 P) * (G2 (point_zmul (Z.of_nat a) A) (point_zmul (Z.of_nat c) A) (e1 P) * G2 (point_add (point_zmul (Z.of_nat a) A) (point_zmul (Z.of_nat c) A)) A (e1 P))); [ring|].
    rewrite E. ring.
Qed.
Theorem M_linear_P n A P Q : on_curve b2 A -> on_curve b1 P -> on_curve b1 Q ->
  M n A (e1 (point_add P Q)) * G1 P Q (e2 A) ^ n = M n A (e1 P) * M n A (e1 Q) * G1 P Q (e2 (point_zmul (Z.of_nat n) A)).
Proof.
  intros CA CP CQ. induction n as [|n IH].
  - cbn [M fpow]. change (e2 (point_zmul (Z.of_nat 0) A)) with (@Infinity K). rewrite G_at_inf. ring.
  - rewrite zmul_succ by exact CA. cbn [M]. rewrite fpow_S. pose proof (reciprocity (point_zmul (Z.of_nat n) A) A P Q (ZC _ _ CA) CA CP CQ) as R.
    transitivity (M n A (e1 (point_add P Q)) * G1 P Q (e2 A) ^ n * (G2 (point_zmul (Z.of_nat n) A) A (e1 (point_add P Q)) * G1 P Q (e2 A))); [ring|]. rewrite IH.
    transitivity (M n A (e1 P) * M n A (e1 Q) * (G2 (point_zmul (Z.of_nat n) A) A (e1 (point_add P Q)) * G1 P Q (e2 (point_zmul (Z.of_nat n) A)) * G1 P Q (e2 A))); [ring|].
    rewrite <- R. ring.
Qed.
Theorem M_linear_A n A B P : on_curve b2 A -> on_curve b2 B -> on_curve b1 P ->
  M n (point_add A B) (e1 P) * G2 A B (e1 P) ^ n = M n A (e1 P) * M n B (e1 P) * G2 (point_zmul (Z.of_nat n) A) (point_zmul (Z.of_nat n) B) (e1 P).
Proof.
  intros CA CB CP. induction n as [|n IH].
  - cbn [M fpow]. change (point_zmul (Z.of_nat 0) A) with (@Infinity k2). rewrite G_inf_l. ring.
  - rewrite !zmul_succ by assumption. cbn [M]. rewrite fpow_S, (pt_zmul_add_r (b:=b2) H22 NT2) by assumption.
    pose proof (FOUR (point_zmul (Z.of_nat n) A) (point_zmul (Z.of_nat n) B) A B (e1 P) (ZC _ _ CA) (ZC _ _ CB) CA CB (adm1 P CP)) as F.
    transitivity (M n (point_add A B) (e1 P) * G2 A B (e1 P) ^ n * (G2 A B (e1 P) * G2 (point_add (point_zmul (Z.of_nat n) A) (point_zmul (Z.of_nat n) B)) (point_add A B) (e1 P))); [ring|].
    rewrite IH.
    transitivity (M n A (e1 P) * M n B (e1 P) * (G2 (point_zmul (Z.of_nat n) A) (point_zmul (Z.of_nat n) B) (e1 P) * G2 A B (e1 P) * G2 (point_add (point_zmul (Z.of_nat n) A) (point_zmul (Z.of_nat n) B)) (point_add A B) (e1 P))); [ring|].
    rewrite F. ring.
Qed.

(** ** the Frobenius map *)
Context (fr : K -> K) (pp rr : Z) (sx sy sm : k2 -> k2) (n : nat).
Hypothesis fr_mul : forall x y, fr (x * y) = fr x * fr y.
Hypothesis fr_sub : forall x y, fr (x - y) = fr x - fr y.
Hypothesis fr_add : forall x y, fr (x + y) = fr x + fr y.
Hypothesis fr_chi : forall x, chi (fr x) = zpow (chi x) pp.
Hypothesis fr_1 : forall x, fr (x1 x) = x1 x /\ fr (y1 x) = y1 x /\ fr (m1 x) = m1 x.
Hypothesis fr_2 : forall x, fr (x2 x) = x2 (sx x) /\ fr (y2 x) = y2 (sy x) /\ fr (m2 x) = m2 (sm x).
Definition psi : point k2 -> point k2 := pmap sx sy.
Hypothesis sy_neg : forall y, sy (- y) = - sy y.
Hypothesis scol : forall m c xa ya xb yb xs ys, col b2 m c xa ya xb yb xs ys -> col b2 (sm m) (sy c) (sx xa) (sy ya) (sx xb) (sy yb) (sx xs) (sy ys).
Hypothesis psi_on : forall A, on_curve b2 A -> on_curve b2 (psi A).
Hypothesis psi_add : forall A B, on_curve b2 A -> on_curve b2 B -> psi (point_add A B) = point_add (psi A) (psi B).
Hypothesis rr_chi : forall x, chi x <> 0 -> zpow (chi x) rr = 1.
Hypothesis rr_div : (rr | Z.of_nat n + pp)%Z.
Lemma G1_frob P Q A : on_curve b1 P -> on_curve b1 Q -> on_curve b2 A -> G1 P Q (e2 (psi A)) = zpow (G1 P Q (e2 A)) pp.
Proof.
  intros CP CQ CA. destruct (point_add P Q) as [|xt yt] eqn:ET; [rewrite !(G_opp y1 m1 chi P Q) by exact ET; symmetry; apply zpow_1_l|].
  destruct P as [|xp yp]; [rewrite !G_inf_l; symmetry; apply zpow_1_l|]. destruct Q as [|xq yq]; [rewrite !G_inf_r; symmetry; apply zpow_1_l|].
  destruct A as [|xa ya]; [change (e2 (psi Infinity)) with (@Infinity K); change (e2 Infinity) with (@Infinity K); rewrite G_at_inf; symmetry; apply zpow_1_l|].
  destruct (G_expand b1 H21 NT1 y1 m1 chi _ _ _ _ _ _ CP CQ ET) as (m & c & L & V). unfold e2, psi. cbn [pmap]. rewrite !V. rewrite <- fr_chi. f_equal. unfold lval.
  rewrite fr_sub, fr_add, fr_mul. destruct (fr_1 m) as (_ & _ & ->). destruct (fr_1 c) as (_ & -> & _).
  destruct (fr_2 xa) as (-> & _). destruct (fr_2 ya) as (_ & -> & _). reflexivity.
Qed.
Lemma G2_frob A B P : on_curve b2 A -> on_curve b2 B -> on_curve b1 P -> G2 (psi A) (psi B) (e1 P) = zpow (G2 A B (e1 P)) pp.
Proof.
  intros CA CB CP. pose proof (psi_add A B CA CB) as PA. pose proof (psi_on A CA) as CA'.
  destruct (point_add A B) as [|xs ys] eqn:ES; [rewrite !G_opp; [symmetry; apply zpow_1_l|exact ES|symmetry; exact PA]|].
  destruct A as [|xa ya]; [change (psi Infinity) with (@Infinity k2); rewrite !G_inf_l; symmetry; apply zpow_1_l|].
  destruct B as [|xb yb]; [change (psi Infinity) with (@Infinity k2); rewrite !G_inf_r; symmetry; apply zpow_1_l|].
  destruct P as [|xp yp]; [change (e1 Infinity) with (@Infinity K); rewrite !G_at_inf; symmetry; apply zpow_1_l|].
  destruct (G_expand b2 H22 NT2 y2 m2 chi _ _ _ _ _ _ CA CB ES) as (m & c & L & V). unfold e1. cbn [pmap]. rewrite V.
  pose proof (scol _ _ _ _ _ _ _ _ L) as L'. rewrite sy_neg in L'. unfold psi in *. cbn [pmap] in *.
  destruct (G_line b2 H22 NT2 y2 m2 chi _ _ _ _ _ _ _ _ (x1 xp) (y1 yp) L' CA' (not_opp _ _ _ _ _ _ (eq_sym PA))) as [_ ->].
  rewrite <- fr_chi. f_equal. unfold lval. rewrite fr_sub, fr_add, fr_mul. destruct (fr_1 xp) as (-> & _). destruct (fr_1 yp) as (_ & -> & _).
  destruct (fr_2 m) as (_ & _ & ->). destruct (fr_2 c) as (_ & -> & _). reflexivity.
Qed.
Lemma psi_neg A : psi (point_neg A) = point_neg (psi A).
Proof. destruct A as [|x y]; [reflexivity|]. unfold psi. cbn [pmap point_neg]. rewrite sy_neg. reflexivity. Qed.
Lemma one_nz : (1 : K) <> 0. Proof. exact (@f1_neq_0 K). Qed.
Lemma factor_nz (x y : K) : x * y = 1 -> x <> 0.
Proof. intros E Z. apply one_nz. rewrite <- E, Z. ring. Qed.
Lemma root_total (x : K) : x <> 0 -> zpow x rr = 1 -> x ^ n * zpow x pp = 1.
Proof.
  intros N E. rewrite <- zpow_of_nat. rewrite <- zpow_add by exact N. destruct rr_div as [q ->]. rewrite Z.mul_comm, zpow_mul by exact N. rewrite E. apply zpow_1_l.
Qed.
Lemma G_values y m A B (P : point K) : G (k:=k1) y m chi A B P = 1 \/ exists x, G y m chi A B P = chi x.
Proof.
  unfold G. destruct A as [|xa ya]; [left; reflexivity|]. destruct B as [|xb yb]; [left; reflexivity|]. destruct (point_add _ _) as [|? ?]; [left; reflexivity|].
  destruct P as [|? ?]; [left; reflexivity|]. right. eexists. reflexivity.
Qed.
Lemma G_values2 y m A B (P : point K) : G (k:=k2) y m chi A B P = 1 \/ exists x, G y m chi A B P = chi x.
Proof.
  unfold G. destruct A as [|xa ya]; [left; reflexivity|]. destruct B as [|xb yb]; [left; reflexivity|]. destruct (point_add _ _) as [|? ?]; [left; reflexivity|].
  destruct P as [|? ?]; [left; reflexivity|]. right. eexists. reflexivity.
Qed.
Lemma G1_root P Q A : on_curve b1 P -> on_curve b1 Q -> on_curve b2 A -> G1 P Q (e2 A) <> 0 /\ zpow (G1 P Q (e2 A)) rr = 1.
Proof.
  intros CP CQ CA. pose proof (factor_nz _ _ (G1_norm P Q A CP CQ CA)) as N. split; [exact N|].
  destruct (G_values y1 m1 P Q (e2 A)) as [E|[x E]]; rewrite E in *; [apply zpow_1_l|]. apply rr_chi, N.
Qed.
Lemma G2_root A B P : on_curve b2 A -> on_curve b2 B -> on_curve b1 P -> G2 A B (e1 P) <> 0 /\ zpow (G2 A B (e1 P)) rr = 1.
Proof.
  intros CA CB CP. pose proof (factor_nz _ _ (G2_norm A B P CA CB CP)) as N. split; [exact N|].
  destruct (G_values2 y2 m2 A B (e1 P)) as [E|[x E]]; rewrite E in *; [apply zpow_1_l|]. apply rr_chi, N.
Qed.
Definition eigen (A : point k2) : Prop := on_curve b2 A /\ point_zmul (Z.of_nat n) A = point_neg (psi A).
Theorem M_additive_P A P Q : eigen A -> on_curve b1 P -> on_curve b1 Q ->
  M n A (e1 (point_add P Q)) = M n A (e1 P) * M n A (e1 Q).
Proof.
  intros [CA EA] CP CQ. pose proof (M_linear_P n A P Q CA CP CQ) as L. rewrite EA in L.
  destruct (G1_root P Q A CP CQ CA) as [N R]. pose proof (root_total _ N R) as T.
  pose proof (G1_norm P Q (psi A) CP CQ (psi_on A CA)) as W. rewrite (G1_frob P Q A CP CQ CA) in W.
  set (h := G1 P Q (e2 A)) in *. set (g := G1 P Q (e2 (point_neg (psi A)))) in *.
  transitivity (M n A (e1 (point_add P Q)) * (h ^ n * zpow h pp)); [rewrite T; ring|].
  transitivity (M n A (e1 (point_add P Q)) * h ^ n * zpow h pp); [ring|]. rewrite L.
  transitivity (M n A (e1 P) * M n A (e1 Q) * (zpow h pp * g)); [ring|]. rewrite W. ring.
Qed.
Theorem M_additive_A A B P : eigen A -> eigen B -> on_curve b1 P ->
  M n (point_add A B) (e1 P) = M n A (e1 P) * M n B (e1 P).
Proof.
  intros [CA EA] [CB EB] CP. pose proof (M_linear_A n A B P CA CB CP) as L. rewrite EA, EB in L.
  destruct (G2_root A B P CA CB CP) as [N R]. pose proof (root_total _ N R) as T.
  pose proof (G2_norm (psi A) (psi B) P (psi_on A CA) (psi_on B CB) CP) as W. rewrite (G2_frob A B P CA CB CP) in W. rewrite e1_neg in W.
  rewrite <- (G_neg b2 H22 NT2 y2 m2 (s_ey_neg _ _ _ _ _ S2) chi small (c_mul _ _ X) (c_small_m1 _ _ X) (c_small _ _ X) (s_em_neg _ _ _ _ _ S2) _ _ _ (psi_on A CA) (psi_on B CB)) in W.
  set (h := G2 A B (e1 P)) in *. set (g := G2 (point_neg (psi A)) (point_neg (psi B)) (e1 P)) in *.
  transitivity (M n (point_add A B) (e1 P) * (h ^ n * zpow h pp)); [rewrite T; ring|].
  transitivity (M n (point_add A B) (e1 P) * h ^ n * zpow h pp); [ring|]. rewrite L.
  transitivity (M n A (e1 P) * M n B (e1 P) * (zpow h pp * g)); [ring|]. rewrite W. ring.
Qed.
End Bilin.
