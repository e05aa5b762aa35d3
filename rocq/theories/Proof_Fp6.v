(** * Proof_Fp6: the cubic step of the tower on machine words, over any field the quadratic step stands for *)
From Coq Require Import ZArith List Bool Lia Ring Field.
From Verif Require Import Base Fld Power Tower Model_Scalar Model_Fp Model_Fp2 Model_Fp12.
Import ListNotations.
Local Open Scope Z_scope.

Section Six.
Context {K : fld} (xi : K) (NX : forall x : K, fmul (fmul x x) x <> xi).
Add Field K6 : (fld_field K).
Local Open Scope fld_scope.
Context (rep2 : fp2 -> K -> Prop).
Hypothesis Runique : forall a x y, rep2 a x -> rep2 a y -> x = y.
Hypothesis Rinj : forall a b x, rep2 a x -> rep2 b x -> a = b.
Hypothesis Rzero : rep2 fp2_zero 0.
Hypothesis Rone : rep2 fp2_one 1.
Hypothesis Radd : forall a b x y, rep2 a x -> rep2 b y -> rep2 (fp2_add a b) (x + y).
Hypothesis Rsub : forall a b x y, rep2 a x -> rep2 b y -> rep2 (fp2_sub a b) (x - y).
Hypothesis Rneg : forall a x, rep2 a x -> rep2 (fp2_neg a) (- x).
Hypothesis Rmul : forall a b x y, rep2 a x -> rep2 b y -> rep2 (fp2_mul a b) (x * y).
Hypothesis Rsquare : forall a x, rep2 a x -> rep2 (fp2_square a) (x * x).
Hypothesis Rnonres : forall a x, rep2 a x -> rep2 (fp2_mul_by_nonresidue a) (xi * x).
Hypothesis Rselect : forall a b x y c, rep2 a x -> rep2 b y -> rep2 (fp2_select a b c) (if c then y else x).
Hypothesis Req : forall a b x y, rep2 a x -> rep2 b y -> fp2_eq a b = feqb x y.
Hypothesis Rzero_test : forall a x, rep2 a x -> fp2_is_zero a = feqb x 0.
Hypothesis Rinvert : forall a x, rep2 a x ->
  match fp2_invert a with None => x = 0 | Some t => x <> 0 /\ rep2 t (finv x) end.
Context (conj : K -> K).
Hypothesis Rfrob : forall a x, rep2 a x -> rep2 (fp2_frobenius_map a) (conj x).

Notation C := (cubic_fld xi NX).
Definition rep6 (a : fp6) (x : C) : Prop :=
  let '(FP6 a0 a1 a2) := a in rep2 a0 (k0 x) /\ rep2 a1 (k1 x) /\ rep2 a2 (k2 x).

Lemma R_to a x y : rep2 a x -> x = y -> rep2 a y. Proof. intros H <-. exact H. Qed.
Ltac rr := repeat first [eassumption | eapply Radd | eapply Rsub | eapply Rneg | eapply Rmul | eapply Rsquare | eapply Rnonres | exact Rzero | exact Rone].
Ltac coord := eapply R_to; [rr|]; cbn [k0 k1 k2]; try ring.

Lemma rep6_unique s x y : rep6 s x -> rep6 s y -> x = y.
Proof.
  destruct s as [s0 s1 s2], x as [x0 x1 x2], y as [y0 y1 y2]. cbn. intros (A & B & D) (A' & B' & D').
  now rewrite (Runique _ _ _ A A'), (Runique _ _ _ B B'), (Runique _ _ _ D D').
Qed.
Lemma rep6_inj s t x : rep6 s x -> rep6 t x -> s = t.
Proof.
  destruct s as [s0 s1 s2], x as [x0 x1 x2], t as [y0 y1 y2]. cbn. intros (A & B & D) (A' & B' & D').
  now rewrite (Rinj _ _ _ A A'), (Rinj _ _ _ B B'), (Rinj _ _ _ D D').
Qed.
Lemma rep6_zero : rep6 fp6_zero 0.
Proof. cbn. auto. Qed.
Lemma rep6_one : rep6 fp6_one 1.
Proof. cbn. auto. Qed.
Lemma rep6_of a x : rep2 a x -> rep6 (fp6_from_fp2 a) (cubic_of x).
Proof. cbn. auto. Qed.
Lemma rep6_add a b x y : rep6 a x -> rep6 b y -> rep6 (fp6_add a b) (x + y).
Proof.
  destruct a as [a0 a1 a2], b as [b0 b1 b2]. cbn. intros (A & B & D) (A' & B' & D'). split; [|split]; coord.
Qed.
Lemma rep6_sub a b x y : rep6 a x -> rep6 b y -> rep6 (fp6_sub a b) (x - y).
Proof.
  destruct a as [a0 a1 a2], b as [b0 b1 b2]. cbn. intros (A & B & D) (A' & B' & D'). split; [|split]; coord.
Qed.
Lemma rep6_neg a x : rep6 a x -> rep6 (fp6_neg a) (- x).
Proof. destruct a as [a0 a1 a2]. cbn. intros (A & B & D). split; [|split]; coord. Qed.
Lemma rep6_mul a b x y : rep6 a x -> rep6 b y -> rep6 (fp6_mul a b) (x * y).
Proof.
  destruct a as [a0 a1 a2], b as [b0 b1 b2]. cbn. intros (A & B & D) (A' & B' & D'). split; [|split]; coord.
Qed.
Lemma rep6_square a x : rep6 a x -> rep6 (fp6_square a) (x * x).
Proof. destruct a as [a0 a1 a2]. cbn. intros (A & B & D). split; [|split]; coord. Qed.
Lemma rep6_nonres a x : rep6 a x -> rep6 (fp6_mul_by_nonresidue a) (cubic_root xi NX * x).
Proof. destruct a as [a0 a1 a2]. cbn. intros (A & B & D). split; [|split]; coord. Qed.
Lemma rep6_mul_by_1 a x c z : rep6 a x -> rep2 c z -> rep6 (fp6_mul_by_1 a c) (x * (Cubic 0 z 0 : C)).
Proof. destruct a as [a0 a1 a2]. cbn. intros (A & B & D) Z. split; [|split]; coord. Qed.
Lemma rep6_mul_by_01 a x c d y z : rep6 a x -> rep2 c y -> rep2 d z -> rep6 (fp6_mul_by_01 a c d) (x * (Cubic y z 0 : C)).
Proof. destruct a as [a0 a1 a2]. cbn. intros (A & B & D) Y Z. split; [|split]; coord. Qed.
Lemma rep6_select a b x y c : rep6 a x -> rep6 b y -> rep6 (fp6_select a b c) (if c then y else x).
Proof.
  destruct a as [a0 a1 a2], b as [b0 b1 b2]. cbn. intros (A & B & D) (A' & B' & D').
  pose proof (Rselect _ _ _ _ c A A'). pose proof (Rselect _ _ _ _ c B B'). pose proof (Rselect _ _ _ _ c D D').
  destruct c; auto.
Qed.
Lemma rep6_eq a b x y : rep6 a x -> rep6 b y -> fp6_eq a b = feqb x y.
Proof.
  destruct a as [a0 a1 a2], b as [b0 b1 b2]. cbn. intros (A & B & D) (A' & B' & D').
  now rewrite (Req _ _ _ _ A A'), (Req _ _ _ _ B B'), (Req _ _ _ _ D D').
Qed.
Lemma rep6_is_zero a x : rep6 a x -> fp6_is_zero a = feqb x 0.
Proof.
  destruct a as [a0 a1 a2]. cbn. intros (A & B & D).
  now rewrite (Rzero_test _ _ A), (Rzero_test _ _ B), (Rzero_test _ _ D).
Qed.
Lemma norm_at_0 : cubic_norm xi (Cubic 0 0 0) = 0.
Proof. unfold cubic_norm. cbn [k0 k1 k2]. ring. Qed.
Lemma rep6_invert a x : rep6 a x ->
  match fp6_invert a with None => x = 0 | Some t => x <> 0 /\ rep6 t (finv x) end.
Proof.
  destruct a as [a0 a1 a2]. intros (A & B & D). unfold fp6_invert.
  set (c0 := fp2_sub (fp2_square a0) _). set (c1 := fp2_sub _ (fp2_mul a0 a1)). set (c2 := fp2_sub (fp2_square a1) _).
  assert (R0 : rep2 c0 (k0 (cubic_adj xi x))). { unfold c0, cubic_adj. coord. }
  assert (R1 : rep2 c1 (k1 (cubic_adj xi x))). { unfold c1, cubic_adj. coord. }
  assert (R2 : rep2 c2 (k2 (cubic_adj xi x))). { unfold c2, cubic_adj. coord. }
  clearbody c0 c1 c2.
  set (t := fp2_add _ (fp2_mul a0 c0)).
  assert (T : rep2 t (cubic_norm xi x)). { unfold t. eapply R_to; [rr|]. unfold cubic_adj, cubic_norm. cbn [k0 k1 k2]. ring. }
  clearbody t. pose proof (Rinvert _ _ T) as I. destruct (fp2_invert t) as [u|].
  - destruct I as [N U]. split.
    + intros ->. apply N. exact norm_at_0.
    + cbn -[cubic_adj cubic_norm]. unfold cubic_inv. cbn [k0 k1 k2]. split; [|split]; apply Rmul; assumption.
  - exact (cubic_norm_0 xi NX x I).
Qed.
Context (g2 g4 : K).
Hypothesis Rg2 : rep2 fp6_frobenius_c1 g2.
Hypothesis Rg4 : rep2 fp6_frobenius_c2 g4.
Lemma rep6_frobenius a x : rep6 a x -> rep6 (fp6_frobenius_map a) (Cubic (conj (k0 x)) (g2 * conj (k1 x)) (g4 * conj (k2 x))).
Proof.
  destruct a as [a0 a1 a2]. intros (A & B & D). unfold fp6_frobenius_map, rep6. cbn [k0 k1 k2].
  pose proof (Rfrob _ _ A). pose proof (Rfrob _ _ B). pose proof (Rfrob _ _ D). split; [|split]; [assumption| |]; coord.
Qed.
End Six.
