(** * Proof_PsiLin: combinations of a point and its images under an endomorphism with psi^4 - psi^2 + 1 = 0 *)
From Coq Require Import ZArith List Bool Lia.
From Verif Require Import Base Fld Spec_Curve Proof_Curve Proof_CurveMul Proof_Subgroups.
Local Open Scope Z_scope.

Section Lin.
Context {K : fld} {b : K}.
Hypothesis H2 : fadd f1 f1 <> (f0 : K).
Hypothesis NoTwo : forall x : K, fadd (fmul (fmul x x) x) b <> f0.
Context (psi : point K -> point K).
Hypothesis psi_on : forall P, on_curve b P -> on_curve b (psi P).
Hypothesis psi_add : forall P Q, on_curve b P -> psi (point_add P Q) = point_add (psi P) (psi Q).
Hypothesis psi_zmul : forall n P, on_curve b P -> psi (point_zmul n P) = point_zmul n (psi P).
Hypothesis psi_rel : forall P, on_curve b P -> psi (psi (psi (psi P))) = point_add (psi (psi P)) (point_neg P).
Let ZADD := pt_zmul_add (b:=b) H2 NoTwo.
Let ZADDR := pt_zmul_add_r (b:=b) H2 NoTwo.
Let ZMUL := pt_zmul_mul (b:=b) H2 NoTwo.
Let ZOPP := pt_zmul_opp (b:=b) H2 NoTwo.
Let ZON := zmul_on_curve (b:=b) H2 NoTwo.
Let ONE := pt_zmul_1 (b:=b).
Let A := point_add_assoc b H2 NoTwo.
Let C := point_add_comm b H2 NoTwo.
Let ON := point_add_on_curve b H2 NoTwo.
Let NON := point_neg_on_curve b.
Let SHUF := add_shuffle (b:=b) H2 NoTwo.
Local Notation ADD := (point_add (K:=K)).

Definition lin (a0 a1 a2 a3 : Z) (P : point K) : point K :=
  ADD (ADD (point_zmul a0 P) (point_zmul a1 (psi P))) (ADD (point_zmul a2 (psi (psi P))) (point_zmul a3 (psi (psi (psi P))))).
Ltac on := repeat first [assumption | apply ON | apply ZON | apply psi_on | apply NON | exact I].
Lemma lin_on a0 a1 a2 a3 P : on_curve b P -> on_curve b (lin a0 a1 a2 a3 P).
Proof. intros CP. unfold lin. on. Qed.
Lemma lin_add a0 a1 a2 a3 c0 c1 c2 c3 P : on_curve b P ->
  ADD (lin a0 a1 a2 a3 P) (lin c0 c1 c2 c3 P) = lin (a0 + c0) (a1 + c1) (a2 + c2) (a3 + c3) P.
Proof.
  intros CP. unfold lin. rewrite SHUF by on. rewrite !ZADD by on.
  rewrite (SHUF (point_zmul a0 P)) by on. rewrite (SHUF (point_zmul a2 _)) by on. reflexivity.
Qed.
Lemma lin_mul n a0 a1 a2 a3 P : on_curve b P -> point_zmul n (lin a0 a1 a2 a3 P) = lin (n * a0) (n * a1) (n * a2) (n * a3) P.
Proof. intros CP. unfold lin. rewrite !ZADDR by on. rewrite <- !ZMUL by on. reflexivity. Qed.
Lemma lin_hom a0 a1 a2 a3 P Q : on_curve b P -> on_curve b Q ->
  lin a0 a1 a2 a3 (ADD P Q) = ADD (lin a0 a1 a2 a3 P) (lin a0 a1 a2 a3 Q).
Proof.
  intros CP CQ. unfold lin. rewrite !psi_add by on. rewrite !ZADDR by on.
  rewrite (SHUF (point_zmul a0 P)) by on. rewrite (SHUF (point_zmul a2 _)) by on. rewrite SHUF by on. reflexivity.
Qed.
Lemma lin_zmul n a0 a1 a2 a3 P : on_curve b P -> lin a0 a1 a2 a3 (point_zmul n P) = point_zmul n (lin a0 a1 a2 a3 P).
Proof.
  intros CP. rewrite lin_mul by on. unfold lin. rewrite !psi_zmul by on. rewrite <- !ZMUL by on. rewrite !(Z.mul_comm n). reflexivity.
Qed.
Lemma five X1 X2 X3 X4 X5 : on_curve b X1 -> on_curve b X2 -> on_curve b X3 -> on_curve b X4 -> on_curve b X5 ->
  ADD (ADD X1 X2) (ADD X3 (ADD X4 X5)) = ADD (ADD X5 X1) (ADD (ADD X2 X4) X3).
Proof.
  intros. rewrite (A X3 X4 X5) by on. rewrite (C (ADD X3 X4) X5) by on. rewrite SHUF by on.
  rewrite (C X1 X5) by on. f_equal. rewrite (C X3 X4) by on. apply A; on.
Qed.
Lemma lin_psi a0 a1 a2 a3 P : on_curve b P -> psi (lin a0 a1 a2 a3 P) = lin (- a3) a0 (a1 + a3) a2 P.
Proof.
  intros CP. unfold lin. rewrite !psi_add by on. rewrite !psi_zmul by on. rewrite psi_rel by on.
  rewrite ZADDR by on. rewrite (pt_zmul_neg_r (b:=b) H2 NoTwo), <- ZOPP by on. rewrite ZADD by on.
  set (p1 := psi P). set (p2 := psi p1). set (p3 := psi p2).
  assert (C1 : on_curve b p1) by (unfold p1; on). assert (C2 : on_curve b p2) by (unfold p2; on). assert (C3 : on_curve b p3) by (unfold p3; on).
  clearbody p1 p2 p3.
  apply five; on.
Qed.
Lemma lin_comm a0 a1 a2 a3 P : on_curve b P -> psi (lin a0 a1 a2 a3 P) = lin a0 a1 a2 a3 (psi P).
Proof. intros CP. unfold lin. rewrite !psi_add by on. rewrite !psi_zmul by on. reflexivity. Qed.
Lemma lin_0 P : on_curve b P -> lin 0 0 0 0 P = Infinity.
Proof. intros CP. reflexivity. Qed.
Lemma lin_const n P : on_curve b P -> lin n 0 0 0 P = point_zmul n P.
Proof.
  intros CP. unfold lin. change (point_zmul 0 ?Q) with (Infinity : point K).
  rewrite !(add_0_r (b:=b) H2 NoTwo) by on. reflexivity.
Qed.
Lemma psi_inf : psi Infinity = Infinity.
Proof.
  change (Infinity : point K) with (point_zmul 0 (Infinity : point K)) at 1. rewrite psi_zmul by exact I. reflexivity.
Qed.
(** killed by a combination and by psi^4 - psi^2 + 1, so by their resultant *)
Lemma lin_resultant c d R u0 u1 u2 u3 P : on_curve b P -> lin c d 2 0 P = Infinity ->
  u0 * c + u2 * - 2 + u3 * - d = R -> u0 * d + u1 * c + u3 * - 2 = 0 -> u0 * 2 + u1 * d + u2 * (c + 2) + u3 * d = 0 ->
  u1 * 2 + u2 * d + u3 * (c + 2) = 0 -> point_zmul R P = Infinity.
Proof.
  intros CP E0 R0 R1 R2 R3.
  pose proof (f_equal psi E0) as E1. rewrite lin_psi, psi_inf in E1 by exact CP.
  pose proof (f_equal psi E1) as E2. rewrite lin_psi, psi_inf in E2 by exact CP.
  pose proof (f_equal psi E2) as E3. rewrite lin_psi, psi_inf in E3 by exact CP.
  rewrite <- (lin_const R P CP).
  transitivity (ADD (ADD (point_zmul u0 (lin c d 2 0 P)) (point_zmul u1 (lin (- 0) c (d + 0) 2 P)))
    (ADD (point_zmul u2 (lin (- (2)) (- 0) (c + 2) (d + 0) P)) (point_zmul u3 (lin (- (d + 0)) (- (2)) (- 0 + (d + 0)) (c + 2) P)))).
  - rewrite !lin_mul, !lin_add by exact CP. f_equal; lia.
  - rewrite E0, E1, E2, E3. rewrite !(pt_zmul_inf (b:=b) H2 NoTwo). reflexivity.
Qed.
(** an eigenvector *)
Lemma lin_eigen s a0 a1 a2 a3 P : on_curve b P -> psi P = point_zmul s P ->
  lin a0 a1 a2 a3 P = point_zmul (a0 + a1 * s + a2 * (s * s) + a3 * (s * (s * s))) P.
Proof.
  intros CP E. unfold lin.
  assert (E2 : psi (psi P) = point_zmul (s * s) P) by (rewrite E, psi_zmul, E, <- ZMUL by on; reflexivity).
  assert (E3 : psi (psi (psi P)) = point_zmul (s * (s * s)) P).
  { rewrite E2, psi_zmul, E, <- ZMUL by on. f_equal. ring. }
  rewrite E3, E2, E. rewrite <- !ZMUL, <- !ZADD by on. f_equal. ring.
Qed.
End Lin.
