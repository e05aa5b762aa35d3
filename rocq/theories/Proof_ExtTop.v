(** * Proof_ExtTop: statements about the tower of fields *)
From Coq Require Import ZArith List Bool Lia Ring Field.
From Verif Require Import Base Fld Tables Zp Spec_Scalar Spec_Fp Model_Scalar Model_Fp Proof_FpRep Proof_FpTop Proof_G1Base Power Tower Ext Model_Fp2 Model_Fp12 Spec_Ext Proof_Fp2 Proof_Fp6 Proof_Fp12.
Import ListNotations.
Local Open Scope Z_scope.

Lemma stands_for2_rep a x : stands_for2 a x <-> rep2 a x.
Proof. destruct a as [a0 a1], x as [x0 x1]. unfold stands_for2, rep2. cbn [fp2_c0 fp2_c1 q0 q1]. rewrite !stands_for_frep. reflexivity. Qed.
Lemma stands_for6_rep a x : stands_for6 a x <-> r6 a x.
Proof.
  destruct a as [a0 a1 a2], x as [x0 x1 x2]. unfold stands_for6, r6, rep6. cbn [k0 k1 k2]. rewrite !stands_for2_rep. reflexivity.
Qed.
Lemma stands_for12_rep a x : stands_for12 a x <-> r12 a x.
Proof.
  destruct a as [a0 a1], x as [x0 x1]. unfold stands_for12, r12, rep12. cbn [q0 q1]. rewrite !stands_for6_rep. reflexivity.
Qed.
Lemma stands_for_exists (x : Fp) : exists s, stands_for s x.
Proof. exact (proj1 fp_one_to_one x). Qed.
Lemma stands_for2_exists (x : Fp2) : exists s, stands_for2 s x.
Proof.
  destruct x as [x0 x1]. destruct (stands_for_exists x0) as [s0 S0], (stands_for_exists x1) as [s1 S1].
  exists (FP2 s0 s1). exact (conj S0 S1).
Qed.
Lemma stands_for6_exists (x : Fp6) : exists s, stands_for6 s x.
Proof.
  destruct x as [x0 x1 x2]. destruct (stands_for2_exists x0) as [s0 S0], (stands_for2_exists x1) as [s1 S1], (stands_for2_exists x2) as [s2 S2].
  exists (FP6 s0 s1 s2). exact (conj S0 (conj S1 S2)).
Qed.
Lemma stands_for12_exists (x : Fp12) : exists s, stands_for12 s x.
Proof.
  destruct x as [x0 x1]. destruct (stands_for6_exists x0) as [s0 S0], (stands_for6_exists x1) as [s1 S1].
  exists (FP12 s0 s1). exact (conj S0 S1).
Qed.

Section XiGen.
Context {K : fld}.
Add Field Kxi : (fld_field K).
Lemma xi_is_gen : (Quad f1 f1 : quad K) = quad_add (Quad f1 f0) (Quad f0 f1).
Proof. unfold quad_add. cbn [q0 q1]. apply (f_equal2 Quad); ring. Qed.
End XiGen.
(** the tower: the generators and the relations they satisfy *)
Lemma v_cube : fmul (fmul Fp6_v Fp6_v) Fp6_v = Fp6_of xi.
Proof. exact (cubic_root_cube xi xi_noncube). Qed.
Definition Fp12_w : Fp12 := Quad (f0 : Fp6) f1.
Lemma w_square : fmul Fp12_w Fp12_w = Fp12_of Fp6_v.
Proof. exact (quad_root_square Fp6_v v_nonsquare). Qed.
Lemma xi_is : xi = fadd f1 Fp2_u.
Proof. exact (xi_is_gen (K:=Fp)). Qed.
Lemma ext_tower :
  fmul Fp2_u Fp2_u = fneg f1 /\ xi = fadd f1 Fp2_u /\
  fmul (fmul Fp6_v Fp6_v) Fp6_v = Fp6_of xi /\ fmul Fp12_w Fp12_w = Fp12_of Fp6_v /\
  (forall a b : Fp, (Quad a b : Fp2) = fadd (Fp2_of a) (fmul Fp2_u (Fp2_of b))) /\
  (forall a b c : Fp2, (Cubic a b c : Fp6) = fadd (Fp6_of a) (fmul Fp6_v (fadd (Fp6_of b) (fmul Fp6_v (Fp6_of c))))) /\
  (forall a b : Fp6, (Quad a b : Fp12) = fadd (Fp12_of a) (fmul Fp12_w (Fp12_of b))).
Proof.
  split; [exact Fp2_u_square|]. split; [exact xi_is|]. split; [exact v_cube|]. split; [exact w_square|].
  split; [exact (quad_split (fneg f1 : Fp) Fp_minus_one)|]. split; [exact (cubic_split xi xi_noncube)|exact (quad_split Fp6_v v_nonsquare)].
Qed.
Lemma ext_one_to_one :
  ((forall x, exists s, stands_for2 s x) /\ (forall s x y, stands_for2 s x -> stands_for2 s y -> x = y) /\
   (forall s t x, stands_for2 s x -> stands_for2 t x -> s = t)) /\
  ((forall x, exists s, stands_for6 s x) /\ (forall s x y, stands_for6 s x -> stands_for6 s y -> x = y) /\
   (forall s t x, stands_for6 s x -> stands_for6 t x -> s = t)) /\
  ((forall x, exists s, stands_for12 s x) /\ (forall s x y, stands_for12 s x -> stands_for12 s y -> x = y) /\
   (forall s t x, stands_for12 s x -> stands_for12 t x -> s = t)).
Proof.
  split; [|split]; (split; [|split]).
  - exact stands_for2_exists.
  - intros s x y H1 H2. apply stands_for2_rep in H1, H2. exact (rep2_unique s x y H1 H2).
  - intros s t x H1 H2. apply stands_for2_rep in H1, H2. exact (rep2_inj s t x H1 H2).
  - exact stands_for6_exists.
  - intros s x y H1 H2. apply stands_for6_rep in H1, H2. exact (r6_unique s x y H1 H2).
  - intros s t x H1 H2. apply stands_for6_rep in H1, H2. exact (r6_inj s t x H1 H2).
  - exact stands_for12_exists.
  - intros s x y H1 H2. apply stands_for12_rep in H1, H2. exact (r12_unique s x y H1 H2).
  - intros s t x H1 H2. apply stands_for12_rep in H1, H2. exact (r12_inj s t x H1 H2).
Qed.

Lemma fp2_arith a b (x y : Fp2) : stands_for2 a x -> stands_for2 b y ->
  stands_for2 (fp2_add a b) (fadd x y) /\ stands_for2 (fp2_sub a b) (fsub x y) /\ stands_for2 (fp2_neg a) (fneg x) /\
  stands_for2 (fp2_mul a b) (fmul x y) /\ stands_for2 (fp2_square a) (fmul x x) /\
  stands_for2 (fp2_mul_by_nonresidue a) (fmul xi x) /\
  (forall c, stands_for2 (fp2_select a b c) (if c then y else x)) /\
  (fp2_eq a b = true <-> x = y) /\ (fp2_is_zero a = true <-> x = f0) /\
  stands_for2 fp2_zero f0 /\ stands_for2 fp2_one f1.
Proof.
  rewrite !stands_for2_rep. intros A B.
  rewrite (rep2_eq _ _ _ _ A B), (rep2_is_zero _ _ A), !feqb_spec.
  split; [exact (rep2_add _ _ _ _ A B)|]. split; [exact (rep2_sub _ _ _ _ A B)|]. split; [exact (rep2_neg _ _ A)|].
  split; [exact (rep2_mul _ _ _ _ A B)|]. split; [exact (rep2_square _ _ A)|]. split; [exact (rep2_nonresidue _ _ A)|].
  split; [intros c; apply stands_for2_rep; exact (rep2_select _ _ _ _ c A B)|].
  split; [reflexivity|]. split; [reflexivity|]. split; [exact rep2_zero|exact rep2_one].
Qed.
Lemma fp2_from_base a (x : Fp) : stands_for a x -> stands_for2 (fp2_from_fp a) (Fp2_of x).
Proof. rewrite stands_for2_rep, stands_for_frep. apply rep2_of. Qed.
Lemma fp2_inverse a (x : Fp2) : stands_for2 a x ->
  (x = f0 -> fp2_invert a = None) /\ (x <> f0 -> exists t, fp2_invert a = Some t /\ stands_for2 t (finv x)).
Proof.
  rewrite stands_for2_rep. intros A. pose proof (rep2_invert _ _ A) as I. destruct (fp2_invert a) as [t|].
  - destruct I as [N T]. split; [intros E; contradiction|]. intros _. exists t. split; [reflexivity|apply stands_for2_rep; exact T].
  - split; [reflexivity|]. intros N. contradiction.
Qed.
Lemma fp2_power a (x : Fp2) ws : stands_for2 a x -> Forall (fun w => 0 <= w < 2 ^ 64) ws ->
  stands_for2 (fp2_pow_vartime a ws) (zpow x (limbs_val ws)).
Proof. rewrite !stands_for2_rep. exact (rep2_pow a x ws). Qed.
Lemma fp2_lexicographic a (x : Fp2) : stands_for2 a x -> (fp2_lexicographically_largest a = true <-> Fp2_lt (fneg x) x).
Proof. rewrite stands_for2_rep. exact (rep2_lexicographic a x). Qed.
Lemma fp2_square_root a (y : Fp2) : stands_for2 a y ->
  ((exists x, fmul x x = y) -> exists s x, fp2_sqrt a = Some s /\ stands_for2 s x /\ fmul x x = y) /\
  (~ (exists x, fmul x x = y) -> fp2_sqrt a = None).
Proof.
  rewrite stands_for2_rep. intros A. destruct (fp2_sqrt_spec a y A) as [S N]. split; [|exact N].
  intros E. destruct (S E) as (s & x & H1 & H2 & H3). exists s, x. rewrite stands_for2_rep. auto.
Qed.

Lemma fp6_arith a b (x y : Fp6) : stands_for6 a x -> stands_for6 b y ->
  stands_for6 (fp6_add a b) (fadd x y) /\ stands_for6 (fp6_sub a b) (fsub x y) /\ stands_for6 (fp6_neg a) (fneg x) /\
  stands_for6 (fp6_mul a b) (fmul x y) /\ stands_for6 (fp6_square a) (fmul x x) /\
  stands_for6 (fp6_mul_by_nonresidue a) (fmul Fp6_v x) /\
  (forall c, stands_for6 (fp6_select a b c) (if c then y else x)) /\
  (fp6_eq a b = true <-> x = y) /\ (fp6_is_zero a = true <-> x = f0) /\
  stands_for6 fp6_zero f0 /\ stands_for6 fp6_one f1.
Proof.
  rewrite !stands_for6_rep. intros A B.
  rewrite (r6_eq _ _ _ _ A B), (r6_is_zero _ _ A), !feqb_spec.
  split; [exact (r6_add _ _ _ _ A B)|]. split; [exact (r6_sub _ _ _ _ A B)|]. split; [exact (r6_neg _ _ A)|].
  split; [exact (r6_mul _ _ _ _ A B)|]. split; [exact (r6_square _ _ A)|]. split; [exact (r6_nonres _ _ A)|].
  split; [intros c; apply stands_for6_rep; exact (r6_select _ _ _ _ c A B)|].
  split; [reflexivity|]. split; [reflexivity|]. split; [exact r6_zero|exact r6_one].
Qed.
Lemma fp6_inverse a (x : Fp6) : stands_for6 a x ->
  (x = f0 -> fp6_invert a = None) /\ (x <> f0 -> exists t, fp6_invert a = Some t /\ stands_for6 t (finv x)).
Proof.
  rewrite stands_for6_rep. intros A. pose proof (r6_invert _ _ A) as I. destruct (fp6_invert a) as [t|].
  - destruct I as [N T]. split; [intros E; contradiction|]. intros _. exists t. split; [reflexivity|apply stands_for6_rep; exact T].
  - split; [reflexivity|]. intros N. contradiction.
Qed.
(** products by elements with few coefficients: z v, and y + z v *)
Lemma fp6_sparse a c d (x : Fp6) (y z : Fp2) : stands_for6 a x -> stands_for2 c y -> stands_for2 d z ->
  stands_for6 (fp6_mul_by_1 a d) (fmul x (Cubic f0 z f0 : Fp6)) /\
  stands_for6 (fp6_mul_by_01 a c d) (fmul x (Cubic y z f0 : Fp6)).
Proof.
  rewrite !stands_for6_rep, !stands_for2_rep. intros A C D.
  split; [exact (r6_mul_by_1 _ _ _ _ A D)|exact (r6_mul_by_01 _ _ _ _ _ _ A C D)].
Qed.
Lemma fp6_from_base a (x : Fp) c (z : Fp2) : stands_for a x -> stands_for2 c z ->
  stands_for6 (fp6_from_fp a) (Fp6_of (Fp2_of x)) /\ stands_for6 (fp6_from_fp2 c) (Fp6_of z).
Proof.
  intros A C. split; apply stands_for6_rep, r6_of; [apply rep2_of, stands_for_frep; exact A|apply stands_for2_rep; exact C].
Qed.

Lemma fp12_arith a b (x y : Fp12) : stands_for12 a x -> stands_for12 b y ->
  stands_for12 (fp12_add a b) (fadd x y) /\ stands_for12 (fp12_sub a b) (fsub x y) /\ stands_for12 (fp12_neg a) (fneg x) /\
  stands_for12 (fp12_mul a b) (fmul x y) /\ stands_for12 (fp12_square a) (fmul x x) /\
  (forall c, stands_for12 (fp12_select a b c) (if c then y else x)) /\
  (fp12_eq a b = true <-> x = y) /\ (fp12_is_zero a = true <-> x = f0) /\
  stands_for12 fp12_zero f0 /\ stands_for12 fp12_one f1.
Proof.
  rewrite !stands_for12_rep. intros A B.
  rewrite (r12_eq _ _ _ _ A B), (r12_is_zero _ _ A), !feqb_spec.
  split; [exact (r12_add _ _ _ _ A B)|]. split; [exact (r12_sub _ _ _ _ A B)|]. split; [exact (r12_neg _ _ A)|].
  split; [exact (r12_mul _ _ _ _ A B)|]. split; [exact (r12_square _ _ A)|].
  split; [intros c; apply stands_for12_rep; exact (r12_select _ _ _ _ c A B)|].
  split; [reflexivity|]. split; [reflexivity|]. split; [exact r12_zero|exact r12_one].
Qed.
Lemma fp12_inverse a (x : Fp12) : stands_for12 a x ->
  (x = f0 -> fp12_invert a = None) /\ (x <> f0 -> exists t, fp12_invert a = Some t /\ stands_for12 t (finv x)).
Proof.
  rewrite stands_for12_rep. intros A. pose proof (r12_invert _ _ A) as I. destruct (fp12_invert a) as [t|].
  - destruct I as [N T]. split; [intros E; contradiction|]. intros _. exists t. split; [reflexivity|apply stands_for12_rep; exact T].
  - split; [reflexivity|]. intros N. contradiction.
Qed.
(** product by y0 + y1 v + y4 v w *)
Lemma fp12_sparse a c0 c1 c4 (x : Fp12) (y0 y1 y4 : Fp2) :
  stands_for12 a x -> stands_for2 c0 y0 -> stands_for2 c1 y1 -> stands_for2 c4 y4 ->
  stands_for12 (fp12_mul_by_014 a c0 c1 c4) (fmul x (Quad (Cubic y0 y1 f0 : Fp6) (Cubic f0 y4 f0 : Fp6) : Fp12)).
Proof. rewrite !stands_for12_rep, !stands_for2_rep. exact (r12_mul_by_014 a x c0 c1 c4 y0 y1 y4). Qed.
Lemma fp12_from_base a (x : Fp) b (y : Fp2) c (z : Fp6) : stands_for a x -> stands_for2 b y -> stands_for6 c z ->
  stands_for12 (fp12_from_fp a) (Fp12_of (Fp6_of (Fp2_of x))) /\ stands_for12 (fp12_from_fp2 b) (Fp12_of (Fp6_of y)) /\
  stands_for12 (fp12_from_fp6 c) (Fp12_of z).
Proof.
  intros A B C. split; [|split]; apply stands_for12_rep, r12_of.
  - apply r6_of, rep2_of, stands_for_frep. exact A.
  - apply r6_of, stands_for2_rep. exact B.
  - apply stands_for6_rep. exact C.
Qed.

(** Frobenius maps *)
Lemma ext_frobenius :
  (forall a x, stands_for2 a x -> stands_for2 (fp2_frobenius_map a) (zpow x p)) /\
  (forall a x, stands_for6 a x -> stands_for6 (fp6_frobenius_map a) (zpow x p)) /\
  (forall a x, stands_for12 a x -> stands_for12 (fp12_frobenius_map a) (zpow x p)).
Proof.
  split; [|split].
  - intros a x. rewrite !stands_for2_rep. exact (rep2_frobenius a x).
  - intros a x. rewrite !stands_for6_rep. exact (r6_frobenius a x).
  - intros a x. rewrite !stands_for12_rep. exact (r12_frobenius a x).
Qed.
Lemma ext_power (K : fld) (x : K) :
  zpow x 0 = f1 /\ (forall e, 0 <= e -> zpow x (e + 1) = fmul x (zpow x e)) /\ (forall e, zpow x (- e) = zpow (finv x) e).
Proof. split; [apply zpow_0|]. split; [exact (zpow_succ_nn x)|exact (zpow_opp x)]. Qed.
Lemma fp2_conjugation a (x : Fp2) : stands_for2 a x -> stands_for2 (fp2_conjugate a) (Quad (q0 x) (fneg (q1 x)) : Fp2).
Proof. rewrite !stands_for2_rep. exact (rep2_conj a x). Qed.
