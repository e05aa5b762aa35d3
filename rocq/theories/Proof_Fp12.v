(** * Proof_Fp12: the second quadratic step of the tower on machine words, and the whole tower *)
From Coq Require Import ZArith List Bool Lia Ring Field.
From Verif Require Import Base Fld Zp Spec_Fp Model_Scalar Model_Fp Proof_FpRep Proof_FpTop Power Tower Ext Model_Fp2 Model_Fp12 Proof_Fp2 Proof_Fp6.
Import ListNotations.
Local Open Scope Z_scope.

Section Twelve.
Context {K : fld} (v : K) (ND : forall x : K, fmul x x <> v).
Add Field K12 : (fld_field K).
Local Open Scope fld_scope.
Context (rep6 : fp6 -> K -> Prop).
Hypothesis Runique : forall a x y, rep6 a x -> rep6 a y -> x = y.
Hypothesis Rinj : forall a b x, rep6 a x -> rep6 b x -> a = b.
Hypothesis Rzero : rep6 fp6_zero 0.
Hypothesis Rone : rep6 fp6_one 1.
Hypothesis Radd : forall a b x y, rep6 a x -> rep6 b y -> rep6 (fp6_add a b) (x + y).
Hypothesis Rsub : forall a b x y, rep6 a x -> rep6 b y -> rep6 (fp6_sub a b) (x - y).
Hypothesis Rneg : forall a x, rep6 a x -> rep6 (fp6_neg a) (- x).
Hypothesis Rmul : forall a b x y, rep6 a x -> rep6 b y -> rep6 (fp6_mul a b) (x * y).
Hypothesis Rsquare : forall a x, rep6 a x -> rep6 (fp6_square a) (x * x).
Hypothesis Rnonres : forall a x, rep6 a x -> rep6 (fp6_mul_by_nonresidue a) (v * x).
Hypothesis Rselect : forall a b x y c, rep6 a x -> rep6 b y -> rep6 (fp6_select a b c) (if c then y else x).
Hypothesis Req : forall a b x y, rep6 a x -> rep6 b y -> fp6_eq a b = feqb x y.
Hypothesis Rzero_test : forall a x, rep6 a x -> fp6_is_zero a = feqb x 0.
Hypothesis Rinvert : forall a x, rep6 a x ->
  match fp6_invert a with None => x = 0 | Some t => x <> 0 /\ rep6 t (finv x) end.

Notation Q := (quad_fld v ND).
Definition rep12 (a : fp12) (x : Q) : Prop := let '(FP12 a0 a1) := a in rep6 a0 (q0 x) /\ rep6 a1 (q1 x).

Lemma R6_to a x y : rep6 a x -> x = y -> rep6 a y. Proof. intros H <-. exact H. Qed.
Ltac rr := repeat first [eassumption | eapply Radd | eapply Rsub | eapply Rneg | eapply Rmul | eapply Rsquare | eapply Rnonres | exact Rzero | exact Rone].
Ltac coord := eapply R6_to; [rr|]; cbn [q0 q1]; try ring.

Lemma rep12_unique s x y : rep12 s x -> rep12 s y -> x = y.
Proof.
  destruct s as [s0 s1], x as [x0 x1], y as [y0 y1]. cbn. intros (A & B) (A' & B').
  now rewrite (Runique _ _ _ A A'), (Runique _ _ _ B B').
Qed.
Lemma rep12_inj s t x : rep12 s x -> rep12 t x -> s = t.
Proof.
  destruct s as [s0 s1], x as [x0 x1], t as [y0 y1]. cbn. intros (A & B) (A' & B').
  now rewrite (Rinj _ _ _ A A'), (Rinj _ _ _ B B').
Qed.
Lemma rep12_zero : rep12 fp12_zero 0.
Proof. cbn. auto. Qed.
Lemma rep12_one : rep12 fp12_one 1.
Proof. cbn. auto. Qed.
Lemma rep12_of a x : rep6 a x -> rep12 (fp12_from_fp6 a) (quad_of x).
Proof. cbn. auto. Qed.
Lemma rep12_add a b x y : rep12 a x -> rep12 b y -> rep12 (fp12_add a b) (x + y).
Proof. destruct a as [a0 a1], b as [b0 b1]. cbn. intros (A & B) (A' & B'). split; coord. Qed.
Lemma rep12_sub a b x y : rep12 a x -> rep12 b y -> rep12 (fp12_sub a b) (x - y).
Proof. destruct a as [a0 a1], b as [b0 b1]. cbn. intros (A & B) (A' & B'). split; coord. Qed.
Lemma rep12_neg a x : rep12 a x -> rep12 (fp12_neg a) (- x).
Proof. destruct a as [a0 a1]. cbn. intros (A & B). split; coord. Qed.
Lemma rep12_mul a b x y : rep12 a x -> rep12 b y -> rep12 (fp12_mul a b) (x * y).
Proof. destruct a as [a0 a1], b as [b0 b1]. cbn. intros (A & B) (A' & B'). split; coord. Qed.
Lemma rep12_square a x : rep12 a x -> rep12 (fp12_square a) (x * x).
Proof. destruct a as [a0 a1]. cbn. intros (A & B). split; coord. Qed.
Lemma rep12_conj a x : rep12 a x -> rep12 (fp12_conjugate a) (quad_conj x).
Proof. destruct a as [a0 a1]. cbn. intros (A & B). split; coord. Qed.
Lemma rep12_select a b x y c : rep12 a x -> rep12 b y -> rep12 (fp12_select a b c) (if c then y else x).
Proof.
  destruct a as [a0 a1], b as [b0 b1]. cbn. intros (A & B) (A' & B').
  pose proof (Rselect _ _ _ _ c A A'). pose proof (Rselect _ _ _ _ c B B'). destruct c; auto.
Qed.
Lemma rep12_eq a b x y : rep12 a x -> rep12 b y -> fp12_eq a b = feqb x y.
Proof.
  destruct a as [a0 a1], b as [b0 b1]. cbn. intros (A & B) (A' & B').
  now rewrite (Req _ _ _ _ A A'), (Req _ _ _ _ B B').
Qed.
Lemma rep12_is_zero a x : rep12 a x -> fp12_is_zero a = feqb x 0.
Proof. destruct a as [a0 a1]. cbn. intros (A & B). now rewrite (Rzero_test _ _ A), (Rzero_test _ _ B). Qed.
Lemma norm12_at_0 : quad_norm v (Quad 0 0) = 0.
Proof. unfold quad_norm. cbn [q0 q1]. ring. Qed.
Lemma rep12_invert a x : rep12 a x ->
  match fp12_invert a with None => x = 0 | Some t => x <> 0 /\ rep12 t (finv x) end.
Proof.
  destruct a as [a0 a1]. intros (A & B). unfold fp12_invert.
  set (t := fp6_sub (fp6_square a0) _).
  assert (T : rep6 t (quad_norm v x)). { unfold t, quad_norm. coord. }
  clearbody t. pose proof (Rinvert _ _ T) as I. destruct (fp6_invert t) as [u|].
  - destruct I as [N U]. split.
    + intros ->. apply N. exact norm12_at_0.
    + cbn -[quad_norm]. unfold quad_inv. cbn [q0 q1]. split; coord.
  - exact (quad_norm_0 v ND x I).
Qed.
(** sparse products *)
Context {K2 : fld} (rep2 : fp2 -> K2 -> Prop) (Radd2 : forall a b x y, rep2 a x -> rep2 b y -> rep2 (fp2_add a b) (fadd x y)).
Context (s1 : K2 -> K) (s01 : K2 -> K2 -> K) (Ss : forall x y z, s01 x (fadd y z) = s01 x y + s1 z).
Hypothesis R1 : forall a x c z, rep6 a x -> rep2 c z -> rep6 (fp6_mul_by_1 a c) (x * s1 z).
Hypothesis R01 : forall a x c d y z, rep6 a x -> rep2 c y -> rep2 d z -> rep6 (fp6_mul_by_01 a c d) (x * s01 y z).
Lemma rep12_mul_by_014 a x c0 c1 c4 y0 y1 y4 : rep12 a x -> rep2 c0 y0 -> rep2 c1 y1 -> rep2 c4 y4 ->
  rep12 (fp12_mul_by_014 a c0 c1 c4) (x * (Quad (s01 y0 y1) (s1 y4) : Q)).
Proof.
  destruct a as [a0 a1]. intros (A & B) C0 C1 C4. unfold fp12_mul_by_014.
  pose proof (R01 _ _ _ _ _ _ A C0 C1) as AA. pose proof (R1 _ _ _ _ B C4) as BB.
  pose proof (R01 _ _ _ _ _ _ (Radd _ _ _ _ B A) C0 (Radd2 _ _ _ _ C1 C4)) as CC.
  split.
  - eapply R6_to; [rr|]. cbn. ring.
  - eapply R6_to; [rr|]. rewrite Ss. cbn. ring.
Qed.
(** Frobenius *)
Context (frob : K -> K) (gm : K) (gw : fp6).
Hypothesis Rfrob : forall a x, rep6 a x -> rep6 (fp6_frobenius_map a) (frob x).
Hypothesis Rg : rep6 (fp6_from_fp2 fp12_frobenius_c) gm.
Lemma rep12_frobenius a x : rep12 a x -> rep12 (fp12_frobenius_map a) (Quad (frob (q0 x)) (gm * frob (q1 x))).
Proof.
  destruct a as [a0 a1]. intros (A & B). unfold fp12_frobenius_map, rep12. cbn [q0 q1].
  pose proof (Rfrob _ _ A). pose proof (Rfrob _ _ B). split; [assumption|]. coord.
Qed.
End Twelve.

(** ** The tower over the base field *)
Lemma frep_lit s n : limbs6 s (((n mod p) * 2 ^ 384) mod p) -> frep s (fp_of n).
Proof. intros H. apply stands_for_frep. apply stands_for_lit. exact H. Qed.
Lemma rep2_gamma2 : rep2 fp6_frobenius_c1 gamma2.
Proof.
  split; [exact frep_zero|].
  refine (frep_to _ (fp_of _) _ (fp_of_neg _) _). apply frep_lit. vm_compute. repeat split; congruence.
Qed.
Lemma rep2_gamma4 : rep2 fp6_frobenius_c2 gamma4.
Proof.
  split; [|exact frep_zero]. cbn [q0 gamma4 fp2_c0 fp6_frobenius_c2].
  assert (E : fneg (fmul two_sixth two_sixth) = fp_of (- (0x5f19672fdf76ce51ba69c6076a0f77eaddb3a93be6f89688de17d813620a00022e01fffffffeffff * 0x5f19672fdf76ce51ba69c6076a0f77eaddb3a93be6f89688de17d813620a00022e01fffffffeffff))).
  { rewrite fp_of_neg. unfold two_sixth. rewrite <- fp_of_mul. reflexivity. }
  apply (frep_to _ _ _ (eq_sym E)). apply frep_lit. vm_compute. repeat split; congruence.
Qed.
Lemma rep2_gamma : rep2 fp12_frobenius_c gamma.
Proof.
  split.
  - apply frep_lit. vm_compute. repeat split; congruence.
  - refine (frep_to _ (fp_of _) _ (fp_of_neg _) _). apply frep_lit. vm_compute. repeat split; congruence.
Qed.
Definition r6 : fp6 -> Fp6 -> Prop := rep6 xi xi_noncube rep2.
Definition r12 : fp12 -> Fp12 -> Prop := rep12 Fp6_v v_nonsquare r6.

Lemma r6_unique s x y : r6 s x -> r6 s y -> x = y.
Proof. exact (rep6_unique xi xi_noncube rep2 rep2_unique s x y). Qed.
Lemma r6_inj s t x : r6 s x -> r6 t x -> s = t.
Proof. exact (rep6_inj xi xi_noncube rep2 rep2_inj s t x). Qed.
Lemma r6_zero : r6 fp6_zero f0.
Proof. exact (rep6_zero xi xi_noncube rep2 rep2_zero). Qed.
Lemma r6_one : r6 fp6_one f1.
Proof. exact (rep6_one xi xi_noncube rep2 rep2_zero rep2_one). Qed.
Lemma r6_of a x : rep2 a x -> r6 (fp6_from_fp2 a) (Fp6_of x).
Proof. exact (rep6_of xi xi_noncube rep2 rep2_zero a x). Qed.
Lemma r6_add a b x y : r6 a x -> r6 b y -> r6 (fp6_add a b) (fadd x y).
Proof. exact (rep6_add xi xi_noncube rep2 rep2_add a b x y). Qed.
Lemma r6_sub a b x y : r6 a x -> r6 b y -> r6 (fp6_sub a b) (fsub x y).
Proof. exact (rep6_sub xi xi_noncube rep2 rep2_sub a b x y). Qed.
Lemma r6_neg a x : r6 a x -> r6 (fp6_neg a) (fneg x).
Proof. exact (rep6_neg xi xi_noncube rep2 rep2_neg a x). Qed.
Lemma r6_mul a b x y : r6 a x -> r6 b y -> r6 (fp6_mul a b) (fmul x y).
Proof. exact (rep6_mul xi xi_noncube rep2 rep2_add rep2_sub rep2_mul rep2_nonresidue a b x y). Qed.
Lemma r6_square a x : r6 a x -> r6 (fp6_square a) (fmul x x).
Proof. exact (rep6_square xi xi_noncube rep2 rep2_add rep2_sub rep2_mul rep2_square rep2_nonresidue a x). Qed.
Lemma r6_nonres a x : r6 a x -> r6 (fp6_mul_by_nonresidue a) (fmul Fp6_v x).
Proof. exact (rep6_nonres xi xi_noncube rep2 rep2_nonresidue a x). Qed.
Definition s1 (z : Fp2) : Fp6 := Cubic (f0 : Fp2) z f0.
Definition s01 (y z : Fp2) : Fp6 := Cubic y z (f0 : Fp2).
Lemma r6_mul_by_1 a x c z : r6 a x -> rep2 c z -> r6 (fp6_mul_by_1 a c) (fmul x (s1 z)).
Proof. exact (rep6_mul_by_1 xi xi_noncube rep2 rep2_add rep2_sub rep2_mul rep2_nonresidue a x c z). Qed.
Lemma r6_mul_by_01 a x c d y z : r6 a x -> rep2 c y -> rep2 d z -> r6 (fp6_mul_by_01 a c d) (fmul x (s01 y z)).
Proof. exact (rep6_mul_by_01 xi xi_noncube rep2 rep2_add rep2_sub rep2_mul rep2_nonresidue a x c d y z). Qed.
Lemma r6_select a b x y c : r6 a x -> r6 b y -> r6 (fp6_select a b c) (if c then y else x).
Proof. exact (rep6_select xi xi_noncube rep2 rep2_select a b x y c). Qed.
Lemma r6_eq a b x y : r6 a x -> r6 b y -> fp6_eq a b = feqb x y.
Proof. exact (rep6_eq xi xi_noncube rep2 rep2_eq a b x y). Qed.
Lemma r6_is_zero a x : r6 a x -> fp6_is_zero a = feqb x f0.
Proof. exact (rep6_is_zero xi xi_noncube rep2 rep2_is_zero a x). Qed.
Lemma r6_invert a x : r6 a x -> match fp6_invert a with None => x = f0 | Some t => x <> f0 /\ r6 t (finv x) end.
Proof. exact (rep6_invert xi xi_noncube rep2 rep2_add rep2_sub rep2_mul rep2_square rep2_nonresidue rep2_invert a x). Qed.
Lemma rep2_frob_conj a x : rep2 a x -> rep2 (fp2_frobenius_map a) (Fp2_conj x).
Proof. apply rep2_conj. Qed.
Lemma r6_frob a x : r6 a x -> r6 (fp6_frobenius_map a) (Fp6_frob x).
Proof. exact (rep6_frobenius xi xi_noncube rep2 rep2_mul Fp2_conj rep2_frob_conj gamma2 gamma4 rep2_gamma2 rep2_gamma4 a x). Qed.
Lemma r6_frobenius a x : r6 a x -> r6 (fp6_frobenius_map a) (zpow x p).
Proof. intros H. rewrite Fp6_frobenius. apply r6_frob. exact H. Qed.

Lemma r12_unique s x y : r12 s x -> r12 s y -> x = y.
Proof. exact (rep12_unique Fp6_v v_nonsquare r6 r6_unique s x y). Qed.
Lemma r12_inj s t x : r12 s x -> r12 t x -> s = t.
Proof. exact (rep12_inj Fp6_v v_nonsquare r6 r6_inj s t x). Qed.
Lemma r12_zero : r12 fp12_zero f0.
Proof. exact (rep12_zero Fp6_v v_nonsquare r6 r6_zero). Qed.
Lemma r12_one : r12 fp12_one f1.
Proof. exact (rep12_one Fp6_v v_nonsquare r6 r6_zero r6_one). Qed.
Lemma r12_of a x : r6 a x -> r12 (fp12_from_fp6 a) (Fp12_of x).
Proof. exact (rep12_of Fp6_v v_nonsquare r6 r6_zero a x). Qed.
Lemma r12_add a b x y : r12 a x -> r12 b y -> r12 (fp12_add a b) (fadd x y).
Proof. exact (rep12_add Fp6_v v_nonsquare r6 r6_add a b x y). Qed.
Lemma r12_sub a b x y : r12 a x -> r12 b y -> r12 (fp12_sub a b) (fsub x y).
Proof. exact (rep12_sub Fp6_v v_nonsquare r6 r6_sub a b x y). Qed.
Lemma r12_neg a x : r12 a x -> r12 (fp12_neg a) (fneg x).
Proof. exact (rep12_neg Fp6_v v_nonsquare r6 r6_neg a x). Qed.
Lemma r12_mul a b x y : r12 a x -> r12 b y -> r12 (fp12_mul a b) (fmul x y).
Proof. exact (rep12_mul Fp6_v v_nonsquare r6 r6_add r6_sub r6_mul r6_nonres a b x y). Qed.
Lemma r12_square a x : r12 a x -> r12 (fp12_square a) (fmul x x).
Proof. exact (rep12_square Fp6_v v_nonsquare r6 r6_add r6_sub r6_mul r6_nonres a x). Qed.
Definition Fp12_conj (x : Fp12) : Fp12 := quad_conj x.
Lemma r12_conj a x : r12 a x -> r12 (fp12_conjugate a) (Fp12_conj x).
Proof. exact (rep12_conj Fp6_v v_nonsquare r6 r6_neg a x). Qed.
Lemma r12_select a b x y c : r12 a x -> r12 b y -> r12 (fp12_select a b c) (if c then y else x).
Proof. exact (rep12_select Fp6_v v_nonsquare r6 r6_select a b x y c). Qed.
Lemma r12_eq a b x y : r12 a x -> r12 b y -> fp12_eq a b = feqb x y.
Proof. exact (rep12_eq Fp6_v v_nonsquare r6 r6_eq a b x y). Qed.
Lemma r12_is_zero a x : r12 a x -> fp12_is_zero a = feqb x f0.
Proof. exact (rep12_is_zero Fp6_v v_nonsquare r6 r6_is_zero a x). Qed.
Lemma r12_invert a x : r12 a x -> match fp12_invert a with None => x = f0 | Some t => x <> f0 /\ r12 t (finv x) end.
Proof. exact (rep12_invert Fp6_v v_nonsquare r6 r6_sub r6_neg r6_mul r6_square r6_nonres r6_invert a x). Qed.
Definition s014 (y0 y1 y4 : Fp2) : Fp12 := Quad (s01 y0 y1) (s1 y4).
Section Sparse.
Context {K : fld}.
Add Field Ksp : (fld_field K).
Lemma sparse_add (x y z : K) : Cubic x (fadd y z) (f0 : K) = cubic_add (Cubic x y f0) (Cubic f0 z f0).
Proof. unfold cubic_add. cbn [k0 k1 k2]. apply (f_equal3 Cubic); ring. Qed.
End Sparse.
Lemma s01_add x y z : s01 x (fadd y z) = fadd (s01 x y) (s1 z).
Proof. exact (sparse_add x y z). Qed.
Lemma r12_mul_by_014 a x c0 c1 c4 y0 y1 y4 : r12 a x -> rep2 c0 y0 -> rep2 c1 y1 -> rep2 c4 y4 ->
  r12 (fp12_mul_by_014 a c0 c1 c4) (fmul x (s014 y0 y1 y4)).
Proof.
  exact (rep12_mul_by_014 Fp6_v v_nonsquare r6 r6_add r6_sub r6_nonres rep2 rep2_add s1 s01 s01_add r6_mul_by_1 r6_mul_by_01 a x c0 c1 c4 y0 y1 y4).
Qed.
Lemma r12_frobenius a x : r12 a x -> r12 (fp12_frobenius_map a) (zpow x p).
Proof.
  intros H. rewrite Fp12_frobenius.
  exact (rep12_frobenius Fp6_v v_nonsquare r6 r6_mul Fp6_frob (Fp6_of gamma) r6_frob (r6_of _ _ rep2_gamma) a x H).
Qed.
