(** * Proof_Fp2: the quadratic extension on machine words *)
From Coq Require Import ZArith List Bool Lia Ring Field.
From Verif Require Import Base Fld Tables Zp Spec_Fp Model_Scalar Model_Fp Proof_Scalar Proof_Scalar2 Proof_FpRep Proof_FpTop Proof_G1Base Power Tower Ext Model_Fp2.
Import ListNotations.
Local Open Scope Z_scope.

Definition rep2 (a : fp2) (x : Fp2) : Prop := frep (fp2_c0 a) (q0 x) /\ frep (fp2_c1 a) (q1 x).

Section Alg.
Context {K : fld}.
Add Field Kalg2 : (fld_field K).
Local Open Scope fld_scope.
Lemma kara0 (a0 a1 b0 b1 : K) : a0 * b0 + - a1 * b1 = a0 * b0 + - (1) * (a1 * b1). Proof. ring. Qed.
Lemma kara1 (a0 a1 b0 b1 : K) : (a0 + a1) * (b0 + b1) - a0 * b0 + - a1 * b1 = a0 * b1 + a1 * b0. Proof. ring. Qed.
Lemma csq0 (a0 a1 : K) : (a0 + a1) * (a0 - a1) = a0 * a0 + - (1) * (a1 * a1). Proof. ring. Qed.
Lemma csq1 (a0 a1 : K) : (a0 + a0) * a1 = a0 * a1 + a1 * a0. Proof. ring. Qed.
Lemma nres0 (a0 a1 : K) : a0 - a1 = 1 * a0 + - (1) * (1 * a1). Proof. ring. Qed.
Lemma nres1 (a0 a1 : K) : a0 + a1 = 1 * a1 + 1 * a0. Proof. ring. Qed.
Lemma norm_m1 (a0 a1 : K) : a0 * a0 + a1 * a1 = a0 * a0 - - (1) * (a1 * a1). Proof. ring. Qed.
Lemma norm_zero : (0 : K) * 0 - - (1) * (0 * 0) = 0. Proof. ring. Qed.
Lemma zpow_double (x : K) n : (0 <= n)%Z -> zpow x (2 * n) = zpow x n * zpow x n.
Proof. intros N. rewrite <- Z.add_diag. apply zpow_add_nn; exact N. Qed.
Lemma zpow_succ_r (x : K) n : (0 <= n)%Z -> zpow x (n + 1) = zpow x n * x.
Proof. intros N. rewrite zpow_succ_nn by exact N. ring. Qed.
Lemma u_square_gen : (Quad (- (1 * 1)) 0 : quad K) = Quad (- (1)) (- 0). Proof. apply (f_equal2 Quad); ring. Qed.
Lemma zero_square : (0 : K) * 0 = 0. Proof. ring. Qed.
Lemma inv1 (a t : K) : a * - t = - a * t. Proof. ring. Qed.
Lemma rot0 (a0 a1 : K) : - a1 = 0 * a0 + - (1) * (1 * a1). Proof. ring. Qed.
Lemma rot1 (a0 a1 : K) : a0 = 0 * a1 + 1 * a0. Proof. ring. Qed.
(** the two cases of the square root *)
Lemma sqrt_case1 (y a1 u : K) : u * u = - (1) -> a1 * a1 * y = - (1) -> u * (a1 * y) * (u * (a1 * y)) = y.
Proof.
  intros U A. transitivity (u * u * (a1 * a1 * y) * y); [ring|]. rewrite U, A. ring.
Qed.
Lemma sqrt_case2 (y a1 al s cs : K) : a1 * a1 * y = al -> al + 1 <> 0 -> s * s * (al + 1) = 1 + cs -> al * cs = 1 ->
  s * (a1 * y) * (s * (a1 * y)) = y.
Proof.
  intros A N S C. apply (fmul_cancel_l (al + 1)); [exact N|].
  transitivity (s * s * (al + 1) * (a1 * a1 * y) * y); [ring|]. rewrite S, A.
  transitivity ((al + al * cs) * y); [ring|]. rewrite C. reflexivity.
Qed.
Lemma not_m1 (al : K) : al <> - (1) -> al + 1 <> 0.
Proof. intros N E. apply N. apply sum_zero_neg in E. exact E. Qed.
(** z^(q-1) times its conjugate is one *)
Lemma unit_conj (z al cz cal : K) : z <> 0 -> cz <> 0 -> al * z = cz -> cal * cz = z -> al * cal = 1.
Proof.
  intros N1 N2 A C. apply (fmul_cancel_l (z * cz)); [apply fmul_neq_0; assumption|].
  transitivity (al * z * (cal * cz)); [ring|]. rewrite A, C. ring.
Qed.
End Alg.

Lemma rep2_unique s x y : rep2 s x -> rep2 s y -> x = y.
Proof.
  destruct x as [x0 x1], y as [y0 y1]. intros [A B] [A' B'].
  rewrite (frep_unique _ _ _ A A' : x0 = y0), (frep_unique _ _ _ B B' : x1 = y1). reflexivity.
Qed.
Lemma rep2_inj s t x : rep2 s x -> rep2 t x -> s = t.
Proof.
  destruct s as [s0 s1], t as [t0 t1]. intros [A B] [A' B'].
  rewrite (frep_inj _ _ _ A A' : s0 = t0), (frep_inj _ _ _ B B' : s1 = t1). reflexivity.
Qed.
Lemma rep2_to s x y : x = y -> rep2 s x -> rep2 s y.
Proof. intros ->. exact (fun H => H). Qed.
Lemma rep2_zero : rep2 fp2_zero f0.
Proof. split; exact frep_zero. Qed.
Lemma rep2_one : rep2 fp2_one f1.
Proof. split; [exact frep_one|exact frep_zero]. Qed.
Lemma rep2_of a x : frep a x -> rep2 (fp2_from_fp a) (Fp2_of x).
Proof. intros H. split; [exact H|exact frep_zero]. Qed.
Lemma rep2_add a b x y : rep2 a x -> rep2 b y -> rep2 (fp2_add a b) (fadd x y).
Proof. intros [A B] [C D]. split; apply frep_add; assumption. Qed.
Lemma rep2_sub a b x y : rep2 a x -> rep2 b y -> rep2 (fp2_sub a b) (fsub x y).
Proof. intros [A B] [C D]. split; apply frep_sub; assumption. Qed.
Lemma rep2_neg a x : rep2 a x -> rep2 (fp2_neg a) (fneg x).
Proof. intros [A B]. split; apply frep_neg; assumption. Qed.
Lemma rep2_mul a b x y : rep2 a x -> rep2 b y -> rep2 (fp2_mul a b) (fmul x y).
Proof.
  intros [A B] [C D]. split.
  - refine (frep_to _ _ _ (kara0 (q0 x) (q1 x) (q0 y) (q1 y)) _).
    apply frep_add; [apply frep_mul; assumption|apply frep_mul; [apply frep_neg; exact B|exact D]].
  - refine (frep_to _ _ _ (kara1 (q0 x) (q1 x) (q0 y) (q1 y)) _).
    apply frep_add; [apply frep_sub|].
    + apply frep_mul; apply frep_add; assumption.
    + apply frep_mul; assumption.
    + apply frep_mul; [apply frep_neg; exact B|exact D].
Qed.
Lemma rep2_square a x : rep2 a x -> rep2 (fp2_square a) (fmul x x).
Proof.
  intros [A B]. split.
  - refine (frep_to _ _ _ (csq0 (q0 x) (q1 x)) _). apply frep_mul; [apply frep_add|apply frep_sub]; assumption.
  - refine (frep_to _ _ _ (csq1 (q0 x) (q1 x)) _). apply frep_mul; [apply frep_add|]; assumption.
Qed.
Lemma rep2_conj a x : rep2 a x -> rep2 (fp2_conjugate a) (Fp2_conj x).
Proof. intros [A B]. split; [exact A|apply frep_neg; exact B]. Qed.
Lemma rep2_frobenius a x : rep2 a x -> rep2 (fp2_frobenius_map a) (zpow x p).
Proof. intros H. rewrite Fp2_frobenius. apply rep2_conj. exact H. Qed.
Lemma rep2_nonresidue a x : rep2 a x -> rep2 (fp2_mul_by_nonresidue a) (fmul xi x).
Proof.
  intros [A B]. split.
  - refine (frep_to _ _ _ (nres0 (q0 x) (q1 x)) _). apply frep_sub; assumption.
  - refine (frep_to _ _ _ (nres1 (q0 x) (q1 x)) _). apply frep_add; assumption.
Qed.
Lemma rep2_select a b x y c : rep2 a x -> rep2 b y -> rep2 (fp2_select a b c) (if c then y else x).
Proof. intros [A B] [C D]. destruct c; split; assumption. Qed.
Lemma fp2_select_if a b c : fp2_select a b c = if c then b else a.
Proof. destruct a, b, c; reflexivity. Qed.
Lemma rep2_eq a b x y : rep2 a x -> rep2 b y -> fp2_eq a b = feqb x y.
Proof.
  intros [A B] [C D]. unfold fp2_eq. rewrite (fp_eq_feqb _ _ _ _ A C), (fp_eq_feqb _ _ _ _ B D). reflexivity.
Qed.
Lemma rep2_is_zero a x : rep2 a x -> fp2_is_zero a = feqb x f0.
Proof.
  intros [A B]. unfold fp2_is_zero. rewrite (fp_is_zero_feqb _ _ A), (fp_is_zero_feqb _ _ B). reflexivity.
Qed.
Lemma rep2_invert a x : rep2 a x ->
  match fp2_invert a with None => x = f0 | Some t => x <> f0 /\ rep2 t (finv x) end.
Proof.
  intros [A B]. unfold fp2_invert.
  assert (N : frep (fp_add (fp_square (fp2_c0 a)) (fp_square (fp2_c1 a))) (quad_norm (fneg f1) x)).
  { refine (frep_to _ _ _ (norm_m1 (q0 x) (q1 x)) _). apply frep_add; apply frep_square; assumption. }
  destruct (fp_invert_spec _ _ N) as [Z I]. destruct (fdec (quad_norm (fneg f1) x) f0) as [E|E].
  - rewrite (Z E). exact (quad_norm_0 _ Fp_minus_one x E).
  - destruct (I E) as (t & -> & T). split.
    + intros ->. apply E. exact (norm_zero (K:=Fp)).
    + split; [apply frep_mul; assumption|].
      refine (frep_to _ _ _ (inv1 (q1 x) (finv (quad_norm (fneg f1) x))) _).
      apply frep_mul; [exact B|apply frep_neg; exact T].
Qed.

(** powers *)
Lemma rep2_pow a x ws : rep2 a x -> Forall u64 ws -> rep2 (fp2_pow_vartime a ws) (zpow x (limbs_val ws)).
Proof.
  intros R F. unfold fp2_pow_vartime.
  refine (proj2 (_ : 0 <= limbs_val ws /\ _)).
  apply (ladder_limbs (fun s n => 0 <= n /\ rep2 s (zpow x n))
    (fun e res i => let res := fp2_square res in if limb_bit e i =? 1 then fp2_mul res a else res)).
  - intros e s i n [N S]. cbv zeta.
    pose proof (limb_bit_01 e i) as L.
    assert (D : rep2 (fp2_square s) (zpow x (2 * n))).
    { apply (rep2_to _ _ _ (eq_sym (zpow_double x n N))). apply rep2_square. exact S. }
    destruct L as [L|L]; rewrite L; cbn [Z.eqb Pos.eqb].
    + rewrite Z.add_0_r. split; [lia|exact D].
    + split; [lia|].
      apply (rep2_to _ _ _ (eq_sym (zpow_succ_r x (2 * n) ltac:(lia)))). apply rep2_mul; assumption.
  - exact F.
  - split; [lia|]. exact rep2_one.
Qed.

(** order *)
Lemma pval_inj (x y : Fp) : pval x = pval y -> x = y.
Proof. intros E. rewrite <- (fp_of_pval x), <- (fp_of_pval y), E. reflexivity. Qed.
Lemma pval_neg_same (x : Fp) : pval (fneg x) = pval x <-> x = f0.
Proof.
  rewrite pval_neg. pose proof (pval_range x) as R. pose proof half_p as H. split.
  - intros E. apply pval_inj. destruct (Z.eq_dec (pval x) 0) as [->|N]; [reflexivity|].
    rewrite (Z.mod_opp_l_nz (pval x) p), Z.mod_small in E by (try rewrite Z.mod_small; lia). exfalso.
    revert E. generalize (pval x). intros v E. set (h := (p + 1) / 2) in *. clearbody h. lia.
  - intros ->. reflexivity.
Qed.
Lemma rep2_lexicographic a x : rep2 a x ->
  (fp2_lexicographically_largest a = true <->
   pval (q1 (fneg x)) < pval (q1 x) \/ (q1 (fneg x) = q1 x /\ pval (q0 (fneg x)) < pval (q0 x))).
Proof.
  intros [A B]. unfold fp2_lexicographically_largest.
  rewrite orb_true_iff, andb_true_iff, (fp_lexicographically_largest_spec _ _ A), (fp_lexicographically_largest_spec _ _ B).
  rewrite (fp_is_zero_feqb _ _ B), feqb_spec.
  change (q1 (fneg x)) with (fneg (q1 x)). change (q0 (fneg x)) with (fneg (q0 x)).
  assert (E : q1 x = f0 <-> fneg (q1 x) = q1 x).
  { rewrite <- pval_neg_same. split; [apply pval_inj|intros ->; reflexivity]. }
  rewrite E. reflexivity.
Qed.

(** square roots *)
Lemma fp2_sqrt_exp1_val : limbs_val fp2_sqrt_exp1 = (p - 3) / 4.
Proof. vm_compute. reflexivity. Qed.
Lemma fp2_sqrt_exp2_val : limbs_val fp2_sqrt_exp2 = (p - 1) / 2.
Proof. vm_compute. reflexivity. Qed.
Lemma p_43 : exists h, (p - 3) / 4 = h /\ (p - 1) / 2 = 2 * h + 1 /\ p = 4 * h + 3 /\ 0 <= h.
Proof. exists ((p - 3) / 4). repeat split; vm_compute; congruence. Qed.
Lemma fp2_sqrt_exps_u64 : Forall u64 fp2_sqrt_exp1 /\ Forall u64 fp2_sqrt_exp2.
Proof. split; repeat constructor; vm_compute; congruence. Qed.
Lemma Fp2_conj_mul (x y : Fp2) : Fp2_conj (fmul x y) = fmul (Fp2_conj x) (Fp2_conj y).
Proof. exact (quad_conj_mul (fneg f1 : Fp) x y). Qed.
Lemma Fp2_conj_conj (x : Fp2) : Fp2_conj (Fp2_conj x) = x.
Proof. exact (quad_conj_conj x). Qed.
Lemma Fp2_conj_add (x y : Fp2) : Fp2_conj (fadd x y) = fadd (Fp2_conj x) (Fp2_conj y).
Proof. exact (quad_conj_add x y). Qed.
Section ConjOne.
Context {K : fld}.
Add Field Kconj : (fld_field K).
Lemma quad_conj_one : quad_conj (Quad f1 f0 : quad K) = Quad f1 f0.
Proof. unfold quad_conj. cbn [q0 q1]. f_equal. ring. Qed.
Lemma zpow_sq_nn (z : K) h : 0 <= h -> zpow (fmul z z) h = zpow z (2 * h).
Proof. intros N. rewrite zpow_mul_base, zpow_double by exact N. reflexivity. Qed.
Lemma alpha_power (y : K) h : 0 <= h -> fmul (fmul (zpow y h) (zpow y h)) y = zpow y (2 * h + 1).
Proof. intros N. rewrite zpow_succ_r by lia. rewrite zpow_double by exact N. reflexivity. Qed.
Lemma alpha_root (z : K) h : 0 <= h -> fmul (zpow (fmul z z) (2 * h + 1)) z = zpow z (4 * h + 3).
Proof.
  intros N. rewrite zpow_sq_nn by lia. replace (2 * (2 * h + 1)) with (4 * h + 2) by lia.
  rewrite <- zpow_succ_r by lia. f_equal. lia.
Qed.
Lemma half_square (w : K) h : 0 <= h -> fmul (fmul (zpow w (2 * h + 1)) (zpow w (2 * h + 1))) w = zpow w (4 * h + 3).
Proof.
  intros N. rewrite <- zpow_double by lia. rewrite <- zpow_succ_r by lia. f_equal. lia.
Qed.
Lemma conj_of_zero : quad_conj (Quad f0 f0 : quad K) = Quad f0 f0.
Proof. unfold quad_conj. cbn [q0 q1]. f_equal. ring. Qed.
Lemma conj_one_add (x : K) : fadd x f1 = fadd f1 x. Proof. ring. Qed.
End ConjOne.
Lemma Fp2_conj_nonzero (x : Fp2) : x <> f0 -> Fp2_conj x <> f0.
Proof.
  intros N E. apply N. rewrite <- (Fp2_conj_conj x), E. exact (conj_of_zero (K:=Fp)).
Qed.
Lemma Fp2_u_square : fmul Fp2_u Fp2_u = fneg f1.
Proof. exact (eq_trans (imag_mul_imag Fp_minus_one f1 f1) (u_square_gen (K:=Fp))). Qed.

Definition is_square (y : Fp2) : Prop := exists x, fmul x x = y.
Theorem fp2_sqrt_all a y : rep2 a y ->
  ((is_square y -> exists s x, fp2_sqrt a = Some s /\ rep2 s x /\ fmul x x = y) /\
   (~ is_square y -> fp2_sqrt a = None)) /\
  (forall s, fp2_sqrt a = Some s -> exists x, rep2 s x /\ fmul x x = y).
Proof.
  intros R. unfold fp2_sqrt. rewrite (rep2_is_zero _ _ R). destruct (feqb y f0) eqn:Z.
  { apply feqb_spec in Z. subst y. split; [split|].
    3: { intros s E. apply (f_equal (fun o => match o with Some s => s | None => fp2_zero end)) in E. cbv beta iota in E. subst s.
         exists f0. split; [exact rep2_zero|exact (zero_square (K:=Fp2))]. }
    - intros _. exists fp2_zero, f0. split; [reflexivity|]. split; [exact rep2_zero|exact (zero_square (K:=Fp2))].
    - intros N. contradiction N. exists f0. exact (zero_square (K:=Fp2)). }
  apply feqb_false in Z.
  destruct fp2_sqrt_exps_u64 as [U1 U2]. destruct p_43 as (h & E1 & E2 & P & Nh).
  set (A1 := fp2_pow_vartime a fp2_sqrt_exp1). cbv zeta.
  assert (RA1 : rep2 A1 (zpow y h)). { rewrite <- E1, <- fp2_sqrt_exp1_val. apply rep2_pow; assumption. }
  assert (RX : rep2 (fp2_mul A1 a) (fmul (zpow y h) y)) by (apply rep2_mul; assumption).
  assert (RAl : rep2 (fp2_mul (fp2_square A1) a) (zpow y (2 * h + 1))).
  { apply (rep2_to _ _ _ (alpha_power y h Nh)). apply rep2_mul; [apply rep2_square|]; assumption. }
  set (al := zpow y (2 * h + 1)) in *.
  rewrite (rep2_eq _ _ _ _ RAl (rep2_neg _ _ rep2_one)).
  set (root := if feqb al (fneg f1) then _ else _).
  assert (RR : exists x, rep2 root x /\ (is_square y -> fmul x x = y)).
  { unfold root. destruct (feqb al (fneg f1)) eqn:F.
    - apply feqb_spec in F. exists (fmul Fp2_u (fmul (zpow y h) y)). split.
      + destruct RX as [R0 R1]. split.
        * refine (frep_to _ _ _ (rot0 (q0 (fmul (zpow y h) y)) (q1 (fmul (zpow y h) y))) _). apply frep_neg. exact R1.
        * refine (frep_to _ _ _ (rot1 (q0 (fmul (zpow y h) y)) (q1 (fmul (zpow y h) y))) _). exact R0.
      + intros _. apply sqrt_case1; [exact Fp2_u_square|]. exact (eq_trans (alpha_power y h Nh) F).
    - apply feqb_false in F.
      assert (RS : rep2 (fp2_pow_vartime (fp2_add (fp2_mul (fp2_square A1) a) fp2_one) fp2_sqrt_exp2) (zpow (fadd al f1) (2 * h + 1))).
      { rewrite <- E2, <- fp2_sqrt_exp2_val. apply rep2_pow; [apply rep2_add; [exact RAl|exact rep2_one]|exact U2]. }
      exists (fmul (zpow (fadd al f1) (2 * h + 1)) (fmul (zpow y h) y)). split; [apply rep2_mul; assumption|].
      intros [z S].
      assert (Nz : z <> f0). { intros ->. apply Z. rewrite <- S. exact (zero_square (K:=Fp2)). }
      apply (sqrt_case2 y (zpow y h) al (zpow (fadd al f1) (2 * h + 1)) (Fp2_conj al)).
      + exact (alpha_power y h Nh).
      + apply not_m1. exact F.
      + rewrite half_square by exact Nh. rewrite <- P, Fp2_frobenius, Fp2_conj_add.
        rewrite (quad_conj_one : Fp2_conj f1 = f1). apply conj_one_add.
      + assert (AZ : fmul al z = Fp2_conj z).
        { unfold al. rewrite <- S, alpha_root, <- P by exact Nh. apply Fp2_frobenius. }
        apply (unit_conj z al (Fp2_conj z) (Fp2_conj al)); [exact Nz|apply Fp2_conj_nonzero; exact Nz|exact AZ|].
        rewrite <- Fp2_conj_mul, AZ. apply Fp2_conj_conj. }
  destruct RR as (x & RR & SQ). rewrite (rep2_eq _ _ _ _ (rep2_square _ _ RR) R). split; [split|].
  3: { intros s E. destruct (feqb (fmul x x) y) eqn:F; [|discriminate E]. apply feqb_spec in F.
       apply (f_equal (fun o => match o with Some s => s | None => root end)) in E. cbv beta iota in E. rewrite <- E.
       exists x. split; [exact RR|exact F]. }
  - intros S. rewrite (SQ S), feqb_refl. exists root, x. split; [reflexivity|]. split; [exact RR|exact (SQ S)].
  - intros NS. destruct (feqb (fmul x x) y) eqn:F; [|reflexivity]. contradiction NS. exists x. apply feqb_spec. exact F.
Qed.
Theorem fp2_sqrt_spec a y : rep2 a y ->
  (is_square y -> exists s x, fp2_sqrt a = Some s /\ rep2 s x /\ fmul x x = y) /\
  (~ is_square y -> fp2_sqrt a = None).
Proof. intros R. exact (proj1 (fp2_sqrt_all a y R)). Qed.
