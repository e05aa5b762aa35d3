(** * Proof_G2Sub: the points of the second curve killed by r are the multiples of the generator *)
From Coq Require Import ZArith List Bool Lia Znumtheory FinFun Ring Field.
From Verif Require Import Base Fld Zr Zp Spec_Curve Model_Curve Spec_CurveCode Model_Fp Spec_Fp
  Proof_Curve Proof_CurveCode Proof_CurveMul Proof_Endo Model_G1 Proof_FpRep Proof_FpTop Proof_G1Base Proof_Chain Cert_G1 Proof_G1Gen Proof_G1Mul Proof_G1Sub Proof_Ladder Spec_G2 Proof_G2Base Proof_G2Psi
  Power Tower Ext Spec_Ext Proof_Lines Proof_Side Proof_Bilin Spec_Pair Proof_PairSides.
Import ListNotations.
Local Open Scope Z_scope.

(** ** two independent points of prime order *)
Section Two.
Context {K : fld} (b : K) (H2 : (fadd f1 f1 : K) <> f0) (NoTwo : forall x : K, fadd (fmul (fmul x x) x) b <> f0).
Local Notation ADD := (point_add (K:=K)).
Let A_ := point_add_assoc b H2 NoTwo.
Let C_ := point_add_comm b H2 NoTwo.
Let ON_ := point_add_on_curve b H2 NoTwo.
Let NON_ := point_neg_on_curve b.
Let ZADD := pt_zmul_add (b:=b) H2 NoTwo.
Let ZMUL := pt_zmul_mul (b:=b) H2 NoTwo.
Let ZOPP := pt_zmul_opp (b:=b) H2 NoTwo.
Let ZON := zmul_on_curve (b:=b) H2 NoTwo.
Lemma add_sub_2 P Q R S : on_curve b P -> on_curve b Q -> on_curve b R -> on_curve b S ->
  ADD P Q = ADD R S -> ADD Q (point_neg S) = ADD R (point_neg P).
Proof.
  intros CP CQ CR CS E. pose proof (NON_ _ CS) as NS. pose proof (NON_ _ CP) as NP.
  apply (pt_cancel (b:=b) H2 NoTwo P); [exact CP|apply ON_; assumption|apply ON_; assumption|].
  rewrite A_ by assumption. rewrite E. rewrite <- A_ by assumption. rewrite point_add_neg_r.
  rewrite (C_ R (point_neg P)) by assumption. rewrite (A_ P) by assumption. rewrite point_add_neg_r, point_add_0_l.
  rewrite C_ by (assumption || exact I). apply point_add_0_l.
Qed.
Lemma zmul_sub_2 m n P : on_curve b P -> point_zmul (m - n) P = ADD (point_zmul m P) (point_neg (point_zmul n P)).
Proof. intros C. unfold Z.sub. rewrite ZADD, ZOPP by exact C. reflexivity. Qed.
Definition grid q (G P : point K) (i : Z) : point K := ADD (point_zmul (i / q) G) (point_zmul (i mod q) P).
Lemma grid_on q G P i : on_curve b G -> on_curve b P -> on_curve b (grid q G P i).
Proof. intros. apply ON_; apply ZON; assumption. Qed.
Lemma grid_killed q G P i : on_curve b G -> on_curve b P -> point_zmul q G = Infinity -> point_zmul q P = Infinity -> point_zmul q (grid q G P i) = Infinity.
Proof.
  intros CG CP OG OP. unfold grid. rewrite (pt_zmul_add_r (b:=b) H2 NoTwo) by (apply ZON; assumption).
  rewrite <- !ZMUL by assumption. rewrite (Z.mul_comm q (i / q)), (Z.mul_comm q (i mod q)), !ZMUL by assumption. rewrite OG, OP, !(pt_zmul_inf (b:=b) H2 NoTwo). reflexivity.
Qed.
Lemma grid_inj q G P : prime q -> on_curve b G -> G <> Infinity -> point_zmul q G = Infinity -> on_curve b P -> point_zmul q P = Infinity ->
  (forall a, P <> point_zmul a G) -> forall i j, 0 <= i < q * q -> 0 <= j < q * q -> grid q G P i = grid q G P j -> i = j.
Proof.
  intros PR CG NG OG CP OP M i j I J E. pose proof (prime_ge_2 _ PR) as Q2.
  pose proof (ZON (i / q) _ CG) as X1. pose proof (ZON (i mod q) _ CP) as X2.
  pose proof (ZON (j / q) _ CG) as X3. pose proof (ZON (j mod q) _ CP) as X4.
  assert (E' := add_sub_2 _ _ _ _ X1 X2 X3 X4 E). rewrite <- !zmul_sub_2 in E' by assumption.
  pose proof (Z.mod_pos_bound i q). pose proof (Z.mod_pos_bound j q).
  assert (EM : i mod q = j mod q).
  { destruct (Z.eq_dec ((i mod q - j mod q) mod q) 0) as [Z0|Z0].
    - apply (mod_range_eq q); lia || exact Z0.
    - exfalso. destruct (unit_mod q _ PR Z0) as (u & k & U).
      apply (M (u * (j / q - i / q))). rewrite ZMUL by exact CG. rewrite <- E'. rewrite <- ZMUL by exact CP.
      rewrite U. rewrite ZADD, (pt_zmul_1 (b:=b)) by exact CP. rewrite ZMUL by exact CP. rewrite OP.
      rewrite (pt_zmul_inf (b:=b) H2 NoTwo). rewrite C_ by (exact CP || exact Logic.I). symmetry. apply point_add_0_l. }
  assert (ED : i / q = j / q).
  { rewrite EM, Z.sub_diag in E'. change (point_zmul 0 P) with (Infinity : point K) in E'. symmetry in E'.
    pose proof (pt_zmul_prime_order (b:=b) H2 NoTwo q _ G CG PR OG E' NG) as Z0.
    symmetry. apply (mod_range_eq q); [| |exact Z0].
    - split; [apply Z.div_pos; lia|apply Z.div_lt_upper_bound; lia].
    - split; [apply Z.div_pos; lia|apply Z.div_lt_upper_bound; lia]. }
  rewrite (Z.div_mod i q), (Z.div_mod j q) by lia. rewrite EM, ED. reflexivity.
Qed.
Lemma multiple_dec_2 n (G P : point K) : 0 <= n ->
  {exists a, 0 <= a < n /\ P = point_zmul a G} + {forall a, 0 <= a < n -> P <> point_zmul a G}.
Proof.
  intros N. destruct (bounded_dec (fun i => P = point_zmul (Z.of_nat i) G) (fun i => point_dec _ _) (Z.to_nat n)) as [H|H].
  - left. destruct H as (i & I & H). exists (Z.of_nat i). split; [lia|exact H].
  - right. intros a A E. apply (H (Z.to_nat a)); [lia|]. rewrite Z2Nat.id by lia. exact E.
Qed.
(** the x-coordinates of the grid *)
Lemma grid_x q G P : prime q -> on_curve b G -> G <> Infinity -> point_zmul q G = Infinity -> on_curve b P -> point_zmul q P = Infinity ->
  (forall a, P <> point_zmul a G) ->
  exists xs, NoDup xs /\ (Z.to_nat (q * q - 1) <= 2 * length xs)%nat /\ forall x, In x xs -> exists y, on_curve b (Affine x y) /\ point_zmul q (Affine x y) = Infinity.
Proof.
  intros PR CG NG OG CP OP M. pose proof (prime_ge_2 _ PR) as Q2. pose proof (grid_inj q G P PR CG NG OG CP OP M) as J.
  set (n := Z.to_nat (q * q - 1)). set (l := map (fun i => grid q G P (Z.of_nat i)) (seq 1 n)).
  assert (RANGE : forall i, In i (seq 1 n) -> 0 < Z.of_nat i < q * q) by (intros i H; apply in_seq in H; unfold n in H; nia).
  assert (ZERO : grid q G P 0 = Infinity).
  { unfold grid. rewrite Z.div_0_l, Z.mod_0_l by lia. reflexivity. }
  assert (ND : NoDup l).
  { assert (H : forall s, NoDup s -> (forall i, In i s -> 0 < Z.of_nat i < q * q) -> NoDup (map (fun i => grid q G P (Z.of_nat i)) s)).
    { induction s as [|a s IH]; intros N B; cbn [map]; constructor.
      - intros X. apply in_map_iff in X. destruct X as (i & E & X). apply J in E.
        + apply Nat2Z.inj in E. subst i. inversion N; contradiction.
        + specialize (B i (or_intror X)). lia.
        + specialize (B a (or_introl eq_refl)). lia.
      - apply IH; [inversion N; assumption|]. intros i X. apply B. right. exact X. }
    apply H; [apply seq_NoDup|exact RANGE]. }
  destruct (half_x b (length l) l (le_n _) ND) as (xs & NX & LX & HX).
  - intros Q X. apply in_map_iff in X. destruct X as (i & <- & X). split; [apply grid_on; assumption|]. intros Z. rewrite <- ZERO in Z.
    specialize (RANGE i X). apply J in Z; lia.
  - exists xs. split; [exact NX|]. split; [unfold l in LX; rewrite map_length, seq_length in LX; exact LX|].
    intros x X. destruct (HX x X) as (y & Y). exists y. apply in_map_iff in Y. destruct Y as (i & E & Y). rewrite <- E.
    split; [apply grid_on; assumption|apply grid_killed; assumption].
Qed.
End Two.

(** ** the polynomial *)
Definition hr : positive := Z.to_pos ((r - 1) / 2).
Lemma hr_r : Zpos (xI hr) = r. Proof. vm_compute. reflexivity. Qed.
Lemma square_count k : Z.to_nat ((2 * Z.of_nat k + 1) * (2 * Z.of_nat k + 1) - 1) = (2 * (2 * k * (k + 1)))%nat.
Proof. apply Nat2Z.inj. rewrite Z2Nat.id by nia. nia. Qed.
Lemma count_r : Z.to_nat (r * r - 1) = (2 * (2 * Pos.to_nat hr * (Pos.to_nat hr + 1)))%nat.
Proof.
  rewrite <- (square_count (Pos.to_nat hr)), positive_nat_Z. apply (f_equal (fun z => Z.to_nat (z * z - 1))). rewrite <- hr_r. reflexivity.
Qed.
Definition tpoly : Fp12 -> Fp12 := xpoly b12 hr.
Section Cube.
Context {K : fld}.
Add Field Kcu : (fld_field K).
Lemma cube_six (x w : K) : fmul x (fmul (fmul (fmul w w) (fmul w w)) (fmul w w)) = fmul x (fmul (fmul (fmul (fmul (fmul w w) w) w) w) w).
Proof. ring. Qed.
Lemma cube_one (x : K) : fmul x (fmul (fmul f1 f1) f1) = x. Proof. ring. Qed.
Lemma sub_self (x : K) : fsub x x = f0. Proof. ring. Qed.
Lemma mul_f1 (x : K) : fmul x f1 = x. Proof. ring. Qed.
End Cube.
Lemma w_inv_nz : w_inv <> f0. Proof. exact (finv_neq_0 (K:=Fp12) _ w_nz). Qed.
Definition emb2_sub := hom_sub (k:=Fp2) (K:=Fp12) embed2 emb2_add.
Definition emb1_sub := hom_sub (k:=Fp) (K:=Fp12) embed1 emb1_add.
Lemma tpoly_second (x y : Fp2) : on_curve bq (Affine x y) -> point_zmul r (Affine x y) = Infinity -> tpoly (untwist_x x) = f0.
Proof.
  intros C O. unfold untwist_x, tpoly.
  apply (proj2 (xpoly_scale (k:=Fp2) (K:=Fp12) embed2 (fmul w_inv w_inv) bq b12 emb2_one emb2_add emb2_sub emb2_mul
    (mul_nonzero (K:=Fp12) _ _ w_inv_nz w_inv_nz) (eq_trans (cube_six (K:=Fp12) _ _) untwist_b) hr x)).
  apply (proj1 (xpoly_ok bq Fp2_two Fp2_NoTwo hr x y C)). rewrite hr_r. exact O.
Qed.
Lemma tpoly_first (x y : Fp) : on_curve b4 (Affine x y) -> (point_zmul r (Affine x y) = Infinity <-> tpoly (embed1 x) = f0).
Proof.
  intros C. unfold tpoly. pose proof (xpoly_scale (k:=Fp) (K:=Fp12) embed1 f1 b4 b12 e1_one emb1_add emb1_sub emb1_mul
    (@f1_neq_0 Fp12) (cube_one (K:=Fp12) _) hr x) as S. rewrite (mul_f1 (K:=Fp12)) in S.
  pose proof (xpoly_ok b4 Fp_two Fp_NoTwo hr x y C) as O. rewrite hr_r in O. split; intros H.
  - apply S. apply O. exact H.
  - apply O. apply S. exact H.
Qed.
(** a point of order three *)
Section Three.
Context {K : fld}.
Add Field Kth : (fld_field K).
Lemma double_zero_x (y : K) : fmul (fadd f1 f1) y <> f0 -> point_add (Affine f0 y) (Affine f0 y) = Affine f0 (fneg y).
Proof.
  intros N. cbn [point_add]. rewrite feqb_refl. assert (NE : y <> fneg y). { intros E. apply N. transitivity (fadd y y); [ring|]. rewrite E at 2. ring. }
  rewrite (proj2 (feqb_false _ _) NE). unfold third. cbv zeta. assert (N2 : (fadd f1 f1 : K) <> f0) by (intros E; apply N; rewrite E; ring).
  assert (NY : y <> f0) by (intros E; apply N; rewrite E; ring).
  apply (f_equal2 Affine); field; split; assumption.
Qed.
End Three.
Definition T3 : point Fp := Affine f0 (fp_of 2).
Lemma T3_on : on_curve b4 T3.
Proof. change T3 with (apt 0 2). apply apt_on. vm_compute. reflexivity. Qed.
Lemma T3_order : point_zmul 3 T3 = Infinity.
Proof.
  change 3 with (1 + 1 + 1). rewrite !(G1_ZADD _ _ T3 T3_on), (G1_ONE T3 T3_on). unfold T3 at 1 2. rewrite (double_zero_x (K:=Fp)).
  - change (Affine f0 (fneg (fp_of 2))) with (point_neg T3). rewrite (C_ (point_neg T3) T3 (NON_ _ T3_on) T3_on). apply point_add_neg_r.
  - exact (apt_y_nonzero 0 2 T3_on).
Qed.
Lemma T3_multiple k : point_zmul (k * 3 + 1) T3 = T3.
Proof.
  rewrite (G1_ZADD (k * 3) 1 T3 T3_on), (G1_ONE T3 T3_on), (G1_ZMUL k 3 T3 T3_on), T3_order.
  rewrite (pt_zmul_inf (b:=b4) Fp_two Fp_NoTwo). apply point_add_0_l.
Qed.
Lemma T3_next n : n mod 3 = 1 -> point_zmul n T3 = T3.
Proof. intros E. rewrite (Z.div_mod n 3) by discriminate. rewrite E, (Z.mul_comm 3). apply T3_multiple. Qed.
Lemma T3_r : point_zmul r T3 <> Infinity.
Proof. rewrite (T3_next r); [discriminate|vm_compute; reflexivity]. Qed.
Theorem g2_multiples P : on_curve bq P -> point_zmul r P = Infinity -> exists a, 0 <= a < r /\ P = point_zmul a G2gen.
Proof.
  intros CP OP. destruct (multiple_dec_2 r G2gen P) as [H|H]; [discriminate|exact H|]. exfalso.
  assert (M : forall a, P <> point_zmul a G2gen).
  { intros a E. apply (H (a mod r)); [apply Z.mod_pos_bound; reflexivity|].
    rewrite E. symmetry. apply (pt_zmul_mod (b:=bq) Fp2_two Fp2_NoTwo); [exact G2gen_on|discriminate|exact gen2_order]. }
  destruct (grid_x bq Fp2_two Fp2_NoTwo r G2gen P r_prime G2gen_on G2gen_finite gen2_order CP OP M) as (xs & NX & LX & HX).
  rewrite count_r in LX. apply T3_r. apply (tpoly_first f0 (fp_of 2) T3_on).
  refine (pdeg_roots (K:=Fp12) tpoly _ (embed1 (fp_of gx) :: map untwist_x xs) (xpoly_deg b12 hr) _ _ _ (embed1 f0)).
  - constructor.
    + intros I. apply in_map_iff in I. destruct I as (x & E & I). destruct (HX x I) as (y & C & _).
      destruct (x_apart (fp_of gx) x y C) as [_ N]. apply N. rewrite E. exact (sub_self (K:=Fp12) _).
    + apply Injective_map_NoDup; [|exact NX]. intros x x' E. exact (s_ex_inj _ _ _ _ _ side2 x x' E).
  - cbn [length]. rewrite map_length. lia.
  - intros x [<-|I].
    + apply (tpoly_first (fp_of gx) (fp_of gy) G1gen_on). exact gen_order.
    + apply in_map_iff in I. destruct I as (x' & <- & I). destruct (HX x' I) as (y & C & O). exact (tpoly_second x' y C O).
Qed.
Theorem torsion_eigen P : on_curve bq P -> point_zmul r P = Infinity -> g2_eigen P.
Proof.
  intros CP OP. destruct (g2_multiples P CP OP) as (a & _ & ->). split; [exact CP|]. rewrite psi_spec.
  rewrite <- (psi_zmul a G2gen G2gen_on). rewrite psi_gen. rewrite <- !(G2_ZMUL _ _ G2gen G2gen_on), Z.mul_comm. reflexivity.
Qed.
