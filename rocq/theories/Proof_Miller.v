(** * Proof_Miller: the Miller loops compute the function of the specification, up to factors that the final power removes *)
From Coq Require Import ZArith List Bool Lia Ring Field.
From Verif Require Import Base Fld Tables Zr Zp Spec_Fp Model_Scalar Model_Fp Proof_FpRep Proof_FpTop Proof_G1Base Model_Curve Model_Fp2 Model_Fp12 Model_G1 Model_G2 Model_Pair Spec_Curve Proof_Curve Proof_CurveMul Proof_Endo Spec_CurveCode Proof_CurveCode Spec_G1 Spec_G2 Proof_G2Base Proof_G2Psi Proof_Lines Proof_Side Proof_Bilin Spec_Ext Proof_Fp2 Proof_Fp12 Proof_ExtTop Power Tower Ext Proof_Cyclo Spec_Pair Proof_FinalExp Proof_Gt Proof_PairSides Proof_Steps.
Import ListNotations.
Local Open Scope Z_scope.

(** ** the final power of the values *)
Section OddRoot.
Context {K : fld}.
Add Field Kor : (fld_field K).
Lemma odd_root (x : K) h : 0 <= h -> fmul x x = f1 -> zpow x (2 * h + 1) = f1 -> x = f1.
Proof.
  intros H E R. rewrite zpow_add_nn in R by lia. rewrite zpow_mul_nn in R by lia. rewrite zpow_2, E, zpow_1_l, zpow_1 in R.
  rewrite <- R. ring.
Qed.
Lemma one_one : (fmul f1 f1 : K) = f1. Proof. ring. Qed.
Lemma mul_1_r (x : K) : fmul x f1 = x. Proof. ring. Qed.
Lemma mul_1_l (x : K) : fmul f1 x = x. Proof. ring. Qed.
Lemma shuffle_square (a b g : K) : fmul (fmul (fmul a g) (fmul a g)) f1 = fmul (fmul a a) (fmul g g). Proof. ring. Qed.
End OddRoot.
Notation GG := (G untwist_y untwist_m chi).
Lemma chi_one : chi f1 = f1. Proof. unfold chi. apply zpow_1_l. Qed.
Lemma r_half : r = 2 * ((r - 1) / 2) + 1 /\ 0 <= (r - 1) / 2.
Proof. vm_compute. split; [reflexivity|discriminate]. Qed.
Lemma chi_w : chi Fp12_root = f1.
Proof.
  destruct r_half as [E H]. apply (odd_root (K:=Fp12) _ ((r - 1) / 2) H).
  - rewrite <- chi_product, root_is_w, w_square. apply chi_small_unit; [exists Fp6_v; reflexivity|exact (of12_nz _ v_nz)].
  - rewrite <- E. apply chi_root. intros Z.
    assert (W : chi (fmul Fp12_root Fp12_root) = f1) by (rewrite root_is_w, w_square; apply chi_small_unit; [exists Fp6_v; reflexivity|exact (of12_nz _ v_nz)]).
    rewrite chi_product, Z in W. apply (@f1_neq_0 Fp12). rewrite <- W. exact (zero_zero (K:=Fp12)).
Qed.
Lemma chi_embed2 (k : Fp2) : k <> f0 -> chi (embed2 k) = f1.
Proof.
  intros N. apply chi_small_unit; [exists (Fp6_of k); reflexivity|]. exact (hom_nz (k:=Fp2) (K:=Fp12) embed2 emb2_one emb2_mul k N).
Qed.
Section Abs.
Context {k1 k K : fld} (l1 : k1 -> K) (ly lm : k -> K) (X : K -> K) (X1 : X f1 = f1) (XM : forall x y, X (fmul x y) = fmul (X x) (X y)).
Add Field Kab : (fld_field K).
Definition lineG (A B : point k) (P : point k1) : K :=
  match A, B, point_add A B, P with
  | Affine xa ya, Affine _ _, Affine _ _, Affine x y =>
    let m := slope A B in
    fsub (l1 y) (fadd (fmul (lm m) (l1 x)) (ly (fsub ya (fmul m xa))))
  | _, _, _, _ => f1
  end.
Fixpoint millerG (n : nat) (A : point k) (P : point k1) : K :=
  match n with O => f1 | S n => fmul (millerG n A P) (lineG (point_zmul (Z.of_nat n) A) A P) end.
Lemma abs_line A B P : X (lineG A B P) = G ly lm X A B (Proof_Bilin.e1 l1 l1 P).
Proof.
  unfold lineG, G. destruct A as [|xa ya]; [exact X1|]. destruct B as [|xb yb]; [exact X1|].
  destruct (point_add (Affine xa ya) (Affine xb yb)) as [|xs ys]; [exact X1|]. destruct P as [|x y]; [exact X1|reflexivity].
Qed.
Lemma abs_miller n A P : X (millerG n A P) = M ly lm X n A (Proof_Bilin.e1 l1 l1 P).
Proof. induction n as [|n IH]; [exact X1|]. cbn [millerG M]. rewrite XM, IH, abs_line. reflexivity. Qed.
Lemma abs_factor (F u w l : K) : X u = f1 -> X w = f1 -> X (fmul F (fmul (fmul u (fmul (fmul w w) w)) l)) = fmul (X F) (X l).
Proof. intros U W. rewrite !XM, U, W. ring. Qed.
End Abs.
Lemma line_at_is A B P : line_at A B P = lineG embed1 untwist_y untwist_m A B P. Proof. reflexivity. Qed.
Lemma miller_value_is n A P : miller_value n A P = millerG embed1 untwist_y untwist_m n A P.
Proof. reflexivity. Qed.
Lemma chi_line A B P : chi (line_at A B P) = GG A B (e1 P).
Proof. rewrite line_at_is. exact (abs_line embed1 untwist_y untwist_m chi chi_one A B P). Qed.
Lemma chi_factor (F : Fp12) (k : Fp2) A B P : k <> f0 -> chi (fmul F (fmul (fmul (embed2 k) w3) (line_at A B P))) = fmul (chi F) (GG A B (e1 P)).
Proof.
  intros N. rewrite <- chi_line. exact (abs_factor chi chi_product F (embed2 k) Fp12_root (line_at A B P) (chi_embed2 k N) chi_w).
Qed.
Lemma chi_miller n A P : chi (miller_value n A P) = MM n A (e1 P).
Proof. rewrite miller_value_is. exact (abs_miller embed1 untwist_y untwist_m chi chi_one chi_product n A P). Qed.
Lemma chi_conj (F : Fp12) : chi F <> f0 -> chi (Fp12_conj F) = finv (chi F).
Proof.
  intros N. rewrite <- (Fp12_pow_p6 F). assert (E : chi (zpow F (p ^ 6)) = zpow (chi F) (p ^ 6)).
  { unfold chi. apply (zpow_comm (K:=Fp12)); [apply Z.pow_nonneg; exact p_nn|exact final_exponent_nn]. }
  rewrite E, (Fp12_pow_p6 (chi F)). apply cyc_conj, gt_cyc. unfold gt_member. exact (chi_root F N).
Qed.

(** ** points on which the Frobenius map is the multiplication by the parameter *)
Lemma eigen_r Q : g2_eigen Q -> point_zmul r Q = Infinity.
Proof.
  intros [C E]. change (on_curve bq Q) in C. rewrite psi_spec in E.
  replace r with (- (bls_x * bls_x) * - (bls_x * bls_x) + - (bls_x * bls_x) + 1) by (vm_compute; reflexivity).
  apply (eigen_order (b:=bq) Fp2_two Fp2_three Fp2_NoTwo w2 w2_root); [exact C|].
  rewrite G2_ZOPP by exact C. transitivity (point_neg (point_neg (phi2 Q))); [symmetry; apply neg_neg_pt|]. apply (f_equal point_neg).
  transitivity (Proof_G2Psi.psi (Proof_G2Psi.psi Q)); [symmetry; apply psi_twice|]. rewrite E.
  rewrite <- (psi_zmul bls_x Q C). rewrite E. symmetry. apply G2_ZMUL. exact C.
Qed.
Lemma eigen_small Q n : g2_eigen Q -> Q <> Infinity -> 0 < n < r -> point_zmul n Q <> Infinity.
Proof.
  intros EQ NQ H Z. pose proof (pt_zmul_prime_order (b:=bq) Fp2_two Fp2_NoTwo r n Q (proj1 EQ) r_prime (eigen_r Q EQ) Z NQ) as D.
  rewrite Z.mod_small in D by lia. lia.
Qed.
Lemma eigen_bils Q : g2_eigen Q -> eigen bq psi_x psi_y nn Q.
Proof.
  intros [C E]. split; [exact C|]. change (on_curve bq Q) in C. rewrite psi_spec in E. rewrite nn_Z, psi_is, E.
  change BLS_X with (- bls_x). apply G2_ZOPP. exact C.
Qed.

(** ** the order of the steps *)
Fixpoint ops (k : Z) (bits : list bool) : list (Z * Z) :=
  match bits with
  | [] => [(k, k)]
  | c :: bits => (k, k) :: (if c then (2 * k, 1) :: ops (2 * k + 1) bits else ops (2 * k) bits)
  end.
Definition loop_bits : list bool := skipn 2 (bits64 (BLS_X / 2)).
Definition L : list (Z * Z) := ops 1 loop_bits.
Lemma loop_bits_ok : bits64 (BLS_X / 2) = false :: true :: loop_bits. Proof. vm_compute. reflexivity. Qed.
Lemma L_length : length L = 68%nat. Proof. vm_compute. reflexivity. Qed.
Lemma loop_value : bits_value 1 loop_bits = BLS_X / 2. Proof. vm_compute. reflexivity. Qed.
Lemma half_twice : 2 * (BLS_X / 2) = BLS_X. Proof. vm_compute. reflexivity. Qed.
Definition op_ok (o : Z * Z) : bool := ((0 <? fst o) && (fst o <? 2 ^ 65) && ((snd o =? fst o) || ((snd o =? 1) && (1 <? fst o)))).
Lemma L_ok : forallb op_ok L = true. Proof. vm_compute. reflexivity. Qed.
Lemma L_op i a c : nth_error L i = Some (a, c) -> 0 < a < 2 ^ 65 /\ (c = a \/ (c = 1 /\ 1 < a)).
Proof.
  intros E. apply nth_error_In in E. pose proof (proj1 (forallb_forall op_ok L) L_ok _ E) as O. unfold op_ok in O. cbn [fst snd] in O.
  apply andb_prop in O. destruct O as [O1 O]. apply andb_prop in O1. destruct O1 as [O1 O2]. apply Z.ltb_lt in O1, O2. split; [lia|].
  apply orb_prop in O. destruct O as [O|O]; [left; apply Z.eqb_eq, O|right]. apply andb_prop in O. destruct O as [O O']. apply Z.eqb_eq in O. apply Z.ltb_lt in O'. lia.
Qed.
Lemma skipn_cons {T} i (l : list T) x t : skipn i l = x :: t -> nth_error l i = Some x /\ skipn (S i) l = t.
Proof.
  revert l. induction i as [|i IH]; intros [|y l] E; try discriminate E.
  - cbn in E. injection E as -> ->. split; reflexivity.
  - cbn [skipn] in E. destruct (IH _ E) as [A B]. split; [exact A|]. exact B.
Qed.

Lemma L_start : skipn 0 L = ops 1 loop_bits. Proof. rewrite skipn_O. unfold L. reflexivity. Qed.

Section Loop.
Context {S O : Type} (d : driver S O) (Inv Mid : nat -> Z -> S -> O -> Prop).
Hypothesis H_dbl : forall i k s f, Inv i k s f -> nth_error L i = Some (k, k) -> exists s' f', drv_dbl d s f = Ok (s', f') /\ Mid (Datatypes.S i) (2 * k) s' f'.
Hypothesis H_add : forall i m s f, Mid i m s f -> nth_error L i = Some (m, 1) -> 1 < m -> exists s' f', drv_add d s f = Ok (s', f') /\ Mid (Datatypes.S i) (m + 1) s' f'.
Hypothesis H_sq : forall i m s f, Mid i m s f -> Inv i m s (drv_square d f).
Lemma rounds_ok bits : forall i k s f, Inv i k s f -> skipn i L = ops k bits ->
  exists s' f' i', miller_rounds d bits true s f = Ok (s', f') /\ Inv i' (bits_value k bits) s' f' /\ skipn i' L = [(bits_value k bits, bits_value k bits)].
Proof.
  induction bits as [|c bits IH]; intros i k s f I E.
  - exists s, f, i. split; [reflexivity|]. split; [exact I|exact E].
  - cbn [ops] in E. destruct (skipn_cons _ _ _ _ E) as [E1 E2]. destruct (H_dbl _ _ _ _ I E1) as (s1 & f1' & D & M1).
    cbn [miller_rounds bits_value negb]. rewrite D. cbn [bind]. destruct c.
    + destruct (skipn_cons _ _ _ _ E2) as [E3 E4]. assert (K1 : 1 < 2 * k) by (destruct (L_op _ _ _ E1) as [[? _] _]; lia). destruct (H_add _ _ _ _ M1 E3 K1) as (s2 & f2 & A & M2). cbn [fst snd]. rewrite A. cbn [bind fst snd].
      apply (IH (Datatypes.S (Datatypes.S i))); [apply H_sq; exact M2|exact E4].
    + cbn [bind fst snd]. replace (2 * k + 0) with (2 * k) by lia. apply (IH (Datatypes.S i)); [apply H_sq; exact M1|exact E2].
Qed.
Lemma rounds_skip bs s f : miller_rounds d (false :: true :: bs) false s f = miller_rounds d bs true s f. Proof. reflexivity. Qed.
Theorem loop_ok s : Inv 0 1 s (drv_one d) -> exists s' f', miller_loop d s = Ok (s', drv_conj d f') /\ Mid 68 BLS_X s' f'.
Proof.
  intros I. destruct (rounds_ok loop_bits 0 1 s (drv_one d) I L_start) as (s1 & f1' & i & R & I1 & E). rewrite loop_value in I1, E.
  assert (Ei : i = 67%nat).
  { pose proof (f_equal (@length _) E) as E'. rewrite skipn_length, L_length in E'. cbn [length] in E'. lia. }
  subst i. destruct (skipn_cons _ _ _ _ E) as [E1 _]. destruct (H_dbl _ _ _ _ I1 E1) as (s2 & f2 & D & M2).
  exists s2, f2. rewrite half_twice in M2. split; [|exact M2]. unfold miller_loop. rewrite loop_bits_ok, rounds_skip, R. cbn [bind fst snd]. rewrite D. reflexivity.
Qed.
End Loop.
