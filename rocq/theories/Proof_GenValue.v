(** * Proof_GenValue: what the computation of [Proof_Generator] shows *)
From Coq Require Import ZArith List Bool Lia Ring Field.
From Verif Require Import Base Fld Tables Zr Zp Spec_Fp Model_Scalar Model_Fp Proof_Scalar Proof_Fp Proof_FpRep Proof_FpTop Proof_G1Base Model_Curve Model_Fp2 Model_Fp12 Model_G1 Model_G2 Model_Pair Spec_Curve Proof_Curve Proof_CurveMul Proof_Chain Spec_CurveCode Proof_CurveCode Spec_G1 Spec_G2 Proof_G1Gen Proof_G2Base Proof_Chain2 Proof_G2Psi Proof_Lines Proof_Side Proof_Bilin Spec_Ext Proof_Fp2 Proof_Fp12 Proof_ExtTop Power Tower Ext Proof_Cyclo Spec_Pair Proof_FinalExp Proof_Gt Proof_PairSides Proof_Steps Proof_Miller Proof_Drivers Proof_PairTop Digits Proof_DigTower Proof_Generator.
Import ListNotations.
Local Open Scope Z_scope.

(** ** the constants *)
Definition gen1_x : Fp := fp_of 0x17f1d3a73197d7942695638c4fa9ac0fc3688c4f9774b905a14e3a3f171bac586c55e83ff97a1aeffb3af00adb22c6bb.
Definition gen1_y : Fp := fp_of 0x08b3f481e3aaa0f1a09e30ed741d8ae4fcf5e095d5d00af600db18cb2c04b3edd03cc744a2888ae40caa232946c5e7e1.
Lemma gen1_is : g1_gen = Affine gen1_x gen1_y. Proof. reflexivity. Qed.
Definition gen2_x : Fp2 := match g2_gen with Affine x _ => x | Infinity => f0 end.
Definition gen2_y : Fp2 := match g2_gen with Affine _ y => y | Infinity => f0 end.
Lemma gen2_is : g2_gen = Affine gen2_x gen2_y. Proof. reflexivity. Qed.
Definition nk : Fp := fp_of nk_z.
Definition nkx : Fp := fp_of nkx_z.
Lemma nk_d_ok : drep nk_d nk. Proof. apply drep_lit. vm_compute. reflexivity. Qed.
Lemma nkx_d_ok : drep nkx_d nkx. Proof. apply drep_lit. vm_compute. reflexivity. Qed.
Lemma one_d_ok : drep one_d f1. Proof. change (f1 : Fp) with (fp_of 1). apply drep_lit. vm_compute. reflexivity. Qed.
Lemma qx_d_ok : drep2 qx_d gen2_x. Proof. split; apply drep_lit; vm_compute; reflexivity. Qed.
Lemma qy_d_ok : drep2 qy_d gen2_y. Proof. split; apply drep_lit; vm_compute; reflexivity. Qed.
Lemma gamma_d_ok : drep2 gamma_d gamma.
Proof. split; [|refine (drep_to _ (fp_of _) _ (fp_of_neg _) _)]; apply drep_lit; vm_compute; reflexivity. Qed.
Lemma gamma2_d_ok : drep2 gamma2_d gamma2.
Proof. split; [change (q0 gamma2) with (fp_of 0)|refine (drep_to _ (fp_of _) _ (fp_of_neg _) _)]; apply drep_lit; vm_compute; reflexivity. Qed.
Lemma gamma4_d_ok : drep2 gamma4_d gamma4.
Proof.
  split; [|change (q1 gamma4) with (fp_of 0); apply drep_lit; vm_compute; reflexivity].
  assert (E : fp_of (- (0x5f19672fdf76ce51ba69c6076a0f77eaddb3a93be6f89688de17d813620a00022e01fffffffeffff * 0x5f19672fdf76ce51ba69c6076a0f77eaddb3a93be6f89688de17d813620a00022e01fffffffeffff)) = q0 gamma4).
  { rewrite fp_of_neg. rewrite fp_of_mul. reflexivity. }
  refine (drep_to _ _ _ E _). apply drep_lit. vm_compute. reflexivity.
Qed.
Lemma one12_d_ok : d12 one12_d f1.
Proof. split; (split; [|split]); first [exact (drep2_one _ one_d_ok)|exact (conj drep_0 drep_0)]. Qed.
Lemma nk_y : fmul nk gen1_y = fneg f1.
Proof. unfold nk, gen1_y. rewrite <- fp_of_mul. change (f1 : Fp) with (fp_of 1). rewrite <- fp_of_neg. apply fp_of_eq. vm_compute. reflexivity. Qed.
Lemma nk_x : nkx = fmul nk gen1_x.
Proof. unfold nk, gen1_x, nkx. rewrite <- fp_of_mul. apply fp_of_eq. vm_compute. reflexivity. Qed.
(** every canonical number stands for something *)
Definition wfd (n : num) : bool := nv n <? p.
Definition wf2d (a : t2) : bool := let (x, y) := a in if wfd x then wfd y else false.
Section Quot.
Context {K : fld}.
Add Field Kgv : (fld_field K).
Lemma quot_mul (x k : K) : k <> f0 -> x = fmul (fdiv x k) k. Proof. intros N. field. exact N. Qed.
End Quot.
Lemma wfd_ok n : wfd n = true -> exists x : Fp, drep n x.
Proof. intros H. apply Z.ltb_lt in H. exists (fdiv (fp_of (nv n)) RP). split; [exact H|exact (quot_mul (K:=Fp) _ RP RP_neq_0)]. Qed.
Lemma wf2d_ok a : wf2d a = true -> exists x : Fp2, drep2 a x.
Proof.
  destruct a as [a b]. cbn [wf2d]. destruct (wfd a) eqn:A; [|discriminate]. intros B.
  destruct (wfd_ok a A) as [x X]. destruct (wfd_ok b B) as [y Y]. exists (Quad x y). exact (conj X Y).
Qed.
Definition wf6d (a : t6) : bool := let (x, y, z) := a in if wf2d x then if wf2d y then wf2d z else false else false.
Definition wf12d (a : t12) : bool := let (x, y) := a in if wf6d x then wf6d y else false.
Lemma wf6d_ok a : wf6d a = true -> exists x : Fp6, d6 a x.
Proof.
  destruct a as [a b c]. cbn [wf6d]. destruct (wf2d a) eqn:A; [|discriminate]. destruct (wf2d b) eqn:B; [|discriminate]. intros C.
  destruct (wf2d_ok a A) as [x X]. destruct (wf2d_ok b B) as [y Y]. destruct (wf2d_ok c C) as [z Z]. exists (Cubic x y z). exact (conj X (conj Y Z)).
Qed.
Lemma wf12d_ok a : wf12d a = true -> exists x : Fp12, d12 a x.
Proof.
  destruct a as [a b]. cbn [wf12d]. destruct (wf6d a) eqn:A; [|discriminate]. intros B.
  destruct (wf6d_ok a A) as [x X]. destruct (wf6d_ok b B) as [y Y]. exists (Quad x y). exact (conj X Y).
Qed.

(** ** one line *)
Section LineAlg.
Context {K : fld}.
Add Field Kga : (fld_field K).
Local Open Scope fld_scope.
Lemma la1 (h c : K) : - (- h * c) = c * h. Proof. ring. Qed.
Lemma la2 (h m x : K) : - (- h * m) * x = m * (h * x). Proof. ring. Qed.
Lemma la3 (h y : K) : h * y = - (1) -> - h * y = 1. Proof. intros E. transitivity (- (h * y)); [ring|]. rewrite E. ring. Qed.
Lemma la4 (h y : K) : h * y = - (1) -> - h <> 0.
Proof. intros E N. apply (@f1_neq_0 K). transitivity (- (h * y)); [rewrite E; ring|]. transitivity (- h * y); [ring|]. rewrite N. ring. Qed.
Lemma dbl_slope_is (x y m : K) : (1 + 1) * y <> 0 -> m * ((1 + 1) * y) = (1 + 1 + 1) * (x * x) -> slope (Affine x y) (Affine x y) = m.
Proof. intros N M. unfold slope. rewrite feqb_refl. exact (div_unique' _ _ m N M). Qed.
Lemma add_slope_is (x y x2 y2 m : K) : x2 - x <> 0 -> m * (x2 - x) = y2 - y -> slope (Affine x y) (Affine x2 y2) = m.
Proof.
  intros N M. unfold slope. rewrite (proj2 (feqb_false x x2)); [exact (div_unique' _ _ m N M)|]. intros E. apply N. rewrite E. ring.
Qed.
Lemma twice (y : K) : y + y = (1 + 1) * y. Proof. ring. Qed.
Lemma thrice (y : K) : y + y + y = (1 + 1 + 1) * y. Proof. ring. Qed.
Lemma differ_sub (x y : K) : x <> y -> x - y <> 0. Proof. intros N E. apply N. apply fsub_eq_0. exact E. Qed.
End LineAlg.
Lemma minus_one2 : Fp2_of (fneg f1) = fneg f1. Proof. symmetry. exact (quad_of_neg (K:=Fp) f1). Qed.
Lemma h_y : fmul (Fp2_of nk) (Fp2_of gen1_y) = fneg f1.
Proof. rewrite <- of2_mul, nk_y. exact minus_one2. Qed.
Lemma line_ok f (F : Fp12) m x y (M xa ya : Fp2) B : d12 f F -> drep2 m M -> drep2 x xa -> drep2 y ya ->
  slope (Affine xa ya) B = M -> B <> Infinity -> point_add (Affine xa ya) B <> Infinity ->
  d12 (line_d f m x y) (fmul F (fmul (fmul (embed2 (fneg (Fp2_of nk))) w3) (line_at (Affine xa ya) B g1_gen))).
Proof.
  intros RF RM RX RY SL NB NS. unfold line_d.
  pose proof (drep2_mul21 _ _ _ _ (drep2_sub _ _ _ _ RY (drep2_mul _ _ _ _ RM RX)) nk_d_ok) as R0.
  pose proof (drep2_mul21 _ _ _ _ RM nkx_d_ok) as R1.
  refine (d12_to _ _ _ (d12_mul_line _ _ _ _ _ _ _ one_d_ok RF R0 R1) _). apply (f_equal (fmul F)).
  rewrite gen1_is. unfold line_at. destruct B as [|xb yb]; [destruct NB; reflexivity|].
  destruct (point_add (Affine xa ya) (Affine xb yb)) as [|xs ys]; [destruct NS; reflexivity|]. rewrite SL. cbv zeta.
  clear - SL. set (c := fsub ya (fmul M xa)). clearbody c. clear SL.
  unfold s014, s01, s1. etransitivity; [exact (sparse_sum xi xi_noncube v_nonsquare _ _ _)|]. cbv zeta.
  change (Quad (f0 : Fp6) (f1 : Fp6)) with Fp12_root.
  rewrite nk_x, of2_mul. rewrite <- (la1 (K:=Fp2) (Fp2_of nk) c), <- (la2 (K:=Fp2) (Fp2_of nk) M (Fp2_of gen1_x)).
  pose proof (la3 (K:=Fp2) _ _ h_y) as E1. set (k := fneg (Fp2_of nk)) in *. clearbody k.
  assert (E2 : @Quad Fp6 (@Cubic Fp2 f1 f0 f0) f0 = embed2 (fmul k (Fp2_of gen1_y))) by (rewrite E1; reflexivity).
  change (fadd (fadd (embed2 (fneg (fmul k c))) (fmul (embed2 (fmul (fneg (fmul k M)) (Fp2_of gen1_x))) (fmul Fp12_root Fp12_root))) (fmul (embed2 f1) w3) =
    fmul (fmul (embed2 k) w3) (fsub (embed1 gen1_y) (fadd (fmul (fmul (embed2 M) w_inv) (embed1 gen1_x)) (fmul (embed2 c) (fmul (fmul w_inv w_inv) w_inv))))).
  rewrite <- E1. clear E1 E2.
  rewrite (emb2_neg (fmul k c)), (emb2_mul k c), (emb2_mul (fneg (fmul k M)) (Fp2_of gen1_x)), (emb2_neg (fmul k M)), (emb2_mul k M), (emb2_mul k (Fp2_of gen1_y)), <- !emb1_is.
  exact (line_scale (K:=Fp12) Fp12_root (embed2 k) (embed2 c) (embed2 M) (embed1 gen1_x) (embed1 gen1_y) w_nz).
Qed.
Lemma gen2_on : on_curve bq g2_gen. Proof. exact (proj1 gen2_sub). Qed.
Lemma gen1_on : on_curve b4 g1_gen. Proof. exact G1gen_on. Qed.
(** ** the loop *)
Fixpoint kval (l : list (bool * t2)) (k : Z) : Z := match l with [] => k | (b, _) :: l => kval l (if b then k + 1 else 2 * k) end.
Lemma third_aff {K : fld} (m x y x2 : K) : third m x y x2 <> Infinity. Proof. discriminate. Qed.
Lemma y_nonzero (x y : Fp2) : on_curve bq (Affine x y) -> fmul (fadd f1 f1) y <> f0.
Proof.
  intros C. apply mul_nonzero; [exact Fp2_two|]. intros E. change (fmul y y = fadd (fmul (fmul x x) x) bq) in C. rewrite E in C.
  apply (Fp2_NoTwo x). rewrite <- C. apply zero_scale.
Qed.
Lemma run_ok l : forall x y f X Y (F : Fp12) k f', drep2 x X -> drep2 y Y -> d12 f F -> 0 < k -> point_zmul k g2_gen = Affine X Y -> chi F = mk g1_gen g2_gen k ->
  forallb (fun s => wf2d (snd s)) l = true -> run_d l x y f = Some f' -> exists F', d12 f' F' /\ chi F' = mk g1_gen g2_gen (kval l k).
Proof.
  induction l as [|[b m] l IH]; intros x y f X Y F k f' RX RY RF K P CH WF E.
  - cbn [run_d] in E. apply (f_equal (fun o => match o with Some s => s | None => f end)) in E. cbv iota beta in E. rewrite <- E. exists F. exact (conj RF CH).
  - cbn [forallb snd] in WF. apply andb_true_iff in WF as [WM WF]. destruct (wf2d_ok m WM) as [M RM]. clear WM.
    cbn [run_d] in E. cbn [kval]. pose proof (G2_ZON k _ gen2_on) as CX. rewrite P in CX. destruct b.
    + destruct (same2 qx_d x) eqn:NX; [discriminate E|]. destruct (same2 (mul2 m (sub2 qx_d x)) (sub2 qy_d y)) eqn:S; [|discriminate E]. cbv zeta in E.
      destruct (full2 _) in E; [|discriminate E]. destruct (full2 _) in E; [|discriminate E]. destruct (full12 _) in E; [|discriminate E].
      pose proof (differ_sub (K:=Fp2) _ _ (drep2_differ _ _ _ _ qx_d_ok RX NX)) as N.
      pose proof (drep2_same _ _ _ _ (drep2_mul _ _ _ _ RM (drep2_sub _ _ _ _ qx_d_ok RX)) (drep2_sub _ _ _ _ qy_d_ok RY) S) as EM.
      pose proof (add_slope (K:=Fp2) X Y gen2_x gen2_y M N EM) as PA. rewrite <- gen2_is in PA.
      pose proof (add_slope_is (K:=Fp2) X Y gen2_x gen2_y M N EM) as SL. rewrite <- gen2_is in SL.
      assert (P' : point_zmul (k + 1) g2_gen = third M X Y gen2_x) by (rewrite G2_ZADD, G2_ONE, P by exact gen2_on; exact PA).
      pose proof (drep2_sub _ _ _ _ (drep2_sub _ _ _ _ (drep2_sqr _ _ RM) RX) qx_d_ok) as RX'.
      refine (IH _ _ _ _ _ _ (k + 1) f' RX' (drep2_sub _ _ _ _ (drep2_mul _ _ _ _ RM (drep2_sub _ _ _ _ RX RX')) RY) (line_ok _ _ _ _ _ _ _ _ g2_gen RF RM RX RY SL _ _) _ P' _ WF E); [discriminate|rewrite PA; apply third_aff|lia|].
      etransitivity; [exact (chi_factor F _ (Affine X Y) g2_gen g1_gen (la4 (K:=Fp2) _ _ h_y))|]. rewrite CH, (mk_succ g1_gen g2_gen k gen1_on gen2_on K).
      unfold gk. rewrite P, (G2_ONE g2_gen gen2_on). reflexivity.
    + cbv zeta in E. destruct (same2 (mul2 m (add2 y y)) _) eqn:S; [|discriminate E].
      destruct (full2 _) in E; [|discriminate E]. destruct (full2 _) in E; [|discriminate E]. destruct (full12 _) in E; [|discriminate E].
      pose proof (y_nonzero X Y CX) as N.
      pose proof (drep2_same _ _ _ _ (drep2_mul _ _ _ _ RM (drep2_add _ _ _ _ RY RY)) (drep2_add _ _ _ _ (drep2_add _ _ _ _ (drep2_sqr _ _ RX) (drep2_sqr _ _ RX)) (drep2_sqr _ _ RX)) S) as EM.
      rewrite (twice (K:=Fp2) Y), (thrice (K:=Fp2) (fmul X X)) in EM.
      pose proof (double_slope (K:=Fp2) X Y M N EM) as PA. pose proof (dbl_slope_is (K:=Fp2) X Y M N EM) as SL.
      assert (P' : point_zmul (2 * k) g2_gen = third M X Y X).
      { replace (2 * k) with (k + k) by lia. rewrite G2_ZADD, P by exact gen2_on. exact PA. }
      pose proof (drep2_sub _ _ _ _ (drep2_sub _ _ _ _ (drep2_sqr _ _ RM) RX) RX) as RX'.
      refine (IH _ _ _ _ _ _ (2 * k) f' RX' (drep2_sub _ _ _ _ (drep2_mul _ _ _ _ RM (drep2_sub _ _ _ _ RX RX')) RY) (line_ok _ _ _ _ _ _ _ _ (Affine X Y) (d12_sqr _ _ RF) RM RX RY SL _ _) _ P' _ WF E); [discriminate|rewrite PA; apply third_aff|lia|].
      etransitivity; [exact (chi_factor (fmul F F) _ (Affine X Y) (Affine X Y) g1_gen (la4 (K:=Fp2) _ _ h_y))|]. rewrite (chi_mul F F), CH, (mk_dbl g1_gen g2_gen k gen1_on gen2_on K).
      unfold gk. rewrite P. reflexivity.
Qed.
Lemma chi_one : chi f1 = f1. Proof. exact (zpow_1_l (K:=Fp12) final_exponent). Qed.
Lemma is_loop_inv o : is_loop o = true -> exists f, o = Some f /\ same12 f loop_d = true.
Proof. destruct o as [f|]; [|discriminate]. exact (fun H => ex_intro _ f (conj eq_refl H)). Qed.
Lemma loop_ok : exists F, d12 loop_d F /\ chi F = mk g1_gen g2_gen BLS_X.
Proof.
  destruct (is_loop_inv _ loop_checked) as (f & R & C).
  assert (WF : forallb (fun s => wf2d (snd s)) steps_d = true) by (vm_compute; reflexivity).
  assert (P : point_zmul 1 g2_gen = Affine gen2_x gen2_y) by (rewrite G2_ONE by exact gen2_on; exact gen2_is).
  assert (CH : chi f1 = mk g1_gen g2_gen 1) by (rewrite mk_1; exact chi_one).
  destruct (run_ok steps_d _ _ _ _ _ _ 1 f qx_d_ok qy_d_ok one12_d_ok eq_refl P CH WF R) as (F & RF & E).
  replace (kval steps_d 1) with BLS_X in E by (vm_compute; reflexivity).
  assert (WL : wf12d loop_d = true) by (vm_compute; reflexivity). destruct (wf12d_ok _ WL) as [G RG].
  exists G. split; [exact RG|]. rewrite <- (d12_same _ _ _ _ RF RG C). exact E.
Qed.

(** ** the final exponentiation *)
Section Final.
Context (g : Fp12) (CY : cyc g).
Definition dpow (a : t12) (e : Z) : Prop := d12 a (zpow g e).
Lemma dpow_to a m n : dpow a m -> m = n -> dpow a n. Proof. intros H <-. exact H. Qed.
Lemma dpow_mul a b m n : dpow a m -> dpow b n -> dpow (mul12 a b) (m + n).
Proof. intros A B. refine (d12_to _ _ _ (d12_mul _ _ _ _ A B) _). symmetry. apply zpow_add. exact (proj1 CY). Qed.
Lemma dpow_conj a m : dpow a m -> dpow (conj12 a) (- m).
Proof. intros A. refine (d12_to _ _ _ (d12_conj _ _ A) _). rewrite (cyc_conj _ (cyc_zpow g m CY)), (zpow_neg g m). reflexivity. Qed.
Lemma dpow_frob a m : dpow a m -> dpow (frob_d a) (m * p).
Proof.
  intros A. refine (d12_to _ _ _ (d12_frob _ _ _ _ _ gamma_d_ok gamma2_d_ok gamma4_d_ok A) _). symmetry. apply zpow_mul. exact (proj1 CY).
Qed.
Lemma dpow_sq a m : dpow a m -> dpow (csq12 a) (2 * m).
Proof. intros A. refine (d12_to _ _ _ (d12_csq _ _ A (cyc_zpow g m CY)) _). apply zpow_double. exact (proj1 CY). Qed.
Lemma pow_d_ok a m bs k : dpow a m -> forall x n, dpow x (m * n) -> pow_d bs a x k = true -> exists y, dpow y (- (m * bits_value n bs)) /\ k y = true.
Proof.
  intros A. induction bs as [|b bs IH]; intros x n X H; cbn [pow_d bits_value] in *.
  - exists (conj12 x). split; [apply dpow_conj; exact X|exact H].
  - destruct (full12 (csq12 x)); [|discriminate H]. pose proof (dpow_sq _ _ X) as X2. destruct b.
    + destruct (full12 (mul12 (csq12 x) a)); [|discriminate H]. refine (IH _ (2 * n + 1) _ H). apply (dpow_to _ _ _ (dpow_mul _ _ _ _ X2 A)). ring.
    + refine (IH _ (2 * n + 0) _ H). apply (dpow_to _ _ _ X2). ring.
Qed.
Lemma x_bits_value : bits_value 1 x_bits = BLS_X. Proof. vm_compute. reflexivity. Qed.
Lemma expx_ok a m k : dpow a m -> expx a k = true -> exists y, dpow y (m * - BLS_X) /\ k y = true.
Proof.
  intros A H. destruct (pow_d_ok a m x_bits k A a 1 (dpow_to _ _ _ A (eq_sym (Z.mul_1_r m))) H) as (y & Y & E). exists y. split; [|exact E].
  apply (dpow_to _ _ _ Y). rewrite x_bits_value. ring.
Qed.
End Final.
Lemma keep_ok x k : keep x k = true -> k x = true.
Proof. unfold keep. destruct (full12 x); [exact (fun H => H)|discriminate]. Qed.
Lemma hard_factors u q : hard_exponent u q = ((u - 1) * (u - 1) * (u + q)) * (u * u + q * q - 1) + 3.
Proof. unfold hard_exponent. ring. Qed.
Section ValueAlg.
Context {K : fld}.
Add Field Kva : (fld_field K).
Local Open Scope fld_scope.
Lemma prod_one_nz (x y : K) : x * y = 1 -> x <> 0.
Proof. intros E Z. apply (@f1_neq_0 K). rewrite <- E, Z. ring. Qed.
Lemma inverse_of_product (a b v : K) : a <> 0 -> b <> 0 -> b * v = finv a -> v = finv (a * b).
Proof. intros A B E. symmetry. apply finv_unique. transitivity (a * (b * v)); [ring|]. rewrite E. apply finv_r. exact A. Qed.
End ValueAlg.
Lemma final_check_ok l i v (F I V : Fp12) : d12 l F -> d12 i I -> d12 v V -> final_check l i v = true -> V = finv (chi F).
Proof.
  intros RF RI RV C. unfold final_check in C.
  destruct (same12 (mul12 l i) one12_d) eqn:S; [|discriminate C].
  pose proof (d12_same _ _ _ _ (d12_mul _ _ _ _ RF RI) one12_d_ok S) as EI. clear S.
  assert (NF : F <> f0) by exact (prod_one_nz (K:=Fp12) F I EI).
  apply keep_ok, keep_ok in C.
  pose proof (d12_mul _ _ _ _ (d12_conj _ _ RF) RI) as RT. set (t := mul12 (conj12 l) i) in *. clearbody t.
  assert (ET : fmul (Fp12_conj F) I = zpow F (p ^ 6 - 1)).
  { replace (p ^ 6 - 1) with (p ^ 6 + - (1)) by ring. rewrite (zpow_add F (p ^ 6) (- (1)) NF), (zpow_neg F 1), (zpow_1 F), (Fp12_pow_p6 F).
    rewrite (finv_unique F I EI). reflexivity. }
  rewrite ET in RT. clear ET EI RI I.
  assert (RG : d12 (mul12 (frob_d (frob_d t)) t) (zpow F easy_exponent)).
  { refine (d12_to _ _ _ (d12_mul _ _ _ _ (d12_frob _ _ _ _ _ gamma_d_ok gamma2_d_ok gamma4_d_ok (d12_frob _ _ _ _ _ gamma_d_ok gamma2_d_ok gamma4_d_ok RT)) RT) _).
    rewrite <- (zpow_mul F (p ^ 6 - 1) p NF), <- (zpow_mul F ((p ^ 6 - 1) * p) p NF), <- (zpow_add F ((p ^ 6 - 1) * p * p) (p ^ 6 - 1) NF).
    apply (f_equal (zpow F)). unfold easy_exponent. generalize p. intros q. ring. }
  set (gd := mul12 (frob_d (frob_d t)) t) in *. clearbody gd.
  unfold chi. rewrite <- final_exponent_split, (zpow_mul F easy_exponent (hard_exponent (- BLS_X) p) NF).
  pose proof (easy_cyc F NF) as CY. set (g := zpow F easy_exponent) in *. clearbody g. clear RF RT NF F t.
  assert (P1 : dpow g gd 1) by exact (d12_to _ _ _ RG (eq_sym (zpow_1 g))). clear RG.
  destruct (expx_ok g CY gd 1 _ P1 C) as (gu & PU & C1). clear C. apply keep_ok in C1.
  pose proof (dpow_mul g CY _ _ _ _ PU (dpow_conj g CY _ _ P1)) as PA. set (a := mul12 gu (conj12 gd)) in *. clearbody a. clear PU.
  destruct (expx_ok g CY a _ _ PA C1) as (au & PAU & C2). clear C1. apply keep_ok in C2.
  pose proof (dpow_mul g CY _ _ _ _ PAU (dpow_conj g CY _ _ PA)) as PB. set (b := mul12 au (conj12 a)) in *. clearbody b. clear PAU PA.
  destruct (expx_ok g CY b _ _ PB C2) as (bu & PBU & C3). clear C2. apply keep_ok in C3.
  pose proof (dpow_mul g CY _ _ _ _ PBU (dpow_frob g CY _ _ PB)) as PC. set (c := mul12 bu (frob_d b)) in *. clearbody c. clear PBU PB.
  destruct (expx_ok g CY c _ _ PC C3) as (cu & PCU & C4). clear C3.
  destruct (expx_ok g CY cu _ _ PCU C4) as (cuu & PCUU & C5). clear C4 PCU. apply keep_ok in C5.
  pose proof (dpow_mul g CY _ _ _ _ (dpow_mul g CY _ _ _ _ PCUU (dpow_frob g CY _ _ (dpow_frob g CY _ _ PC))) (dpow_conj g CY _ _ PC)) as PD.
  set (d := mul12 (mul12 cuu (frob_d (frob_d c))) (conj12 c)) in *. clearbody d. clear PCUU PC.
  pose proof (dpow_mul g CY _ _ _ _ (dpow_sq g CY _ _ P1) P1) as P3.
  pose proof (d12_same _ _ _ _ (d12_mul _ _ _ _ P3 RV) (dpow_conj g CY _ _ PD) C5) as EV. clear C5.
  rewrite hard_factors. set (u := - BLS_X) in *. clearbody u.
  match type of PD with dpow _ _ ?e => replace e with (((u - 1) * (u - 1) * (u + p)) * (u * u + p * p - 1)) in PD, EV by ring; set (w := ((u - 1) * (u - 1) * (u + p)) * (u * u + p * p - 1)) in * end.
  rewrite (zpow_neg g w) in EV. rewrite (zpow_add g w 3 (proj1 CY)). change (2 * 1 + 1) with 3 in EV.
  exact (inverse_of_product (K:=Fp12) _ _ _ (zpow_nonzero g w (proj1 CY)) (zpow_nonzero g 3 (proj1 CY)) EV).
Qed.
Lemma value_ok : d12 value_d (pairing_value g1_gen g2_gen).
Proof.
  assert (WV : wf12d value_d = true) by (vm_compute; reflexivity). destruct (wf12d_ok _ WV) as [V RV].
  assert (WI : wf12d loop_inv_d = true) by (vm_compute; reflexivity). destruct (wf12d_ok _ WI) as [I RI].
  destruct loop_ok as (F & RF & CH). apply (d12_to _ _ _ RV). rewrite pairing_value_mk, <- CH.
  exact (final_check_ok _ _ _ F I V RF RI RV final_checked).
Qed.
(** ** the constant of the code *)
Definition limb_ok (a : Z) : bool := if 0 <=? a then a <? W else false.
Definition cell (n : num) (s : fp) : bool :=
  let '(FP a b c d e f) := s in
  (nv n =? fpv s) && forallb limb_ok [a; b; c; d; e; f].
Lemma limb_ok_u64 a : limb_ok a = true -> u64 a.
Proof. unfold limb_ok, u64. destruct (0 <=? a) eqn:L; [|discriminate]. intros H. apply Z.leb_le in L. apply Z.ltb_lt in H. exact (conj L H). Qed.
Lemma cell_ok n s (x : Fp) : cell n s = true -> drep n x -> frep s x.
Proof.
  destruct s as [a b c d e f]. unfold cell. intros H R. apply andb_true_iff in H as [E H]. apply Z.eqb_eq in E.
  cbn [forallb] in H. rewrite !andb_true_iff in H. destruct H as (A & B & C & D & F & G & _).
  apply (drep_frep n _ x R); [|exact E]. split.
  - repeat split; apply limb_ok_u64; assumption.
  - rewrite <- E. exact (proj1 R).
Qed.
Definition cell2 (n : t2) (s : fp2) : bool := let (a, b) := n in let '(FP2 c d) := s in cell a c && cell b d.
Definition cell6 (n : t6) (s : fp6) : bool := let (a, b, c) := n in let '(FP6 d e f) := s in cell2 a d && cell2 b e && cell2 c f.
Definition cell12 (n : t12) (s : fp12) : bool := let (a, b) := n in let '(FP12 c d) := s in cell6 a c && cell6 b d.
Lemma cell2_ok n s (x : Fp2) : cell2 n s = true -> drep2 n x -> rep2 s x.
Proof. destruct n as [a b], s as [c d]. intros H [A B]. apply andb_true_iff in H as [H1 H2]. split; [exact (cell_ok _ _ _ H1 A)|exact (cell_ok _ _ _ H2 B)]. Qed.
Lemma cell6_ok n s (x : Fp6) : cell6 n s = true -> d6 n x -> r6 s x.
Proof.
  destruct n as [a b c], s as [d e f]. intros H (A & B & C). apply andb_true_iff in H as [H H3]. apply andb_true_iff in H as [H1 H2].
  split; [exact (cell2_ok _ _ _ H1 A)|]. split; [exact (cell2_ok _ _ _ H2 B)|exact (cell2_ok _ _ _ H3 C)].
Qed.
Lemma cell12_ok n s (x : Fp12) : cell12 n s = true -> d12 n x -> r12 s x.
Proof. destruct n as [a b], s as [c d]. intros H [A B]. apply andb_true_iff in H as [H1 H2]. split; [exact (cell6_ok _ _ _ H1 A)|exact (cell6_ok _ _ _ H2 B)]. Qed.
Theorem gt_generator_rep : r12 gt_generator (pairing_value g1_gen g2_gen).
Proof. apply (cell12_ok value_d); [vm_compute; reflexivity|exact value_ok]. Qed.
Theorem generator_pairing : pairing_value g1_gen g2_gen <> f1.
Proof.
  assert (B : fp12_eq gt_generator fp12_one = false) by (vm_compute; reflexivity).
  rewrite (r12_eq _ _ _ _ gt_generator_rep r12_one) in B. apply feqb_false. exact B.
Qed.
