(** * Proof_Drivers: the three Miller loops of the code *)
From Coq Require Import ZArith List Bool Lia Ring Field.
From Verif Require Import Base Fld Tables Zr Zp Spec_Fp Model_Scalar Model_Fp Proof_FpRep Proof_FpTop Proof_G1Base Model_Curve Model_Fp2 Model_Fp12 Model_G1 Model_G2 Model_Pair Spec_Curve Proof_Curve Proof_CurveMul Proof_Endo Spec_CurveCode Proof_CurveCode Spec_G1 Spec_G2 Proof_G2Base Proof_G2Psi Proof_Lines Proof_Side Proof_Bilin Spec_Ext Proof_Fp2 Proof_Fp12 Proof_ExtTop Power Tower Ext Proof_Cyclo Spec_Pair Proof_FinalExp Proof_Gt Proof_PairSides Proof_Steps Proof_Miller.
Import ListNotations.
Local Open Scope Z_scope.

(** ** the multiples of the base point *)
Section Multiples.
Context {K : fld} (b : K).
Add Field Kmu : (fld_field K).
Lemma jac_one (x y : K) : jac x y f1 = Affine x y.
Proof. unfold jac. apply (f_equal2 Affine); field; exact f1_neq_0. Qed.
Lemma same_x_points (x y y' : K) : on_curve b (Affine x y) -> on_curve b (Affine x y') -> Affine x y' = Affine x y \/ Affine x y' = point_neg (Affine x y).
Proof.
  intros A B. destruct (same_x b x y' x y B A eq_refl) as [E|E]; [left|right]; rewrite E; reflexivity.
Qed.
Lemma e1_inf {K' : fld} (l : K' -> K) : Proof_Bilin.e1 l l Infinity = Infinity. Proof. reflexivity. Qed.
End Multiples.
Section GInf.
Context {k K : fld} (em ey : k -> K) (X : K -> K).
Lemma G_inf_l B P : G ey em X (Infinity : point k) B P = f1. Proof. reflexivity. Qed.
Lemma G_inf_p A B : G ey em X (A : point k) B Infinity = f1.
Proof. unfold G. destruct A as [|xa ya]; [reflexivity|]. destruct B as [|xb yb]; [reflexivity|]. destruct (point_add _ _); reflexivity. Qed.
Lemma M_inf_A n P : (forall m, point_zmul m (Infinity : point k) = Infinity) -> M ey em X n Infinity P = f1.
Proof. intros Z. induction n as [|n IH]; [reflexivity|]. cbn [M]. rewrite IH, Z, G_inf_l. exact (one_one (K:=K)). Qed.
Lemma M_inf_P n A : M ey em X n A Infinity = f1.
Proof. induction n as [|n IH]; [reflexivity|]. cbn [M]. rewrite IH, G_inf_p. exact (one_one (K:=K)). Qed.
End GInf.
Lemma jrep_start q (x y : Fp2) : astands2 q (Affine x y) -> jrep (proj_from_aff q) (Affine x y).
Proof.
  destruct q as [qx qy i]. intros (x' & y' & QX & QY & _ & I). destruct i; [destruct I as (_ & _ & I); discriminate I|]. rewrite I.
  exists x', y', f1. split; [exact QX|]. split; [exact QY|]. split; [exact rep2_one|]. split; [exact (@f1_neq_0 Fp2)|]. symmetry. exact (jac_one (K:=Fp2) x' y').
Qed.

Section Mult.
Context (Q : point Fp2) (EQ : g2_eigen Q).
Lemma Q_on : on_curve bq Q. Proof. exact (proj1 EQ). Qed.
Lemma mult_on n : on_curve bq (point_zmul n Q). Proof. apply G2_ZON. exact Q_on. Qed.
Lemma mult_add a c : point_add (point_zmul a Q) (point_zmul c Q) = point_zmul (a + c) Q.
Proof. symmetry. apply G2_ZADD. exact Q_on. Qed.
Lemma small_r a : a < 2 ^ 67 -> a < r. Proof. intros H. apply (Z.lt_trans _ _ _ H). reflexivity. Qed.
Context (NQ : Q <> Infinity).
Lemma mult_nz a : 0 < a < 2 ^ 67 -> point_zmul a Q <> Infinity.
Proof. intros [A B]. apply eigen_small; [exact EQ|exact NQ|]. split; [exact A|exact (small_r a B)]. Qed.
Lemma op_facts i a c : nth_error L i = Some (a, c) -> point_zmul c Q <> Infinity /\ point_add (point_zmul a Q) (point_zmul c Q) <> Infinity.
Proof.
  intros E. destruct (L_op _ _ _ E) as [[A1 A2] C]. assert (B : 2 ^ 65 + 2 ^ 65 < 2 ^ 67) by reflexivity. assert (B1 : 1 < 2 ^ 65) by reflexivity.
  split; [|rewrite mult_add]; apply mult_nz; lia.
Qed.
Lemma mult_apart m (x y : Fp2) : Q = Affine x y -> 1 < m < 2 ^ 66 -> forall y', point_zmul m Q <> Affine x y'.
Proof.
  intros E [M1 M2] y' E'. assert (B : 2 ^ 66 + 1 < 2 ^ 67) by reflexivity.
  pose proof Q_on as C. pose proof (mult_on m) as C'. rewrite E' in C'. pose proof C as C2. rewrite E in C2.
  assert (ONE : point_zmul 1 Q = Q) by (apply G2_ONE; exact C).
  destruct (same_x_points (K:=Fp2) bq x y y' C2 C') as [S|S].
  - apply (mult_nz (m + -1)); [lia|]. rewrite <- mult_add, E', S, <- E. pose proof (G2_ZOPP 1 Q C) as O1. change (- (1)) with (-1) in O1. rewrite O1, ONE. apply point_add_neg_r.
  - apply (mult_nz (m + 1)); [lia|]. rewrite <- mult_add, E', S, <- E, ONE. rewrite (C2_ (point_neg Q) Q); [apply point_add_neg_r|exact (NON2_ Q C)|exact C].
Qed.
(** ** one step of the loops *)
Lemma dbl_step i k cur : 0 < k -> jrep cur (point_zmul k Q) -> nth_error L i = Some (k, k) ->
  jrep (fst (doubling_step cur)) (point_zmul (2 * k) Q) /\ coef (snd (doubling_step cur)) (point_zmul k Q) (point_zmul k Q).
Proof.
  intros K J _. destruct (doubling_ok cur _ J (mult_on k)) as [A B]. split; [|exact B]. rewrite mult_add in A. replace (2 * k) with (k + k) by lia. exact A.
Qed.
Lemma add_step i m cur q : astands2 q Q -> jrep cur (point_zmul m Q) -> nth_error L i = Some (m, 1) -> 1 < m ->
  jrep (fst (addition_step cur q)) (point_zmul (m + 1) Q) /\ coef (snd (addition_step cur q)) (point_zmul m Q) (point_zmul 1 Q).
Proof.
  intros SQ J E M1. destruct (L_op _ _ _ E) as [[_ M2] _]. assert (ONE : point_zmul 1 Q = Q) by (apply G2_ONE; exact Q_on).
  assert (B : 2 ^ 65 < 2 ^ 66) by reflexivity.
  destruct Q as [|x y] eqn:EQQ; [destruct NQ; reflexivity|]. rewrite <- EQQ in *.
  assert (N : forall y', point_zmul m Q <> Affine x y') by (apply (mult_apart m x y EQQ); lia).
  assert (SQ' : astands2 q (Affine x y)) by (rewrite <- EQQ; exact SQ).
  destruct (addition_ok cur q _ x y J SQ' N) as [A C]. rewrite <- EQQ in A, C. rewrite <- mult_add, ONE. split; [exact A|exact C].
Qed.
End Mult.

(** ** Miller's function at the steps *)
Definition mk (P : point Fp) (Q : point Fp2) (k : Z) : Fp12 := MM (Z.to_nat k) Q (e1 P).
Definition gk (P : point Fp) (Q : point Fp2) (a c : Z) : Fp12 := GG (point_zmul a Q) (point_zmul c Q) (e1 P).
Lemma mk_1 P Q : mk P Q 1 = f1.
Proof. unfold mk. change (Z.to_nat 1) with 1%nat. cbn [M Z.of_nat]. exact (one_one (K:=Fp12)). Qed.
Lemma mk_add P Q a c : on_curve b4 P -> on_curve bq Q -> 0 < a -> 0 < c -> mk P Q (a + c) = fmul (fmul (mk P Q a) (mk P Q c)) (gk P Q a c).
Proof.
  intros CP CQ A C. unfold mk, gk. rewrite Z2Nat.inj_add by lia. rewrite (MM_add (Z.to_nat a) (Z.to_nat c) Q P CQ CP). rewrite !Z2Nat.id by lia. reflexivity.
Qed.
Lemma mk_dbl P Q k : on_curve b4 P -> on_curve bq Q -> 0 < k -> mk P Q (2 * k) = fmul (fmul (mk P Q k) (mk P Q k)) (gk P Q k k).
Proof. intros CP CQ K. replace (2 * k) with (k + k) by lia. apply mk_add; assumption. Qed.
Lemma mk_succ P Q m : on_curve b4 P -> on_curve bq Q -> 0 < m -> mk P Q (m + 1) = fmul (mk P Q m) (gk P Q m 1).
Proof. intros CP CQ K. rewrite (mk_add P Q m 1 CP CQ K eq_refl), mk_1. rewrite (mul_1_r (K:=Fp12)). reflexivity. Qed.
Lemma mk_inf P Q k : P = Infinity \/ Q = Infinity -> mk P Q k = f1.
Proof.
  unfold mk. intros [-> | ->].
  - exact (M_inf_P untwist_m untwist_y chi (Z.to_nat k) Q).
  - exact (M_inf_A untwist_m untwist_y chi (Z.to_nat k) (e1 P) G2_INF).
Qed.
Lemma gk_inf P Q a c : P = Infinity \/ Q = Infinity -> gk P Q a c = f1.
Proof.
  unfold gk. intros [-> | ->].
  - exact (G_inf_p untwist_m untwist_y chi _ _).
  - rewrite (G2_INF a). exact (G_inf_l untwist_m untwist_y chi _ _).
Qed.
Lemma ell_step i a c f (F : Fp12) co P Q p : g2_eigen Q -> Q <> Infinity -> P <> Infinity -> nth_error L i = Some (a, c) -> astands1 p P ->
  coef co (point_zmul a Q) (point_zmul c Q) -> r12 f F -> exists F', r12 (ell f co p) F' /\ chi F' = fmul (chi F) (gk P Q a c).
Proof.
  intros EQ NQ NP E SP CO R. destruct P as [|x y]; [destruct NP; reflexivity|]. destruct (op_facts Q EQ NQ _ _ _ E) as [N1 N2].
  destruct (ell_ok f F co _ _ p x y R CO SP N1 N2) as (k & NK & R'). eexists. split; [exact R'|]. exact (chi_factor F k _ _ _ NK).
Qed.

(** ** the single loop *)
Section Single.
Context (P : point Fp) (Q : point Fp2) (p : g1_affine) (q : g2_affine) (EQ : g2_eigen Q) (NQ : Q <> Infinity) (NP : P <> Infinity)
  (SP : astands1 p P) (SQ : astands2 q Q).
Let CP : on_curve b4 P := aff_stands_on_curve _ _ SP.
Let CQ : on_curve bq Q := Q_on Q EQ.
Definition s_mid (_ : nat) (k : Z) (cur : g2_projective) (f : fp12) : Prop :=
  0 < k /\ jrep cur (point_zmul k Q) /\ exists F, r12 f F /\ chi F = mk P Q k.
Definition s_inv (_ : nat) (k : Z) (cur : g2_projective) (f : fp12) : Prop :=
  0 < k /\ jrep cur (point_zmul k Q) /\ exists F, r12 f F /\ chi F = fmul (mk P Q k) (mk P Q k).
Lemma single_ok : exists cur f, miller_loop (pair_driver q p) (proj_from_aff q) = Ok (cur, fp12_conjugate f) /\ exists F, r12 f F /\ chi F = mk P Q BLS_X.
Proof.
  destruct (loop_ok (pair_driver q p) s_inv s_mid) with (s := proj_from_aff q) as (cur & f & E & _ & _ & F).
  - intros i k cur f (K & J & F & RF & CF) E. destruct (dbl_step Q EQ i k cur K J E) as [J' CO]. cbn [drv_dbl pair_driver].
    destruct (doubling_step cur) as [cur' co]. cbn [fst snd] in J', CO. eexists. eexists. split; [reflexivity|]. split; [lia|]. split; [exact J'|].
    destruct (ell_step i k k f F co P Q p EQ NQ NP E SP CO RF) as (F' & R' & C'). exists F'. split; [exact R'|]. rewrite C', CF. symmetry. apply mk_dbl; assumption.
  - intros i m cur f (K & J & F & RF & CF) E M1.
    destruct (add_step Q EQ NQ i m cur q SQ J E M1) as [J' CO]. cbn [drv_add pair_driver].
    destruct (addition_step cur q) as [cur' co]. cbn [fst snd] in J', CO. eexists. eexists. split; [reflexivity|]. split; [lia|]. split; [exact J'|].
    destruct (ell_step i m 1 f F co P Q p EQ NQ NP E SP CO RF) as (F' & R' & C'). exists F'. split; [exact R'|]. rewrite C', CF. symmetry. apply mk_succ; assumption.
  - intros i m cur f (K & J & F & RF & CF). split; [exact K|]. split; [exact J|]. exists (fmul F F). split; [exact (r12_square _ _ RF)|]. rewrite chi_product, CF. reflexivity.
  - split; [reflexivity|]. split.
    + rewrite (G2_ONE Q CQ). destruct Q as [|x y] eqn:QQ; [destruct NQ; reflexivity|]. exact (jrep_start q x y SQ).
    + exists f1. split; [exact r12_one|]. rewrite mk_1, (one_one (K:=Fp12)). exact chi_one.
  - exists cur, f. split; [exact E|exact F].
Qed.
End Single.

(** ** the prepared coefficients *)
Definition coefs_upto (Q : point Fp2) (n : nat) (cs : list line) : Prop :=
  length cs = n /\ forall j a c, (j < n)%nat -> nth_error L j = Some (a, c) -> exists co, nth_error cs j = Some co /\ coef co (point_zmul a Q) (point_zmul c Q).
Lemma coefs_next Q n cs a c co : coefs_upto Q n cs -> nth_error L n = Some (a, c) -> coef co (point_zmul a Q) (point_zmul c Q) -> coefs_upto Q (S n) (cs ++ [co]).
Proof.
  intros [E H] EL CO. split; [rewrite app_length, E; cbn [length]; lia|]. intros j a' c' J EJ. destruct (Nat.eq_dec j n) as [->|NE].
  - rewrite EL in EJ. injection EJ as <- <-. exists co. split; [|exact CO]. rewrite nth_error_app2 by lia. rewrite E, Nat.sub_diag. reflexivity.
  - destruct (H j a' c' ltac:(lia) EJ) as (co' & E' & C'). exists co'. split; [|exact C']. rewrite nth_error_app1 by lia. exact E'.
Qed.
Section Prep.
Context (Q : point Fp2) (q : g2_affine) (EQ : g2_eigen Q) (NQ : Q <> Infinity) (SQ : astands2 q Q).
Definition p_inv (i : nat) (k : Z) (s : g2_projective * list line) (_ : unit) : Prop := 0 < k /\ jrep (fst s) (point_zmul k Q) /\ coefs_upto Q i (snd s).
Lemma prep_ok : exists cur cs u, miller_loop (prep_driver q) (proj_from_aff q, []) = Ok ((cur, cs), u) /\ coefs_upto Q 68 cs.
Proof.
  destruct (loop_ok (prep_driver q) p_inv p_inv) with (s := (proj_from_aff q, @nil line)) as ([cur cs] & f & E & _ & _ & F).
  - intros i k [cur cs] f (K & J & F) E. cbn [fst snd] in J, F. destruct (dbl_step Q EQ i k cur K J E) as [J' CO]. cbn [drv_dbl prep_driver].
    destruct (doubling_step cur) as [cur' co]. cbn [fst snd] in J', CO. eexists. eexists. split; [reflexivity|]. split; [lia|]. split; [exact J'|].
    exact (coefs_next Q i cs k k co F E CO).
  - intros i m [cur cs] f (K & J & F) E M1. cbn [fst snd] in J, F. destruct (add_step Q EQ NQ i m cur q SQ J E M1) as [J' CO]. cbn [drv_add prep_driver].
    destruct (addition_step cur q) as [cur' co]. cbn [fst snd] in J', CO. eexists. eexists. split; [reflexivity|]. split; [lia|]. split; [exact J'|].
    exact (coefs_next Q i cs m 1 co F E CO).
  - intros i m s f I. exact I.
  - split; [reflexivity|]. cbn [fst snd]. split.
    + rewrite (G2_ONE Q (Q_on Q EQ)). destruct Q as [|x y] eqn:QQ; [destruct NQ; reflexivity|]. exact (jrep_start q x y SQ).
    + split; [reflexivity|]. intros j a c J. lia.
  - exists cur, cs. eexists. split; [exact E|exact F].
Qed.
End Prep.

(** ** the loop over prepared points *)
Definition prep_for (pr : g2_prepared) (Q : point Fp2) : Prop :=
  g2_eigen Q /\ length (prep_coeffs pr) = 68%nat /\ (prep_infinity pr = true <-> Q = Infinity) /\
  (Q <> Infinity -> coefs_upto Q 68 (prep_coeffs pr)).
Lemma fp12_select_true a b : fp12_select a b true = b.
Proof.
  destruct a as [a0 a1], b as [b0 b1], a0 as [[? ?] [? ?] [? ?]], a1 as [[? ?] [? ?] [? ?]], b0 as [[? ?] [? ?] [? ?]], b1 as [[? ?] [? ?] [? ?]]. reflexivity.
Qed.
Lemma fp12_select_false a b : fp12_select a b false = a.
Proof.
  destruct a as [a0 a1], b as [b0 b1], a0 as [[? ?] [? ?] [? ?]], a1 as [[? ?] [? ?] [? ?]], b0 as [[? ?] [? ?] [? ?]], b1 as [[? ?] [? ?] [? ?]]. reflexivity.
Qed.
Definition term_ok (t : g1_affine * g2_prepared) (T : point Fp * point Fp2) : Prop := astands1 (fst t) (fst T) /\ prep_for (snd t) (snd T).
Lemma L_index i a c : nth_error L i = Some (a, c) -> (i < 68)%nat.
Proof. intros E. rewrite <- L_length. apply nth_error_Some. rewrite E. discriminate. Qed.
Lemma term_step i a c f (F : Fp12) t T : term_ok t T -> nth_error L i = Some (a, c) -> r12 f F ->
  exists co F', idx (prep_coeffs (snd t)) i = Ok co /\
    r12 (fp12_select (ell f co (fst t)) f (aff_is_identity (fst t) || prep_infinity (snd t))) F' /\ chi F' = fmul (chi F) (gk (fst T) (snd T) a c).
Proof.
  intros [SP (EQ & LEN & INF & CO)] E R. destruct t as [p pr], T as [P Q]. cbn [fst snd] in *. pose proof (L_index _ _ _ E) as I.
  pose proof (aff_is_identity_ok p P SP) as IP. unfold idx.
  destruct (aff_is_identity p || prep_infinity pr) eqn:EI.
  - destruct (nth_error (prep_coeffs pr) i) as [co|] eqn:EC; [|apply nth_error_None in EC; lia].
    exists co, F. split; [reflexivity|]. rewrite fp12_select_true. split; [exact R|]. rewrite gk_inf; [symmetry; exact (mul_1_r (K:=Fp12) _)|].
    apply orb_prop in EI. destruct EI as [A|A]; [left; apply IP, A|right; apply INF, A].
  - apply orb_false_elim in EI. destruct EI as [E1 E2].
    assert (NP : P <> Infinity) by (intros Z; apply IP in Z; rewrite Z in E1; discriminate E1).
    assert (NQ : Q <> Infinity) by (intros Z; apply INF in Z; rewrite Z in E2; discriminate E2).
    destruct (CO NQ) as [_ H]. destruct (H i a c I E) as (co & EC & CC). rewrite EC. exists co.
    destruct (ell_step i a c f F co P Q p EQ NQ NP E SP CC R) as (F' & R' & C'). exists F'. split; [reflexivity|]. rewrite fp12_select_false. split; [exact R'|exact C'].
Qed.
Section Prod.
Context {T : Type} {K : fld}.
Add Field Kpr : (fld_field K).
Definition prodK (h : T -> K) (l : list T) : K := fold_right (fun t acc => fmul (h t) acc) f1 l.
Lemma prodK_mul (h g : T -> K) l : prodK (fun t => fmul (h t) (g t)) l = fmul (prodK h l) (prodK g l).
Proof. induction l as [|t l IH]; cbn [prodK fold_right]; [ring|]. unfold prodK in IH. rewrite IH. ring. Qed.
Lemma prodK_ext (h g : T -> K) l : Forall (fun t => h t = g t) l -> prodK h l = prodK g l.
Proof. induction 1 as [|t l E _ IH]; [reflexivity|]. cbn [prodK fold_right]. unfold prodK in IH. rewrite IH, E. reflexivity. Qed.
Lemma prodK_nz (h : T -> K) l : Forall (fun t => h t <> f0) l -> prodK h l <> f0.
Proof. induction 1 as [|t l E _ IH]; [exact f1_neq_0|]. cbn [prodK fold_right]. apply mul_nonzero; assumption. Qed.
Lemma prodK_one l : prodK (fun _ => f1) l = f1.
Proof. induction l as [|t l IH]; [reflexivity|]. cbn [prodK fold_right]. unfold prodK in IH. rewrite IH. ring. Qed.
Lemma prodK_inv (h : T -> K) l : Forall (fun t => h t <> f0) l -> finv (prodK h l) = prodK (fun t => finv (h t)) l.
Proof.
  induction 1 as [|t l E F IH]; [change (finv (f1 : K) = f1); apply finv_unique; ring|]. cbn [prodK fold_right]. pose proof (prodK_nz h l F) as N. unfold prodK in IH, N. rewrite <- IH. field. split; assumption.
Qed.
Lemma mul_assoc_r (a b c : K) : fmul (fmul a b) c = fmul a (fmul b c). Proof. ring. Qed.
End Prod.
Lemma multi_step_ok i a c : nth_error L i = Some (a, c) -> forall ts Ts, Forall2 term_ok ts Ts -> forall f F, r12 f F ->
  exists f' F', multi_step ts i f = Ok f' /\ r12 f' F' /\ chi F' = fmul (chi F) (prodK (K:=Fp12) (fun T => gk (fst T) (snd T) a c) Ts).
Proof.
  intros E ts Ts FT. induction FT as [|t T ts Ts H FT IH]; intros f F R.
  - exists f, F. split; [reflexivity|]. split; [exact R|]. symmetry. exact (mul_1_r (K:=Fp12) _).
  - destruct (term_step i a c f F t T H E R) as (co & F1 & E1 & R1 & C1). destruct (IH _ _ R1) as (f2 & F2 & E2 & R2 & C2).
    exists f2, F2. split; [|split; [exact R2|]].
    + unfold multi_step in *. cbn [fold_left bind]. rewrite E1. cbn [bind]. exact E2.
    + rewrite C2, C1. exact (mul_assoc_r (K:=Fp12) _ _ _).
Qed.
Section Multi.
Context (ts : list (g1_affine * g2_prepared)) (Ts : list (point Fp * point Fp2)) (FT : Forall2 term_ok ts Ts).
Definition PM (k : Z) : Fp12 := prodK (K:=Fp12) (fun T => mk (fst T) (snd T) k) Ts.
Lemma terms_on : Forall (fun T => on_curve b4 (fst T) /\ on_curve bq (snd T)) Ts.
Proof.
  induction FT as [|t T ts' Ts' [A (B & _)] FT' IH]; [constructor|]. constructor; [|exact (IH FT')]. split; [exact (aff_stands_on_curve _ _ A)|exact (Q_on _ B)].
Qed.
Definition m_mid (i : nat) (k : Z) (n : nat) (f : fp12) : Prop := 0 < k /\ n = i /\ exists F, r12 f F /\ chi F = PM k.
Definition m_inv (i : nat) (k : Z) (n : nat) (f : fp12) : Prop := 0 < k /\ n = i /\ exists F, r12 f F /\ chi F = fmul (PM k) (PM k).
Lemma PM_dbl k : 0 < k -> fmul (fmul (PM k) (PM k)) (prodK (K:=Fp12) (fun T => gk (fst T) (snd T) k k) Ts) = PM (2 * k).
Proof.
  intros K. unfold PM. rewrite <- (prodK_mul (K:=Fp12) (fun T => mk (fst T) (snd T) k) (fun T => mk (fst T) (snd T) k)).
  rewrite <- (prodK_mul (K:=Fp12) (fun T => fmul (mk (fst T) (snd T) k) (mk (fst T) (snd T) k)) (fun T => gk (fst T) (snd T) k k)).
  apply (prodK_ext (K:=Fp12)). refine (Forall_impl _ _ terms_on). intros [P Q] [A B]. symmetry. exact (mk_dbl P Q k A B K).
Qed.
Lemma PM_succ k : 0 < k -> fmul (PM k) (prodK (K:=Fp12) (fun T => gk (fst T) (snd T) k 1) Ts) = PM (k + 1).
Proof.
  intros K. unfold PM. rewrite <- (prodK_mul (K:=Fp12) (fun T => mk (fst T) (snd T) k) (fun T => gk (fst T) (snd T) k 1)).
  apply (prodK_ext (K:=Fp12)). refine (Forall_impl _ _ terms_on). intros [P Q] [A B]. symmetry. exact (mk_succ P Q k A B K).
Qed.
Lemma PM_1 : PM 1 = f1.
Proof.
  unfold PM. rewrite <- (prodK_one (K:=Fp12) Ts). apply (prodK_ext (K:=Fp12)). apply Forall_forall. intros [P Q] _. apply mk_1.
Qed.
Lemma multi_ok : exists f, multi_miller_loop ts = Ok (fp12_conjugate f) /\ exists F, r12 f F /\ chi F = PM BLS_X.
Proof.
  destruct (loop_ok (multi_driver ts) m_inv m_mid) with (s := 0%nat) as (n & f & E & _ & _ & F).
  - intros i k n f (K & -> & F & RF & CF) E. cbn [drv_dbl multi_driver].
    destruct (multi_step_ok i k k E ts Ts FT f F RF) as (f' & F' & E' & R' & C'). rewrite E'. cbn [bind]. eexists. eexists. split; [reflexivity|]. split; [lia|]. split; [reflexivity|].
    exists F'. split; [exact R'|]. rewrite C', CF. exact (PM_dbl k K).
  - intros i m n f (K & -> & F & RF & CF) E M1. cbn [drv_add multi_driver].
    destruct (multi_step_ok i m 1 E ts Ts FT f F RF) as (f' & F' & E' & R' & C'). rewrite E'. cbn [bind]. eexists. eexists. split; [reflexivity|]. split; [lia|]. split; [reflexivity|].
    exists F'. split; [exact R'|]. rewrite C', CF. exact (PM_succ m K).
  - intros i m n f (K & J & F & RF & CF). split; [exact K|]. split; [exact J|]. exists (fmul F F). split; [exact (r12_square _ _ RF)|]. rewrite chi_product, CF. reflexivity.
  - split; [reflexivity|]. split; [reflexivity|]. exists f1. split; [exact r12_one|]. rewrite PM_1, (one_one (K:=Fp12)). exact chi_one.
  - exists f. split; [unfold multi_miller_loop; rewrite E; reflexivity|exact F].
Qed.
End Multi.
