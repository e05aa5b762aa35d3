(** * Proof_G1Sub: the points of order dividing r are exactly the multiples of the generator *)
From Coq Require Import ZArith List Bool Lia Znumtheory.
From Verif Require Import Base Fld Zr Zp Spec_Curve Model_Curve Spec_CurveCode
  Proof_Curve Proof_CurveCode Proof_CurveMul Proof_Endo Model_G1 Proof_G1Base Proof_GLV Proof_G1Mul Proof_Chain Proof_G1Gen.
Import ListNotations.
Local Open Scope Z_scope.

(** ** Counting *)
Lemma inj_bound_nat (n m : nat) (f : nat -> nat) :
  (forall i, (i < n)%nat -> (f i < m)%nat) ->
  (forall i j, (i < n)%nat -> (j < n)%nat -> f i = f j -> i = j) -> (n <= m)%nat.
Proof.
  intros R J. enough (H : (length (map f (seq 0 n)) <= length (seq 0 m))%nat) by (rewrite map_length, !seq_length in H; exact H).
  apply NoDup_incl_length.
  - assert (H : forall l, NoDup l -> (forall i, In i l -> (i < n)%nat) -> NoDup (map f l)).
    { induction l as [|a l IH]; intros N B; cbn [map]; constructor.
      - intros I. apply in_map_iff in I. destruct I as (i & E & I). apply J in E.
        + subst i. inversion N; contradiction.
        + apply B. right. exact I.
        + apply B. left. reflexivity.
      - apply IH; [inversion N; assumption|]. intros i I. apply B. right. exact I. }
    apply H; [apply seq_NoDup|]. intros i I. apply in_seq in I. lia.
  - intros y I. apply in_map_iff in I. destruct I as (i & <- & I). apply in_seq in I. apply in_seq. specialize (R i). lia.
Qed.
Lemma inj_bound (n m : Z) (f : Z -> Z) : 0 <= n -> 0 <= m ->
  (forall i, 0 <= i < n -> 0 <= f i < m) ->
  (forall i j, 0 <= i < n -> 0 <= j < n -> f i = f j -> i = j) -> n <= m.
Proof.
  intros N M R J. apply Z2Nat.inj_le; [exact N|exact M|].
  apply (inj_bound_nat _ _ (fun i => Z.to_nat (f (Z.of_nat i)))).
  - intros i I. specialize (R (Z.of_nat i)). lia.
  - intros i j I I' E. pose proof (R (Z.of_nat i)). pose proof (R (Z.of_nat j)).
    specialize (J (Z.of_nat i) (Z.of_nat j)). lia.
Qed.

(** a point of the curve is determined by its x and the parity of its y *)
Definition code (P : point Fp) : Z :=
  match P with Infinity => 2 * p | Affine x y => 2 * pval x + pval y mod 2 end.
Lemma code_range P : 0 <= code P < 2 * p + 1.
Proof.
  destruct P as [|x y]; cbn [code]; pose proof p_pos.
  - lia.
  - pose proof (pval_range x). pose proof (Z.mod_pos_bound (pval y) 2). lia.
Qed.
Section SquareRoots.
Context {K : fld}.
Add Field KF : (fld_field K).
Lemma same_square (x y y' c : K) : fmul y y = c -> fmul y' y' = c -> y = y' \/ y' = fneg y.
Proof.
  intros A B. assert (E : fmul (fsub y y') (fadd y y') = f0).
  { transitivity (fsub (fmul y y) (fmul y' y')); [ring|]. rewrite A, B. ring. }
  apply fmul_eq_0 in E. destruct E as [E|E].
  - left. transitivity (fadd (fsub y y') y'); [ring|]. rewrite E. ring.
  - right. transitivity (fsub (fadd y y') y); [ring|]. rewrite E. ring.
Qed.
End SquareRoots.
Lemma pval_neg (y : Fp) : pval (fneg y) = (- pval y) mod p.
Proof. change (fneg y) with (Fp_neg y). unfold Fp_neg. apply pval_to_Fp. Qed.
Lemma neg_parity q v : Z.odd q = true -> 0 <= v < q -> v mod 2 = ((- v) mod q) mod 2 -> v = 0.
Proof.
  intros O R E. destruct (Z.eq_dec v 0) as [|N]; [assumption|]. exfalso.
  replace ((- v) mod q) with (q - v) in E.
  - rewrite <- Z.add_opp_r, Zplus_mod, (Zmod_odd q), O in E. rewrite Zmod_odd in E.
    rewrite (Zmod_odd (- v)), Z.odd_opp in E. destruct (Z.odd v); discriminate E.
  - apply Z.mod_unique with (-1); lia.
Qed.
Lemma code_inj P Q : on_curve b4 P -> on_curve b4 Q -> code P = code Q -> P = Q.
Proof.
  destruct P as [|x y], Q as [|x' y']; intros CP CQ E; cbn [code] in E.
  - reflexivity.
  - exfalso. pose proof (pval_range x'). pose proof (Z.mod_pos_bound (pval y') 2). lia.
  - exfalso. pose proof (pval_range x). pose proof (Z.mod_pos_bound (pval y) 2). lia.
  - pose proof (Z.mod_pos_bound (pval y) 2). pose proof (Z.mod_pos_bound (pval y') 2).
    assert (EX : pval x = pval x') by lia. assert (EY : pval y mod 2 = pval y' mod 2) by lia.
    apply pval_inj in EX. subst x'. f_equal. cbn [on_curve] in CP, CQ.
    destruct (same_square x y y' _ CP CQ) as [A|A]; [exact A|].
    rewrite A, pval_neg in EY. apply neg_parity in EY; [|vm_compute; reflexivity|apply pval_range].
    apply pval_inj. rewrite A, pval_neg, EY. reflexivity.
Qed.
Theorem points_bound (f : Z -> point Fp) n : 0 <= n ->
  (forall i, 0 <= i < n -> on_curve b4 (f i)) ->
  (forall i j, 0 <= i < n -> 0 <= j < n -> f i = f j -> i = j) -> n <= 2 * p + 1.
Proof.
  intros N C J. pose proof p_pos. apply (inj_bound n (2 * p + 1) (fun i => code (f i))).
  - exact N.
  - lia.
  - intros. apply code_range.
  - intros i j I I' E. apply J; [exact I|exact I'|]. apply code_inj; [apply C; exact I|apply C; exact I'|exact E].
Qed.

(** ** Membership in the multiples of a point is decidable *)
Lemma point_dec {K : fld} (P Q : point K) : {P = Q} + {P <> Q}.
Proof.
  destruct P as [|x y], Q as [|x' y']; try (right; discriminate); [left; reflexivity|].
  destruct (fdec x x') as [->|N].
  - destruct (fdec y y') as [->|N]; [left; reflexivity|]. right. intros E. apply N. injection E. auto.
  - right. intros E. apply N. injection E. auto.
Qed.
Lemma bounded_dec (A : nat -> Prop) (D : forall i, {A i} + {~ A i}) n :
  {exists i, (i < n)%nat /\ A i} + {forall i, (i < n)%nat -> ~ A i}.
Proof.
  induction n as [|n [H|H]].
  - right. intros i I. lia.
  - left. destruct H as (i & I & H). exists i. split; [lia|exact H].
  - destruct (D n) as [Y|Y].
    + left. exists n. split; [lia|exact Y].
    + right. intros i I. destruct (Nat.eq_dec i n) as [->|]; [exact Y|apply H; lia].
Qed.
Lemma multiple_dec n (G P : point Fp) : 0 <= n ->
  {exists a, 0 <= a < n /\ P = point_zmul a G} + {forall a, 0 <= a < n -> P <> point_zmul a G}.
Proof.
  intros N. destruct (bounded_dec (fun i => P = point_zmul (Z.of_nat i) G) (fun i => point_dec _ _) (Z.to_nat n)) as [H|H].
  - left. destruct H as (i & I & H). exists (Z.of_nat i). split; [lia|exact H].
  - right. intros a A E. apply (H (Z.to_nat a)); [lia|]. rewrite Z2Nat.id by lia. exact E.
Qed.

(** ** Two independent points of prime order q would give q * q points *)
Local Notation ADD := (point_add (K:=Fp)).
Definition A_ := point_add_assoc b4 Fp_two Fp_NoTwo.
Definition C_ := point_add_comm b4 Fp_two Fp_NoTwo.
Definition ON_ := point_add_on_curve b4 Fp_two Fp_NoTwo.
Definition NON_ := point_neg_on_curve b4.
Lemma add_sub P Q R S : on_curve b4 P -> on_curve b4 Q -> on_curve b4 R -> on_curve b4 S ->
  ADD P Q = ADD R S -> ADD Q (point_neg S) = ADD R (point_neg P).
Proof.
  intros CP CQ CR CS E. pose proof (NON_ _ CS) as NS. pose proof (NON_ _ CP) as NP.
  apply (pt_cancel (b:=b4) Fp_two Fp_NoTwo P); [exact CP|apply ON_; assumption|apply ON_; assumption|].
  rewrite A_ by assumption. rewrite E. rewrite <- A_ by assumption. rewrite point_add_neg_r.
  rewrite (C_ R (point_neg P)) by assumption. rewrite (A_ P) by assumption. rewrite point_add_neg_r, point_add_0_l.
  rewrite C_ by (assumption || exact I). apply point_add_0_l.
Qed.
Lemma zmul_sub m n P : on_curve b4 P -> point_zmul (m - n) P = ADD (point_zmul m P) (point_neg (point_zmul n P)).
Proof. intros C. unfold Z.sub. rewrite G1_ZADD, G1_ZOPP by exact C. reflexivity. Qed.
Lemma unit_mod q d : prime q -> d mod q <> 0 -> exists u k, u * d = 1 + k * q.
Proof.
  intros PR N. assert (RP : rel_prime d q).
  { apply rel_prime_sym, prime_rel_prime; [exact PR|]. intros D. apply N, Zdivide_mod. exact D. }
  destruct (rel_prime_bezout _ _ RP) as [u v E]. exists u, (- v). rewrite <- E. ring.
Qed.
Lemma mod_range_eq q i j : 0 <= i < q -> 0 <= j < q -> (i - j) mod q = 0 -> i = j.
Proof. intros I J E. apply Z.mod_divide in E; [|lia]. destruct E as (k & E). assert (k = 0) by nia. subst k. lia. Qed.

Theorem order_multiples q G P : prime q -> on_curve b4 G -> G <> Infinity -> point_zmul q G = Infinity ->
  2 * p + 1 < q * q -> on_curve b4 P -> point_zmul q P = Infinity ->
  exists a, 0 <= a < q /\ P = point_zmul a G.
Proof.
  intros PR CG NG OG BIG CP OP. pose proof (prime_ge_2 _ PR) as Q2.
  destruct (multiple_dec q G P) as [H|H]; [lia|exact H|]. exfalso.
  assert (M : forall a, P <> point_zmul a G).
  { intros a E. apply (H (a mod q)); [apply Z.mod_pos_bound; lia|].
    rewrite E. symmetry. apply (pt_zmul_mod (b:=b4) Fp_two Fp_NoTwo); [exact CG|lia|exact OG]. }
  enough (q * q <= 2 * p + 1) by lia.
  apply (points_bound (fun i => ADD (point_zmul (i / q) G) (point_zmul (i mod q) P))).
  - nia.
  - intros. apply ON_; apply G1_ZON; assumption.
  - intros i j I J E.
    pose proof (G1_ZON (i / q) _ CG) as X1. pose proof (G1_ZON (i mod q) _ CP) as X2.
    pose proof (G1_ZON (j / q) _ CG) as X3. pose proof (G1_ZON (j mod q) _ CP) as X4.
    assert (E' := add_sub _ _ _ _ X1 X2 X3 X4 E). rewrite <- !zmul_sub in E' by assumption.
    pose proof (Z.mod_pos_bound i q). pose proof (Z.mod_pos_bound j q).
    assert (EM : i mod q = j mod q).
    { destruct (Z.eq_dec ((i mod q - j mod q) mod q) 0) as [Z0|Z0].
      - apply (mod_range_eq q); lia || exact Z0.
      - exfalso. destruct (unit_mod q _ PR Z0) as (u & k & U).
        apply (M (u * (j / q - i / q))). rewrite G1_ZMUL by exact CG. rewrite <- E'. rewrite <- G1_ZMUL by exact CP.
        rewrite U. rewrite G1_ZADD, G1_ONE by exact CP. rewrite G1_ZMUL by exact CP. rewrite OP.
        rewrite (pt_zmul_inf (b:=b4) Fp_two Fp_NoTwo). rewrite C_ by (exact CP || exact Logic.I). symmetry. apply point_add_0_l. }
    assert (ED : i / q = j / q).
    { rewrite EM, Z.sub_diag in E'. change (point_zmul 0 P) with (Infinity : point Fp) in E'. symmetry in E'.
      pose proof (pt_zmul_prime_order (b:=b4) Fp_two Fp_NoTwo q _ G CG PR OG E' NG) as Z0.
      symmetry. apply (mod_range_eq q); [| |exact Z0].
      - split; [apply Z.div_pos; lia|apply Z.div_lt_upper_bound; lia].
      - split; [apply Z.div_pos; lia|apply Z.div_lt_upper_bound; lia]. }
    rewrite (Z.div_mod i q), (Z.div_mod j q) by lia. rewrite EM, ED. reflexivity.
Qed.
Theorem subgroup_is_generated P : on_curve b4 P -> point_zmul r P = Infinity ->
  exists a, 0 <= a < r /\ P = point_zmul a G1gen.
Proof.
  intros C O. apply order_multiples; [exact r_prime|exact G1gen_on|exact G1gen_finite|exact gen_order| |exact C|exact O].
  vm_compute. reflexivity.
Qed.
(** the three ways of being in the prime-order subgroup *)
Theorem subgroup_eigen P : on_curve b4 P -> (phi P = point_zmul glv_lambda P <-> point_zmul r P = Infinity).
Proof.
  intros C. split.
  - intros E. rewrite <- r_lambda. apply (eigen_order (b:=b4) Fp_two Fp_three Fp_NoTwo beta beta_root); assumption.
  - intros O. destruct (subgroup_is_generated P C O) as (a & _ & ->).
    rewrite <- endo_zmul by exact beta_root. rewrite gen_eigen. pose proof G1gen_on as G.
    rewrite <- !G1_ZMUL by exact G. f_equal. lia.
Qed.
