(** * Proof_CurveMul: multiples of points and batch conversion *)
From Coq Require Import ZArith List Bool Lia Field.
From Verif Require Import Base Fld Spec_Curve Proof_Curve Model_Curve Spec_CurveCode Proof_CurveCode Group.
Import ListNotations.

Section Zmul.
Context {K : fld} {b : K}.
Local Open Scope fld_scope.
Hypothesis H2 : (1 + 1 : K) <> 0.
Hypothesis NoTwo : forall x : K, x * x * x + b <> 0.
Notation D := (on_curve b).

Lemma pt_zmul n P : @point_zmul K n P = zmul point_add point_neg Infinity n P. Proof. reflexivity. Qed.
Let A := point_add_assoc b H2 NoTwo.
Let C := point_add_comm b H2 NoTwo.
Let DA := point_add_on_curve b H2 NoTwo.
Let DN := point_neg_on_curve b.
Let D0 : D Infinity := I.
Let Z0 (x : point K) (_ : D x) := point_add_0_l x.
Let NR (x : point K) (_ : D x) := point_add_neg_r x.

Lemma zmul_on_curve n P : D P -> D (point_zmul n P).
Proof. apply (D_zmul D point_add point_neg Infinity D0 DA DN). Qed.
Lemma pt_zmul_1 P : D P -> point_zmul 1 P = P.
Proof. intros. apply point_add_0_r. Qed.
Lemma pt_zmul_add m n P : D P -> point_zmul (m + n) P = point_add (point_zmul m P) (point_zmul n P).
Proof. apply (zmul_add D point_add point_neg Infinity D0 DA DN A C Z0 NR). Qed.
Lemma pt_zmul_mul m n P : D P -> point_zmul (m * n) P = point_zmul m (point_zmul n P).
Proof. apply (zmul_mul D point_add point_neg Infinity D0 DA DN A C Z0 NR). Qed.
Lemma pt_zmul_opp n P : D P -> point_zmul (- n) P = point_neg (point_zmul n P).
Proof. apply (zmul_opp D point_add point_neg Infinity D0 DA DN A C Z0 NR). Qed.
Lemma pt_zmul_add_r n P Q : D P -> D Q -> point_zmul n (point_add P Q) = point_add (point_zmul n P) (point_zmul n Q).
Proof. apply (zmul_add_r D point_add point_neg Infinity D0 DA DN A C Z0 NR). Qed.
Lemma pt_zmul_neg_r n P : D P -> point_zmul n (point_neg P) = point_neg (point_zmul n P).
Proof. apply (zmul_neg_r D point_add point_neg Infinity D0 DA DN A C Z0 NR). Qed.
Lemma pt_zmul_inf n : point_zmul n (Infinity : point K) = Infinity.
Proof. apply (zmul_zero D point_add point_neg Infinity D0 DA DN A C Z0 NR). Qed.
Lemma pt_zmul_mod n m P : D P -> m <> 0%Z -> point_zmul m P = Infinity -> point_zmul (n mod m) P = point_zmul n P.
Proof. apply (zmul_mod D point_add point_neg Infinity D0 DA DN A C Z0 NR). Qed.
Lemma pt_zmul_prime_order q n P : D P -> Znumtheory.prime q -> point_zmul q P = Infinity -> point_zmul n P = Infinity ->
  P <> Infinity -> (n mod q = 0)%Z.
Proof. apply (zmul_prime_order D point_add point_neg Infinity D0 DA DN A C Z0 NR). Qed.
Lemma pt_neg_add P Q : D P -> D Q -> point_neg (point_add P Q) = point_add (point_neg P) (point_neg Q).
Proof. apply (neg_add D point_add point_neg Infinity D0 DA DN A C Z0 NR). Qed.
Lemma pt_cancel P Q R : D P -> D Q -> D R -> point_add P Q = point_add P R -> Q = R.
Proof. apply (cancel D point_add point_neg Infinity DN A C Z0 NR). Qed.
Lemma pt_neg_unique P Q : D P -> D Q -> point_add P Q = Infinity -> Q = point_neg P.
Proof. apply (neg_unique D point_add point_neg Infinity D0 DN A C Z0 NR). Qed.
Add Field Kmul : (fld_field K).
Lemma pt_neg_neg (P : point K) : point_neg (point_neg P) = P.
Proof. destruct P; cbn; [reflexivity|]. f_equal. ring. Qed.
End Zmul.

Section Code.
Context {F : fops} {K : fld} {b : K} {rep : F -> K -> Prop} (OK : fops_ok F K b rep).
Add Field Kcode2 : (fld_field K).
Local Open Scope fld_scope.
Hypothesis H2 : (1 + 1 : K) <> 0.
Hypothesis NoTwo : forall x : K, x * x * x + b <> 0.

Notation pstands := (proj_stands b rep).
Notation astands := (aff_stands b rep).
Let ADD := proj_add_ok OK H2 NoTwo.
Let DBL := proj_double_ok OK H2 NoTwo.
Let ZADD := pt_zmul_add (b:=b) H2 NoTwo.
Let ZOPP := pt_zmul_opp (b:=b) H2 NoTwo.
Let ZONE := pt_zmul_1 (b:=b).

(** ** double and add *)
Lemma multiply_bits_fold p P bits : pstands p P -> forall acc n, pstands acc (point_zmul n P) ->
  pstands (fold_left (fun acc (bit : bool) => let acc := proj_double acc in select acc (proj_add acc p) bit) bits acc)
          (point_zmul (msb_val n bits) P).
Proof.
  intros HP. assert (C := proj_stands_on_curve p P HP). induction bits as [|c bits IH]; intros acc n HA; [exact HA|].
  cbn [fold_left msb_val]. apply IH. cbv zeta. pose proof (DBL _ _ HA) as HD.
  rewrite <- ZADD in HD by assumption. replace (n + n)%Z with (2 * n)%Z in HD by lia.
  destruct c; cbn [select]; [|now rewrite Z.add_0_r].
  pose proof (ADD _ _ _ _ HD HP) as HE. rewrite ZADD by assumption. now rewrite ZONE.
Qed.
Theorem proj_multiply_bits_ok p P by_ : pstands p P ->
  pstands (proj_multiply_bits p by_) (point_zmul (msb_val 0 (skipn 1 (bits_msb by_))) P).
Proof. intros HP. apply multiply_bits_fold; [exact HP|]. apply (proj_identity_ok OK). Qed.

(** ** multiplication by the curve parameter *)
Lemma mul_by_x_loop_ok P : on_curve b P -> forall fuel x tmp xself m n, (0 <= x < 2 ^ Z.of_nat fuel)%Z ->
  pstands tmp (point_zmul m P) -> pstands xself (point_zmul n P) ->
  pstands (mul_by_x_loop fuel x tmp xself) (point_zmul (n + 2 * m * x) P).
Proof.
  intros C. induction fuel as [|fuel IH]; intros x tmp xself m n R HT HX.
  - assert (x = 0%Z) by (cbn in R; lia). subst. rewrite Z.mul_0_r, Z.add_0_r. exact HX.
  - cbn [mul_by_x_loop]. destruct (Z.eqb_spec x 0) as [->|N]; [rewrite Z.mul_0_r, Z.add_0_r; exact HX|].
    cbv zeta. pose proof (DBL _ _ HT) as HD. rewrite <- ZADD in HD by assumption.
    assert (R' : (0 <= x / 2 < 2 ^ Z.of_nat fuel)%Z).
    { rewrite Nat2Z.inj_succ, Z.pow_succ_r in R by lia. split; [apply Z.div_pos; lia|apply Z.div_lt_upper_bound; lia]. }
    assert (E := Z_div_mod_eq_full x 2). assert (B := Z.mod_pos_bound x 2 ltac:(lia)).
    destruct (Z.eqb_spec (x mod 2) 1) as [M|M].
    + pose proof (ADD _ _ _ _ HX HD) as HY. rewrite <- ZADD in HY by assumption.
      specialize (IH (x / 2)%Z _ _ _ _ R' HD HY).
      replace (n + 2 * m * x)%Z with (n + (m + m) + 2 * (m + m) * (x / 2))%Z by nia. exact IH.
    + assert (M0 : (x mod 2 = 0)%Z) by lia.
      specialize (IH (x / 2)%Z _ _ _ _ R' HD HX).
      replace (n + 2 * m * x)%Z with (n + 2 * (m + m) * (x / 2))%Z by nia. exact IH.
Qed.
Theorem proj_mul_by_x_ok p P : pstands p P -> pstands (proj_mul_by_x p) (point_zmul (- BLS_X) P).
Proof.
  intros HP. assert (C := proj_stands_on_curve p P HP). rewrite ZOPP by assumption.
  apply (proj_neg_ok OK).
  replace BLS_X with (0 + 2 * 1 * (BLS_X / 2))%Z at 2 by reflexivity.
  apply mul_by_x_loop_ok; [exact C|split; [discriminate|reflexivity]| |apply (proj_identity_ok OK)].
  now rewrite ZONE.
Qed.

(** ** batch conversion *)
Ltac reps := repeat first
  [ eassumption | apply (rep_add _ _ _ _ OK) | apply (rep_sub _ _ _ _ OK) | apply (rep_neg _ _ _ _ OK)
  | apply (rep_mul _ _ _ _ OK) | apply (rep_square _ _ _ _ OK) | apply (rep_3b _ _ _ _ OK)
  | apply (rep_zero _ _ _ _ OK) | apply (rep_one _ _ _ _ OK) | apply (rep_B _ _ _ _ OK) ].

(** a coordinate z that is zero counts as one *)
Definition zof (p : proj F) (Zv : K) : Prop :=
  let '(Proj _ _ z) := p in exists Z0, rep z Z0 /\ Zv = if feqb Z0 0 then 1 else Z0.
Lemma zof_nonzero p Zv : zof p Zv -> Zv <> 0.
Proof.
  destruct p. intros (Z0 & _ & ->). destruct (feqb Z0 0) eqn:E; [apply f1_neq_0|now apply feqb_false].
Qed.
Lemma pstands_zof p P : pstands p P -> exists Zv, zof p Zv.
Proof. destruct p. intros (X & Y & Z0 & _ & _ & R & _). exists (if feqb Z0 0 then 1 else Z0), Z0. auto. Qed.
Lemma batch_step acc (a : K) x y z Zv : rep acc a -> zof (Proj x y z) Zv ->
  rep (select (fo_mul acc z) acc (fo_is_zero z)) (a * Zv).
Proof.
  intros R (Z0 & RZ & ->). rewrite (rep_is_zero _ _ _ _ OK _ _ RZ). destruct (feqb Z0 0); cbn [select].
  - eapply rep_to; [|exact R]. ring.
  - reps.
Qed.
Fixpoint prods (a : K) (zs : list K) : list K := match zs with [] => [] | z :: t => a :: prods (a * z) t end.
Definition prod_all (a : K) (zs : list K) : K := fold_left (fun a z => a * z) zs a.
Lemma batch_forward_ok p zs : Forall2 zof p zs -> forall q acc a, rep acc a ->
  exists q', fold_left batch_forward p (q, acc) = (q ++ q', snd (fold_left batch_forward p (q, acc))) /\
    Forall2 rep q' (prods a zs) /\ rep (snd (fold_left batch_forward p (q, acc))) (prod_all a zs).
Proof.
  induction 1 as [|[x y z] Zv p zs HZ HF IH]; intros q acc a R.
  - exists []. cbn. rewrite app_nil_r. auto.
  - cbn [fold_left batch_forward proj_is_identity].
    destruct (IH (q ++ [acc]) _ _ (batch_step _ _ _ _ _ _ R HZ)) as (q' & E & A & B).
    exists (acc :: q'). split; [|split].
    + rewrite E at 1. f_equal. now rewrite <- app_assoc.
    + cbn [prods]. constructor; assumption.
    + exact B.
Qed.
Lemma prod_all_nonzero zs : Forall (fun z => z <> 0) zs -> forall a, a <> 0 -> prod_all a zs <> 0.
Proof.
  induction 1; intros a Ha; cbn; [exact Ha|]. apply IHForall. now apply mul_nonzero.
Qed.
Lemma batch_point p P Zv qx acc (a c : K) : pstands p P -> zof p Zv -> a <> 0 -> rep qx a -> rep acc c -> c * (a * Zv) = 1 ->
  forall out, exists acc' A', batch_backward (out, acc) (p, qx) = (A' :: out, acc') /\ astands A' P /\
    exists c', rep acc' c' /\ c' * a = 1.
Proof.
  intros HP HZ Ha Rq Rc E out. destruct p as [x y z]. cbn [batch_backward proj_is_identity].
  do 2 eexists. split; [reflexivity|].
  destruct HP as (X & Y & Z0 & RX & RY & RZ & C & <-). destruct HZ as (Z1 & RZ1 & EZ).
  rewrite <- (rep_unique _ _ _ _ OK _ _ _ RZ RZ1) in EZ. clear Z1 RZ1.
  rewrite (rep_is_zero _ _ _ _ OK _ _ RZ). split.
  - unfold point_of. destruct (feqb Z0 0) eqn:E0; cbn [select]; [apply (aff_identity_ok OK)|].
    exists (X * (a * c)), (Y * (a * c)). split; [reps|]. split; [reps|].
    assert (N0 : Z0 <> 0) by now apply feqb_false.
    split; [apply point_of_on_curve in C; unfold point_of in C; rewrite E0 in C; exact C|].
    assert (I : a * c = finv Z0).
    { symmetry. apply finv_unique. rewrite <- E, EZ. ring. }
    rewrite I. f_equal; field; exact N0.
  - exists (c * Zv). split.
    + rewrite <- (rep_is_zero _ _ _ _ OK _ _ RZ). apply (batch_step acc c x y z); [exact Rc|]. exists Z0. auto.
    + rewrite <- E. ring.
Qed.
Lemma batch_backward_ok p P zs : Forall2 pstands p P -> Forall2 zof p zs -> forall q a acc c,
  a <> 0 -> Forall2 rep q (prods a zs) -> rep acc c -> c * prod_all a zs = 1 ->
  exists out acc' c', fold_left batch_backward (rev (combine p q)) ([], acc) = (out, acc') /\
    Forall2 astands out P /\ rep acc' c' /\ c' * a = 1.
Proof.
  intros HP. revert zs. induction HP as [|p P ps Ps H1 HP IH]; intros zs HZ q a acc c Ha HQ HR HE.
  - inversion HZ; subst. cbn. exists [], acc, c. cbn in HE. auto.
  - inversion HZ as [|? Zv ? zs' HZ1 HZ']; subst. cbn [prods] in HQ. inversion HQ as [|qx ? q' ? Q1 Q']; subst.
    cbn [combine rev]. rewrite fold_left_app.
    assert (NZ := zof_nonzero _ _ HZ1).
    destruct (IH zs' HZ' q' (a * Zv) acc c (mul_nonzero _ _ Ha NZ) Q' HR HE) as (out & acc' & c' & E & A & R & EC).
    rewrite E. cbn [fold_left].
    destruct (batch_point p P Zv qx acc' a c' H1 HZ1 Ha Q1 R EC out) as (acc'' & A' & E' & S' & c'' & R'' & EC'').
    exists (A' :: out), acc'', c''. split; [exact E'|]. split; [constructor; assumption|]. auto.
Qed.
Theorem batch_normalize_ok p P : Forall2 pstands p P ->
  (exists out, batch_normalize p (length p) = Ok out /\ Forall2 astands out P) /\
  (forall n, n <> length p -> batch_normalize p n = Panic).
Proof.
  intros H. split.
  - assert (HZ : exists zs, Forall2 zof p zs).
    { clear - H. induction H as [|p P ps Ps H1 H IH]; [exists []; constructor|].
      destruct IH as [zs IH], (pstands_zof p P H1) as [Zv HZ]. exists (Zv :: zs). constructor; assumption. }
    destruct HZ as [zs HZ].
    destruct (batch_forward_ok p zs HZ [] fo_one 1 (rep_one _ _ _ _ OK)) as (q & E & A & B).
    unfold batch_normalize. rewrite Nat.eqb_refl. cbn [assert bind]. rewrite E. cbn [app].
    set (acc := snd _) in *. pose proof (rep_invert _ _ _ _ OK acc _ B) as I.
    assert (N : prod_all 1 zs <> 0).
    { apply prod_all_nonzero; [|apply f1_neq_0]. clear - HZ. induction HZ; constructor; eauto using zof_nonzero. }
    destruct (fo_invert acc) as [t|]; [|contradiction].
    destruct I as [_ R].
    destruct (batch_backward_ok p P zs H HZ q 1 t (finv (prod_all 1 zs)) (f1_neq_0) A R) as (out & acc' & c' & E' & S & _).
    { apply finv_l. exact N. }
    exists out. rewrite E'. auto.
  - intros n Hn. unfold batch_normalize. apply not_eq_sym, Nat.eqb_neq in Hn. now rewrite Hn.
Qed.
End Code.
