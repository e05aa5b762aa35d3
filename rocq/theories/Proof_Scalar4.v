(** * Proof_Scalar4: square roots (Tonelli-Shanks) *)
From Coq Require Import ZArith Lia List Bool Znumtheory Ring Field Arith.
From Verif Require Import Base Fld Fermat Tables Zr Model_Scalar Spec_Scalar Proof_Scalar Proof_Scalar2 Proof_Scalar3.
Import ListNotations.

(** ** the algorithm over an arbitrary field *)
Section TS.
Context {K : fld}.
Add Field Kts : (fld_field K).
Local Open Scope fld_scope.

Definition sqn (n : nat) (x : K) : K := Nat.iter n (fun y => y * y) x.
Lemma sqn_S n x : sqn (S n) x = sqn n x * sqn n x. Proof. reflexivity. Qed.
Lemma sqn_add n m x : sqn (n + m) x = sqn n (sqn m x).
Proof. induction n; [reflexivity|]. cbn [Nat.add]. now rewrite !sqn_S, IHn. Qed.
Lemma sqn_mul n x y : sqn n (x * y) = sqn n x * sqn n y.
Proof. induction n; [reflexivity|]. rewrite !sqn_S, IHn. ring. Qed.
Lemma sqn_1 n : sqn n (1 : K) = 1.
Proof. induction n; [reflexivity|]. rewrite sqn_S, IHn. ring. Qed.
Lemma sqn_sq n x : sqn n (x * x) = sqn (S n) x.
Proof. now rewrite sqn_mul. Qed.

Definition sel {A} (a b : A) (c : bool) : A := if c then b else a.
Definition ts_inner (v j : nat) (st : nat * K * bool * K) : nat * K * bool * K :=
  let '(k, tmp, jlv, z) := st in
  let o := feqb tmp 1 in
  let s := sel tmp z o * sel tmp z o in
  let tmp := sel s tmp o in
  let nz := sel z s o in
  let jlv := jlv && negb (Nat.eqb j v) in
  let k := if o then k else j in
  (k, tmp, jlv, sel z nz jlv).
Definition ts_in (v n m : nat) (st : nat * K * bool * K) : nat * K * bool * K :=
  fold_left (fun st j => ts_inner v j st) (seq n m) st.
Definition ts_outer (st : nat * K * K * K) (max_v : nat) : nat * K * K * K :=
  let '(v, x, b, z) := st in
  let '(k, tmp, jlv, z) := ts_in v 2 (max_v - 2) (1%nat, b * b, true, z) in
  let x := sel (x * z) x (feqb b 1) in
  (k, x, b * (z * z), z * z).

Lemma ts_in_app v n m1 m2 st : ts_in v n (m1 + m2) st = ts_in v (n + m1) m2 (ts_in v n m1 st).
Proof. unfold ts_in. rewrite seq_app, fold_left_app. reflexivity. Qed.

Lemma feqb_true (x y : K) : x = y -> feqb x y = true. Proof. apply feqb_spec. Qed.
Lemma feqb_false (x y : K) : x <> y -> feqb x y = false.
Proof. intros H. destruct (feqb x y) eqn:E; [|reflexivity]. apply feqb_spec in E. contradiction. Qed.

(** whatever happens, z is only ever squared *)
Lemma ts_in_z v m : forall n k tmp jlv z, exists k' tmp' jlv' c, ts_in v n m (k, tmp, jlv, z) = (k', tmp', jlv', sqn c z).
Proof.
  induction m; intros n k tmp jlv z; [exists k, tmp, jlv, O; reflexivity|].
  unfold ts_in. cbn [seq fold_left ts_inner]. unfold sel.
  set (jl := jlv && negb (Nat.eqb n v)). set (o := feqb tmp 1).
  destruct (IHm (S n) (if o then k else n) (if o then tmp else (if o then z else tmp) * (if o then z else tmp)) jl
     (if jl then if o then (if o then z else tmp) * (if o then z else tmp) else z else z)) as (k' & t' & j' & c & E).
  unfold ts_in in E. rewrite E.
  destruct jl, o; try (exists k', t', j', c; reflexivity).
  exists k', t', j', (c + 1)%nat. now rewrite sqn_add.
Qed.

(** phase 1: squaring until one is reached *)
Lemma ts_phase1 v b z m : forall n, (1 <= n)%nat -> (forall i, (n <= i < n + m)%nat -> sqn i b <> 1) -> (n + m < v)%nat ->
  ts_in v (S n) m (n, sqn n b, true, z) = ((n + m)%nat, sqn (n + m) b, true, z).
Proof.
  induction m; intros n Hn Hb Hv; [now rewrite Nat.add_0_r|].
  unfold ts_in. cbn [seq fold_left ts_inner]. rewrite (feqb_false (sqn n b) 1) by (apply Hb; lia).
  unfold sel. cbv iota. rewrite (proj2 (Nat.eqb_neq (S n) v)) by lia. cbn [andb negb].
  replace (n + S m)%nat with (S n + m)%nat by lia.
  apply (IHm (S n)); [lia| |lia]. intros i Hi. apply Hb. lia.
Qed.
(** phase 2: squaring z below v *)
Lemma ts_phase2 v k z m : forall n, (n + m <= v)%nat ->
  ts_in v n m (k, 1, true, z) = (k, 1, true, sqn m z).
Proof.
  revert z. induction m; intros z n Hv; [reflexivity|].
  unfold ts_in. cbn [seq fold_left ts_inner]. rewrite (feqb_true (1 : K) 1) by reflexivity.
  unfold sel. cbv iota. rewrite (proj2 (Nat.eqb_neq n v)) by lia. cbn [andb negb].
  transitivity (k, 1 : K, true, sqn m (z * z)); [apply (IHm (z * z) (S n)); lia|]. now rewrite sqn_sq.
Qed.
(** phase 3: nothing changes once j = v was met *)
Lemma ts_phase3' v k z m : forall n, ts_in v n m (k, 1, false, z) = (k, 1, false, z).
Proof.
  induction m; intros n; [reflexivity|].
  unfold ts_in. cbn [seq fold_left ts_inner]. rewrite (feqb_true (1 : K) 1) by reflexivity.
  unfold sel. cbv iota. cbn [andb]. apply IHm.
Qed.
Lemma ts_phase3 v k z m : exists jlv, ts_in v v m (k, 1, true, z) = (k, 1, jlv, z).
Proof.
  destruct m; [exists true; reflexivity|]. exists false.
  unfold ts_in. cbn [seq fold_left ts_inner]. rewrite (feqb_true (1 : K) 1) by reflexivity.
  unfold sel. cbv iota. rewrite Nat.eqb_refl. cbn [andb negb]. apply ts_phase3'.
Qed.

Lemma ts_in_spec v max_v b z k : (1 <= k)%nat -> (k < v)%nat -> (v <= max_v)%nat ->
  sqn k b = 1 -> (forall i, (1 <= i < k)%nat -> sqn i b <> 1) ->
  exists jlv, ts_in v 2 (max_v - 2) (1%nat, b * b, true, z) = (k, 1, jlv, sqn (v - 1 - k) z).
Proof.
  intros H1 H2 H3 Hk Hm.
  replace (max_v - 2)%nat with ((k - 1) + ((v - 1 - k) + (max_v - v)))%nat by lia.
  rewrite ts_in_app.
  assert (P1 := ts_phase1 v b z (k - 1) 1). replace (1 + (k - 1))%nat with k in P1 by lia.
  change (sqn 1 b) with (b * b) in P1. rewrite P1; [|lia|intros i Hi; apply Hm; lia|lia].
  rewrite ts_in_app, Hk, ts_phase2 by lia.
  replace (2 + (k - 1) + (v - 1 - k))%nat with v by lia. apply ts_phase3.
Qed.

(** the least k with b^(2^k) = 1 *)
Lemma least_sqn b n : sqn n b = 1 -> b <> 1 ->
  exists k, (1 <= k <= n)%nat /\ sqn k b = 1 /\ forall i, (i < k)%nat -> sqn i b <> 1.
Proof.
  induction n as [n IH] using lt_wf_ind. intros Hn Hb.
  destruct n; [exfalso; apply Hb, Hn|].
  destruct (feqb (sqn n b) 1) eqn:E.
  - apply feqb_spec in E. destruct (IH n) as (k & A & B & C); auto. exists k. split; [lia|auto].
  - destruct (Nat.eq_dec 0 0) as [_|]; [|lia].
    assert (Q : forall i, (i < S n)%nat -> sqn i b <> 1).
    { intros i Hi Ei. assert (N : sqn n b = 1).
      { replace n with ((n - i) + i)%nat by lia. rewrite sqn_add, Ei. apply sqn_1. }
      apply feqb_spec in N. congruence. }
    exists (S n). split; [lia|]. auto.
Qed.

Lemma sq_one (y : K) : y * y = 1 -> y <> 1 -> y = - (1).
Proof.
  intros H N. assert (P : (y - 1) * (y + 1) = 0) by (transitivity (y * y - 1); [ring|rewrite H; ring]).
  destruct (feqb (y - 1) 0) eqn:E.
  - apply feqb_spec in E. exfalso. apply N. transitivity (y - 1 + 1); [ring|]. rewrite E. ring.
  - assert (N' : y - 1 <> 0) by (intros X; apply feqb_spec in X; congruence).
    assert (Y : y + 1 = 0).
    { transitivity (((y - 1) * (y + 1)) / (y - 1)); [field; exact N'|]. rewrite P. field. exact N'. }
    transitivity (y + 1 - 1); [ring|]. rewrite Y. ring.
Qed.

(** loop invariant: still working, or finished (then x only changes sign) *)
Definition ts_active (a : K) (v : nat) (x b z : K) : Prop :=
  (1 <= v)%nat /\ x * x = a * b /\ sqn (v - 1) b = 1 /\ sqn (v - 1) z = - (1).
Definition ts_done (a x z : K) : Prop := x * x = a /\ z * z = 1.

Lemma sqn_done c z : z * z = 1 -> sqn c z * sqn c z = 1.
Proof. intros H. rewrite <- sqn_mul, H. apply sqn_1. Qed.

Lemma ts_outer_done a v x b z m : ts_done a x z ->
  exists v' x' b' z', ts_outer (v, x, b, z) m = (v', x', b', z') /\ ts_done a x' z'.
Proof.
  intros [X Z]. unfold ts_outer.
  destruct (ts_in_z v (m - 2) 2 1 (b * b) true z) as (k & t & j & c & ->).
  do 4 eexists. split; [reflexivity|]. assert (C := sqn_done c z Z). split.
  - unfold sel. destruct (feqb b 1); [exact X|].
    transitivity (x * x * (sqn c z * sqn c z)); [ring|]. rewrite X, C. ring.
  - rewrite C. ring.
Qed.

Lemma ts_outer_active a v x b z m : ts_active a v x b z -> (v <= m)%nat ->
  exists v' x' b' z', ts_outer (v, x, b, z) m = (v', x', b', z') /\
    (ts_done a x' z' \/ (ts_active a v' x' b' z' /\ (v' < v)%nat)).
Proof.
  intros (V & X & B & Z) M.
  destruct (feqb b 1) eqn:Eb.
  - (* b = 1: finished *)
    assert (b = 1) by (now apply feqb_spec). subst b. unfold ts_outer.
    assert (C : exists k t j c, ts_in v 2 (m - 2) (1%nat, 1 * 1, true, z) = (k, t, j, sqn c z) /\ (v <= S (S c))%nat).
    { replace (1 * 1) with (1 : K) by ring. destruct (le_lt_dec v 2) as [L|L].
      - destruct (ts_in_z v (m - 2) 2 1 1 true z) as (k & t & j & c & E). exists k, t, j, c. split; [exact E|lia].
      - replace (m - 2)%nat with ((v - 2) + (m - v))%nat by lia. rewrite ts_in_app, ts_phase2 by lia.
        replace (2 + (v - 2))%nat with v by lia. destruct (ts_phase3 v 1 (sqn (v - 2) z) (m - v)) as [j E].
        exists 1%nat, 1, j, (v - 2)%nat. split; [exact E|lia]. }
    destruct C as (k & t & j & c & -> & Hc). do 4 eexists. split; [reflexivity|]. left.
    rewrite (feqb_true (1 : K) 1) by reflexivity. split; [cbn [sel]; rewrite X; ring|].
    (* sqn (c+2) z = 1 *)
    change (sqn (S (S c)) z = 1). replace (S (S c)) with ((S (S c) - v) + (1 + (v - 1)))%nat by lia.
    rewrite !sqn_add, Z. replace (sqn 1 (- (1))) with (1 : K) by (cbn; ring). apply sqn_1.
  - assert (Nb : b <> 1) by (intros H; apply feqb_spec in H; congruence).
    destruct (least_sqn b (v - 1) B Nb) as (k & Hk & Ek & Mk).
    destruct (ts_in_spec v m b z k) as [j E]; [lia|lia|exact M|exact Ek|intros i Hi; apply Mk; lia|].
    unfold ts_outer. rewrite E. do 4 eexists. split; [reflexivity|]. right. split; [|lia].
    rewrite Eb. cbn [sel]. set (c := (v - 1 - k)%nat).
    split; [lia|]. split; [transitivity (x * x * (sqn c z * sqn c z)); [ring|rewrite X; ring]|].
    assert (Zc : sqn (k - 1) (sqn c z * sqn c z) = - (1)).
    { rewrite sqn_sq, <- sqn_add. replace (S (k - 1) + c)%nat with (v - 1)%nat by lia. exact Z. }
    split; [|exact Zc]. rewrite sqn_mul, Zc.
    rewrite (sq_one (sqn (k - 1) b)); [ring| |apply Mk; lia].
    rewrite <- sqn_S. replace (S (k - 1)) with k by lia. exact Ek.
Qed.

Lemma ts_fold_done a n : forall v x b z, ts_done a x z ->
  exists v' x' b' z', fold_left ts_outer (rev (seq 1 n)) (v, x, b, z) = (v', x', b', z') /\ x' * x' = a.
Proof.
  induction n; intros v x b z D; [do 4 eexists; split; [reflexivity|apply D]|].
  rewrite seq_S, rev_app_distr. cbn [rev app fold_left].
  destruct (ts_outer_done a v x b z (1 + n) D) as (v' & x' & b' & z' & -> & D'). now apply IHn.
Qed.
Lemma ts_fold a n : forall v x b z, ts_active a v x b z -> (v <= n)%nat ->
  exists v' x' b' z', fold_left ts_outer (rev (seq 1 n)) (v, x, b, z) = (v', x', b', z') /\ x' * x' = a.
Proof.
  induction n; intros v x b z A L; [exfalso; destruct A; lia|].
  rewrite seq_S, rev_app_distr. cbn [rev app fold_left].
  destruct (ts_outer_active a v x b z (1 + n) A) as (v' & x' & b' & z' & -> & [D|[A' L']]); [lia| |].
  - apply ts_fold_done, D.
  - apply IHn; [exact A'|lia].
Qed.

(** x = 0 stays 0 *)
Lemma ts_fold_zero n : forall v b z, exists v' b' z', fold_left ts_outer (rev (seq 1 n)) (v, 0, b, z) = (v', 0, b', z').
Proof.
  induction n; intros v b z; [do 3 eexists; reflexivity|].
  rewrite seq_S, rev_app_distr. cbn [rev app fold_left]. unfold ts_outer at 2.
  destruct (ts_in_z v (1 + n - 2) 2 1 (b * b) true z) as (k & t & j & c & ->).
  replace (sel (0 * sqn c z) 0 (feqb b 1)) with (0 : K) by (unfold sel; destruct (feqb b 1); ring).
  apply IHn.
Qed.
End TS.

(** ** simulation of the limb code *)
Add Field Fr_field4 : (fld_field Fr).
Local Open Scope Z_scope.

Definition repi (s : nat * scalar * bool * scalar) (t : nat * Fr * bool * Fr) : Prop :=
  let '(k, tmp, j, z) := s in let '(k', tmp', j', z') := t in k = k' /\ rep tmp tmp' /\ j = j' /\ rep z z'.
Definition repo (s : nat * scalar * scalar * scalar) (t : nat * Fr * Fr * Fr) : Prop :=
  let '(v, x, b, z) := s in let '(v', x', b', z') := t in v = v' /\ rep x x' /\ rep b b' /\ rep z z'.

Lemma rep_select a b x y c : rep a x -> rep b y -> rep (conditional_select a b c) (sel x y c).
Proof. destruct c; auto. Qed.

Lemma inner_sim v j s t : repi s t -> repi (sqrt_inner v j s) (ts_inner v j t).
Proof.
  destruct s as [[[k tmp] jl] z], t as [[[k' tmp'] jl'] z']. intros (-> & T & -> & Z).
  unfold sqrt_inner, ts_inner. rewrite (ct_eq_feqb tmp one tmp' f1 T rep_one).
  set (o := feqb tmp' f1). assert (SQ := rep_square _ _ (rep_select _ _ _ _ o T Z)).
  split; [reflexivity|]. split; [now apply rep_select|]. split; [reflexivity|].
  apply rep_select; [exact Z|]. now apply rep_select.
Qed.
Lemma inner_fold_sim v l : forall s t, repi s t ->
  repi (fold_left (fun st j => sqrt_inner v j st) l s) (fold_left (fun st j => ts_inner v j st) l t).
Proof. induction l; intros s t H; [exact H|]. cbn [fold_left]. apply IHl, inner_sim, H. Qed.
Lemma outer_sim m s t : repo s t -> repo (sqrt_outer s m) (ts_outer t m).
Proof.
  destruct s as [[[v x] b] z], t as [[[v' x'] b'] z']. intros (-> & X & B & Z).
  unfold sqrt_outer, ts_outer, ts_in.
  assert (I := inner_fold_sim v' (seq 2 (m - 2)) (1%nat, square b, true, z) (1%nat, fmul b' b', true, z')).
  destruct (fold_left _ (seq 2 (m - 2)) (1%nat, square b, true, z)) as [[[k tmp] jl] z1].
  destruct (fold_left _ (seq 2 (m - 2)) (1%nat, fmul b' b', true, z')) as [[[k' tmp'] jl'] z1'].
  destruct I as (-> & _ & _ & Z1); [split; [reflexivity|split; [apply rep_square; exact B|split; [reflexivity|exact Z]]]|].
  rewrite (ct_eq_feqb b one b' f1 B rep_one).
  split; [reflexivity|]. split; [apply rep_select; [now apply rep_mul|exact X]|].
  split; [apply rep_mul; [exact B|apply rep_square, Z1]|apply rep_square, Z1].
Qed.
Lemma outer_fold_sim l : forall s t, repo s t -> repo (fold_left sqrt_outer l s) (fold_left ts_outer l t).
Proof. induction l; intros s t H; [exact H|]. cbn [fold_left]. apply IHl, outer_sim, H. Qed.

(** ROOT_OF_UNITY has order 2^32 *)
Definition root32 : Fr := fr_of 0x16a2a19edfe81f20d09b681922c813b4b63683508c2280b93829971f439f0d2b.
Lemma rep_root : rep ROOT_OF_UNITY root32.
Proof.
  split; [split; [repeat split; reflexivity || discriminate|reflexivity]|].
  unfold root32, RR. rewrite <- fr_of_mul. apply fr_of_eq. vm_compute. reflexivity.
Qed.
Lemma root32_order : sqn 31 root32 = fneg f1.
Proof. apply val_inj. vm_compute. reflexivity. Qed.

Lemma sqn_Fr_pow n x e : 0 <= e -> sqn n (Fr_pow x e) = Fr_pow x (e * 2 ^ Z.of_nat n).
Proof.
  intros He. induction n.
  - change (2 ^ Z.of_nat 0) with 1. now rewrite Z.mul_1_r.
  - rewrite sqn_S, IHn, Nat2Z.inj_succ, Z.pow_succ_r by lia.
    rewrite <- Fr_pow_add by (apply Z.mul_nonneg_nonneg; [exact He|apply Z.pow_nonneg; lia]). f_equal. ring.
Qed.

Definition T_odd : Z := 0x73eda753299d7d483339d80809a1d80553bda402fffe5bfeffffffff.
Lemma sqrt_exp_val : limbs_val sqrt_exp = (T_odd - 1) / 2. Proof. reflexivity. Qed.

Lemma Fr_pow_sq y e : 0 <= e -> Fr_pow (fmul y y) e = Fr_pow y (2 * e).
Proof.
  intros He. unfold Fr_pow. replace (2 * e) with (e + e) by ring. rewrite Z.pow_add_r by lia.
  rewrite fr_of_mul. change (val (fmul y y)) with ((val y * val y) mod r).
  apply val_inj. rewrite <- fr_of_mul, !val_fr_of, <- Z.pow_mul_l.
  symmetry. apply Zpow_facts.Zpower_mod. reflexivity.
Qed.

Lemma sqrt_spec a y : rep a y ->
  ((exists x, fmul x x = y) -> exists s x, sqrt a = Some s /\ rep s x /\ fmul x x = y) /\
  (~ (exists x, fmul x x = y) -> sqrt a = None).
Proof.
  intros A. unfold sqrt.
  destruct (pow_vartime_spec y a sqrt_exp A) as [E0 Pw].
  { repeat constructor; reflexivity || discriminate. }
  set (w := pow_vartime a sqrt_exp) in *. clearbody w.
  set (e := limbs_val sqrt_exp) in *.
  set (wf_ := Fr_pow y e) in *.
  assert (X0 := rep_mul _ _ _ _ A Pw). assert (B0 := rep_mul _ _ _ _ X0 Pw).
  assert (SIM := outer_fold_sim (rev (seq 1 S_adicity)) (S_adicity, mul a w, mul (mul a w) w, ROOT_OF_UNITY)
     (S_adicity, fmul y wf_, fmul (fmul y wf_) wf_, root32)).
  destruct (fold_left sqrt_outer (rev (seq 1 S_adicity)) _) as [[[v s] b] z].
  assert (FIN : (exists x, fmul x x = y) -> exists v' x' b' z',
    fold_left ts_outer (rev (seq 1 S_adicity)) (S_adicity, fmul y wf_, fmul (fmul y wf_) wf_, root32) = (v', x', b', z') /\ fmul x' x' = y).
  { intros [u U]. destruct (feqb y f0) eqn:Ey.
    - apply (feqb_spec Fr) in Ey. clearbody wf_. replace (fmul y wf_) with (f0 : Fr) by (rewrite Ey; ring).
      destruct (ts_fold_zero S_adicity S_adicity (fmul f0 wf_) root32) as (v' & b' & z' & Q).
      exists v', f0, b', z'. split; [|rewrite Ey; ring]. exact Q.
    - assert (Ny : y <> f0) by (intros H; rewrite (proj2 (feqb_spec Fr y f0) H) in Ey; discriminate).
      assert (Nu : u <> f0) by (intros ->; apply Ny; rewrite <- U; ring).
      apply ts_fold; [|reflexivity]. split; [unfold S_adicity; lia|].
      assert (BV : fmul (fmul y wf_) wf_ = Fr_pow y T_odd).
      { unfold wf_. rewrite <- (Fr_pow_1 y) at 1. rewrite <- !Fr_pow_add by (try exact E0; discriminate). reflexivity. }
      split; [ring|]. split; [|exact root32_order].
      rewrite BV. change (S_adicity - 1)%nat with 31%nat.
      rewrite sqn_Fr_pow by discriminate. rewrite <- U, Fr_pow_sq by discriminate.
      change (2 * (T_odd * 2 ^ Z.of_nat 31)) with (r - 1).
      replace (r - 1) with (r - 2 + 1) by ring. rewrite Fr_pow_add by discriminate. rewrite Fr_pow_1. now apply Fr_pow_fermat. }
  destruct (fold_left ts_outer (rev (seq 1 S_adicity)) _) as [[[v' x'] b'] z'].
  destruct SIM as (_ & RS & _ & _); [split; [reflexivity|split; [exact X0|split; [exact B0|exact rep_root]]]|].
  assert (CE := ct_eq_rep _ _ _ _ (rep_mul _ _ _ _ RS RS) A).
  split.
  - intros Q. destruct (FIN Q) as (v2 & x2 & b2 & z2 & EQ & Sq). injection EQ as -> -> -> ->.
    apply CE in Sq. rewrite Sq. exists s, x2. split; [reflexivity|]. split; [exact RS|]. now apply CE.
  - intros NQ. destruct (ct_eq (mul s s) a); [|reflexivity]. exfalso. apply NQ. exists x'. now apply CE.
Qed.
