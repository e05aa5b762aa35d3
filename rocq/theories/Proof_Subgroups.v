(** * Proof_Subgroups: subgroups of the points of a curve, with the number of their elements *)
From Coq Require Import ZArith List Bool Lia Znumtheory.
From Verif Require Import Base Fld Fermat Spec_Curve Proof_Curve Proof_CurveMul Proof_Endo Proof_G1Sub.
Local Open Scope Z_scope.

Section Sub.
Context {K : fld} {b : K}.
Hypothesis H2 : fadd f1 f1 <> (f0 : K).
Hypothesis NoTwo : forall x : K, fadd (fmul (fmul x x) x) b <> f0.
Let ZADD := pt_zmul_add (b:=b) H2 NoTwo.
Let ZADDR := pt_zmul_add_r (b:=b) H2 NoTwo.
Let ZMUL := pt_zmul_mul (b:=b) H2 NoTwo.
Let ZOPP := pt_zmul_opp (b:=b) H2 NoTwo.
Let ZON := zmul_on_curve (b:=b) H2 NoTwo.
Let ONE := pt_zmul_1 (b:=b).
Let A := point_add_assoc b H2 NoTwo.
Let C := point_add_comm b H2 NoTwo.
Let ON := point_add_on_curve b H2 NoTwo.
Let NON := point_neg_on_curve b.
Local Notation ADD := (point_add (K:=K)).

(** at least [n] elements, and killed by [e] *)
Record sub (H : point K -> Prop) (n e : Z) : Prop := {
  sub_on : forall P, H P -> on_curve b P;
  sub_0 : H Infinity;
  sub_add : forall P Q, H P -> H Q -> H (ADD P Q);
  sub_neg : forall P, H P -> H (point_neg P);
  sub_kill : forall P, H P -> point_zmul e P = Infinity;
  sub_pos : 0 <= n;
  sub_enum : exists f : Z -> point K, (forall i, 0 <= i < n -> H (f i)) /\
    (forall i j, 0 <= i < n -> 0 <= j < n -> f i = f j -> i = j) /\
    (forall P, H P -> exists i, 0 <= i < n /\ f i = P) }.

Lemma sub_trivial : sub (fun P => P = Infinity) 1 1.
Proof.
  split; try lia.
  - intros P ->. exact I.
  - reflexivity.
  - intros P Q -> ->. reflexivity.
  - intros P ->. reflexivity.
  - intros P ->. reflexivity.
  - exists (fun _ => Infinity). split; [reflexivity|]. split; [intros; lia|]. intros P ->. exists 0. split; [lia|reflexivity].
Qed.
Lemma sub_mult H n e : sub H n e -> forall k P, H P -> H (point_zmul k P).
Proof.
  intros S. assert (N : forall k P, 0 <= k -> H P -> H (point_zmul k P)).
  { intros k P K0 HP. pattern k. apply natlike_ind; [exact (sub_0 _ _ _ S)| |exact K0].
    intros x X IH. unfold Z.succ. pose proof (sub_on _ _ _ S _ HP) as CP. rewrite ZADD, ONE by exact CP.
    apply (sub_add _ _ _ S); assumption. }
  intros k P HP. destruct (Z.le_gt_cases 0 k) as [K0|K0]; [apply N; assumption|].
  replace k with (- (- k)) by lia. rewrite ZOPP by exact (sub_on _ _ _ S _ HP). apply (sub_neg _ _ _ S), N; [lia|exact HP].
Qed.
Definition plus (H : point K -> Prop) (B : point K) : point K -> Prop :=
  fun P => exists Q k, H Q /\ P = ADD Q (point_zmul k B).
Lemma add_shuffle P Q R S : on_curve b P -> on_curve b Q -> on_curve b R -> on_curve b S ->
  ADD (ADD P Q) (ADD R S) = ADD (ADD P R) (ADD Q S).
Proof.
  intros CP CQ CR CS. rewrite <- (A P Q (ADD R S)) by (try apply ON; assumption).
  rewrite (A Q R S) by assumption. rewrite (C Q R) by assumption. rewrite <- (A R Q S) by assumption.
  apply A; try apply ON; assumption.
Qed.
Lemma sub_of_eq P Q R S : on_curve b P -> on_curve b Q -> on_curve b R -> on_curve b S ->
  ADD P Q = ADD R S -> ADD Q (point_neg S) = ADD R (point_neg P).
Proof.
  intros CP CQ CR CS E. pose proof (NON _ CS) as NS. pose proof (NON _ CP) as NP.
  apply (pt_cancel (b:=b) H2 NoTwo P); [exact CP|apply ON; assumption|apply ON; assumption|].
  rewrite A by assumption. rewrite E. rewrite <- A by assumption. rewrite point_add_neg_r.
  rewrite (C R (point_neg P)) by assumption. rewrite (A P) by assumption. rewrite point_add_neg_r, point_add_0_l.
  rewrite C by (assumption || exact I). apply point_add_0_l.
Qed.
Lemma zmul_sub' m n P : on_curve b P -> point_zmul (m - n) P = ADD (point_zmul m P) (point_neg (point_zmul n P)).
Proof. intros CP. unfold Z.sub. rewrite ZADD, ZOPP by exact CP. reflexivity. Qed.
Lemma add_0_r P : on_curve b P -> ADD P Infinity = P.
Proof. intros CP. rewrite C by (exact CP || exact I). apply point_add_0_l. Qed.

(** a point of prime order outside a subgroup multiplies the number of elements *)
Theorem sub_extend H n e q e' B : sub H n e -> prime q -> on_curve b B -> point_zmul q B = Infinity -> ~ H B ->
  (e | e') -> (q | e') -> sub (plus H B) (n * q) e'.
Proof.
  intros S PR CB OB NB (c & EC) (e2 & ED'). pose proof (prime_ge_2 _ PR) as Q2. pose proof (sub_pos _ _ _ S) as N0.
  assert (UN : forall d P, H P -> point_zmul d B = P -> d mod q = 0).
  { intros d P HP E. destruct (Z.eq_dec (d mod q) 0) as [Z0|Z0]; [exact Z0|]. exfalso. apply NB.
    destruct (unit_mod q _ PR Z0) as (u & k & U).
    replace B with (point_zmul u P); [apply (sub_mult _ _ _ S); exact HP|].
    rewrite <- E. rewrite <- ZMUL by exact CB. rewrite U. rewrite ZADD, ONE by exact CB. rewrite ZMUL by exact CB. rewrite OB.
    rewrite (pt_zmul_inf (b:=b) H2 NoTwo). apply add_0_r. exact CB. }
  split.
  - intros P (Q & k & HQ & ->). apply ON; [apply (sub_on _ _ _ S); exact HQ|apply ZON; exact CB].
  - exists Infinity, 0. split; [exact (sub_0 _ _ _ S)|reflexivity].
  - intros P P' (Q & k & HQ & ->) (Q' & k' & HQ' & ->). exists (ADD Q Q'), (k + k'). split; [apply (sub_add _ _ _ S); assumption|].
    rewrite ZADD by exact CB. apply add_shuffle; try (apply (sub_on _ _ _ S); assumption); apply ZON; exact CB.
  - intros P (Q & k & HQ & ->). exists (point_neg Q), (- k). split; [apply (sub_neg _ _ _ S); exact HQ|].
    rewrite ZOPP by exact CB. apply (pt_neg_add (b:=b) H2 NoTwo); [apply (sub_on _ _ _ S); exact HQ|apply ZON; exact CB].
  - intros P (Q & k & HQ & ->). pose proof (sub_on _ _ _ S _ HQ) as CQ. rewrite ZADDR by (exact CQ || apply ZON; exact CB).
    replace (point_zmul e' Q) with (Infinity : point K).
    + rewrite point_add_0_l. rewrite <- ZMUL by exact CB. replace (e' * k) with (e2 * k * q) by (rewrite ED'; ring).
      rewrite ZMUL by exact CB. rewrite OB. apply (pt_zmul_inf (b:=b) H2 NoTwo).
    + rewrite EC, ZMUL by exact CQ. rewrite (sub_kill _ _ _ S _ HQ). symmetry. apply (pt_zmul_inf (b:=b) H2 NoTwo).
  - nia.
  - destruct (sub_enum _ _ _ S) as (f & F & J & T). exists (fun i => ADD (f (i / q)) (point_zmul (i mod q) B)). split; [|split].
    + intros i I. exists (f (i / q)), (i mod q). split; [|reflexivity]. apply F.
      split; [apply Z.div_pos; lia|apply Z.div_lt_upper_bound; lia].
    + intros i j I I' E.
      assert (RI : 0 <= i / q < n) by (split; [apply Z.div_pos; lia|apply Z.div_lt_upper_bound; lia]).
      assert (RJ : 0 <= j / q < n) by (split; [apply Z.div_pos; lia|apply Z.div_lt_upper_bound; lia]).
      pose proof (F _ RI) as HI. pose proof (F _ RJ) as HJ.
      pose proof (sub_on _ _ _ S _ HI) as CI. pose proof (sub_on _ _ _ S _ HJ) as CJ.
      pose proof (ZON (i mod q) _ CB) as X2. pose proof (ZON (j mod q) _ CB) as X4.
      pose proof (sub_of_eq _ _ _ _ CI X2 CJ X4 E) as E'. rewrite <- zmul_sub' in E' by exact CB.
      pose proof (Z.mod_pos_bound i q). pose proof (Z.mod_pos_bound j q).
      assert (EM : i mod q = j mod q).
      { apply (mod_range_eq q); [lia|lia|]. eapply UN; [|exact E'].
        apply (sub_add _ _ _ S); [exact HJ|apply (sub_neg _ _ _ S); exact HI]. }
      assert (ED : i / q = j / q).
      { apply J; [exact RI|exact RJ|]. rewrite EM in E. rewrite (C (f (i / q))), (C (f (j / q))) in E by assumption.
        eapply (pt_cancel (b:=b) H2 NoTwo); [exact X4|exact CI|exact CJ|exact E]. }
      rewrite (Z.div_mod i q), (Z.div_mod j q) by lia. rewrite EM, ED. reflexivity.
    + intros P (Q & k & HQ & ->). destruct (T Q HQ) as (j & RJ & <-). pose proof (Z.mod_pos_bound k q) as MB.
      exists (j * q + k mod q). split; [nia|].
      replace ((j * q + k mod q) / q) with j by (rewrite Z.div_add_l, (Z.div_small (k mod q)) by lia; ring).
      rewrite Z.add_comm, Z.mod_add, Z.mod_mod by lia. f_equal. apply (pt_zmul_mod (b:=b) H2 NoTwo); [exact CB|lia|exact OB].
Qed.
Lemma sub_dec H n e P : sub H n e -> H P \/ ~ H P.
Proof.
  intros S. destruct (sub_enum _ _ _ S) as (f & F & J & T).
  destruct (bounded_dec (fun i => f (Z.of_nat i) = P) (fun i => point_dec _ _) (Z.to_nat n)) as [(i & I & E)|E].
  - left. rewrite <- E. apply F. lia.
  - right. intros HP. destruct (T P HP) as (i & I & EI). apply (E (Z.to_nat i)); [lia|]. rewrite Z2Nat.id by lia. exact EI.
Qed.
(** a point killed by a number prime to the exponent is outside *)
Lemma both_orders e q P : on_curve b P -> rel_prime e q -> point_zmul e P = Infinity -> point_zmul q P = Infinity -> P = Infinity.
Proof.
  intros CP RP OE OQ. destruct (rel_prime_bezout _ _ RP) as [u v E].
  rewrite <- (ONE P CP). rewrite <- E. rewrite ZADD, !ZMUL by exact CP. rewrite OE, OQ, !(pt_zmul_inf (b:=b) H2 NoTwo). reflexivity.
Qed.
Lemma outside H n e q B : sub H n e -> rel_prime e q -> on_curve b B -> point_zmul q B = Infinity -> B <> Infinity -> ~ H B.
Proof.
  intros S RP CB OB NB HB. apply NB. apply (both_orders e q); [exact CB|exact RP|exact (sub_kill _ _ _ S _ HB)|exact OB].
Qed.
(** a second point of the order of the first, outside its multiples *)
Lemma outside2 H n e q B B' : sub H n e -> rel_prime e q -> on_curve b B -> on_curve b B' ->
  point_zmul q B = Infinity -> point_zmul q B' = Infinity -> (forall k, B' <> point_zmul k B) -> ~ plus H B B'.
Proof.
  intros S RP CB CB' OB OB' NB (Q & k & HQ & E). apply (NB k). pose proof (sub_on _ _ _ S _ HQ) as CQ.
  pose proof (ZON k _ CB) as CK.
  assert (Q0 : Q = Infinity).
  { apply (both_orders e q); [exact CQ|exact RP|exact (sub_kill _ _ _ S _ HQ)|].
    apply (f_equal (point_zmul q)) in E. rewrite OB', ZADDR in E by assumption.
    rewrite <- (ZMUL q k) in E by exact CB. rewrite Z.mul_comm, ZMUL, OB, (pt_zmul_inf (b:=b) H2 NoTwo) in E by exact CB.
    rewrite add_0_r in E by (apply ZON; exact CQ). symmetry. exact E. }
  rewrite E, Q0. apply point_add_0_l.
Qed.
(** the union of a subgroup and of a translate of it *)
Lemma two_cosets H n e P : sub H n e -> on_curve b P -> ~ H P ->
  exists f : Z -> point K, (forall i, 0 <= i < 2 * n -> on_curve b (f i)) /\
    (forall i j, 0 <= i < 2 * n -> 0 <= j < 2 * n -> f i = f j -> i = j).
Proof.
  intros S CP NP. destruct (sub_enum _ _ _ S) as (f & F & J & _).
  assert (FC : forall i, 0 <= i < n -> on_curve b (f i)) by (intros i I; apply (sub_on _ _ _ S), F, I).
  assert (X : forall i j, 0 <= i < n -> 0 <= j < n -> f i <> ADD P (f j)).
  { intros i j I I' E. apply NP. replace P with (ADD (f i) (point_neg (f j))); [apply (sub_add _ _ _ S), (sub_neg _ _ _ S); apply F; assumption|].
    rewrite E. rewrite <- A by (auto || apply NON; auto). rewrite point_add_neg_r. apply add_0_r. exact CP. }
  exists (fun i => if i <? n then f i else ADD P (f (i - n))). split.
  - intros i I. cbn beta. destruct (Z.ltb_spec i n); [apply FC; lia|]. apply ON; [exact CP|apply FC; lia].
  - intros i j I I' E. cbn beta in E. destruct (Z.ltb_spec i n) as [L|L], (Z.ltb_spec j n) as [L'|L'].
    + apply J; [lia|lia|exact E].
    + exfalso. apply (X i (j - n)); [lia|lia|exact E].
    + exfalso. apply (X j (i - n)); [lia|lia|symmetry; exact E].
    + enough (i - n = j - n) by lia. apply J; [lia|lia|].
      apply (pt_cancel (b:=b) H2 NoTwo P); [exact CP|apply FC; lia|apply FC; lia|exact E].
Qed.
End Sub.

(** ** cube roots of one modulo a prime *)
Lemma no_cube_root q k : prime q -> q mod 3 = 2 -> 3 < q -> ~ (q | k * k + k + 1).
Proof.
  intros PR M BIG (c & E).
  assert (NK : ~ (q | k)).
  { intros (d & D). assert (X : (q | 1)) by (exists (c - d * k - d); lia).
    apply Z.divide_pos_le in X; lia. }
  pose proof (fermat q k PR NK) as F.
  assert (C3 : k ^ 3 mod q = 1).
  { replace (k ^ 3) with (1 + (k - 1) * c * q) by (transitivity (1 + (k - 1) * (k * k + k + 1)); [rewrite E; ring|ring]).
    rewrite Z.mod_add by lia. apply Z.mod_1_l. lia. }
  assert (Q : q - 1 = 3 * (q / 3) + 1) by (pose proof (Z.div_mod q 3); lia).
  rewrite Q, Z.pow_add_r, Z.pow_1_r, Z.pow_mul_r in F by (try apply Z.mul_nonneg_nonneg; try apply Z.div_pos; lia).
  assert (P3 : (k ^ 3) ^ (q / 3) mod q = 1).
  { assert (N : 0 <= q / 3) by (apply Z.div_pos; lia). revert N. generalize (q / 3). apply natlike_ind; [apply Z.mod_1_l; lia|].
    intros x X IH. rewrite Z.pow_succ_r by exact X. rewrite Z.mul_mod, C3, IH by lia. apply Z.mod_1_l. lia. }
  rewrite Z.mul_mod, P3, Z.mul_1_l, Z.mod_mod in F by lia.
  assert (D : (q | k - 1)).
  { apply Z.mod_divide; [lia|]. rewrite Zminus_mod, F, (Z.mod_1_l q) by lia. reflexivity. }
  destruct D as (d & D). assert (X : (q | 3)) by (exists (c - d * (k + 2)); transitivity (k * k + k + 1 - (k - 1) * (k + 2)); [ring|rewrite E, D; ring]).
  apply Z.divide_pos_le in X; lia.
Qed.
Lemma cube_root_pair q l k : prime q -> (q | l * l + l + 1) -> (q | k * k + k + 1) -> (q | k - l) \/ (q | k - (- 1 - l)).
Proof.
  intros PR (a & EA) (c & EC). apply prime_mult; [exact PR|]. exists (c - a). lia.
Qed.

(** ** a curve over a field of at most N elements has at most 2 N + 1 points *)
Section Count.
Context {K : fld} {b : K}.
Context (c : K -> Z) (N : Z).
Hypothesis c_range : forall x, 0 <= c x < N.
Hypothesis c_inj : forall x y, c x = c y -> x = y.
Definition pcode (P : point K) : Z :=
  match P with Infinity => 2 * N | Affine x y => 2 * c x + (if c y <=? c (fneg y) then 1 else 0) end.
Lemma pcode_range P : 0 <= pcode P < 2 * N + 1.
Proof.
  destruct P as [|x y]; cbn [pcode].
  - pose proof (c_range f0). lia.
  - pose proof (c_range x). destruct (c y <=? c (fneg y)); lia.
Qed.
Lemma fneg_neg (y : K) : fneg (fneg y) = y.
Proof. pose proof (pt_neg_neg (Affine (f0 : K) y)) as E. cbn [point_neg] in E. injection E. auto. Qed.
Lemma pcode_inj P Q : on_curve b P -> on_curve b Q -> pcode P = pcode Q -> P = Q.
Proof.
  destruct P as [|x y], Q as [|x' y']; intros CP CQ E; cbn [pcode] in E.
  - reflexivity.
  - exfalso. pose proof (c_range x'). destruct (c y' <=? c (fneg y')); lia.
  - exfalso. pose proof (c_range x). destruct (c y <=? c (fneg y)); lia.
  - assert (EX : c x = c x') by (destruct (c y <=? c (fneg y)), (c y' <=? c (fneg y')); lia).
    apply c_inj in EX. subst x'. f_equal. cbn [on_curve] in CP, CQ.
    destruct (same_square x y y' _ CP CQ) as [A|A]; [exact A|].
    rewrite A, fneg_neg in E. rewrite A. apply c_inj.
    destruct (Z.leb_spec (c y) (c (fneg y))), (Z.leb_spec (c (fneg y)) (c y)); lia.
Qed.
Theorem count_bound (f : Z -> point K) n : 0 <= n ->
  (forall i, 0 <= i < n -> on_curve b (f i)) ->
  (forall i j, 0 <= i < n -> 0 <= j < n -> f i = f j -> i = j) -> n <= 2 * N + 1.
Proof.
  intros N0 C J. pose proof (c_range f0). apply (inj_bound n (2 * N + 1) (fun i => pcode (f i))).
  - exact N0.
  - lia.
  - intros. apply pcode_range.
  - intros i j I I' E. apply J; [exact I|exact I'|]. apply pcode_inj; [apply C; exact I|apply C; exact I'|exact E].
Qed.
End Count.

(** ** a map that kills a complement of the multiples of a point of prime order *)
Section Fibre.
Context {K : fld} {b : K}.
Hypothesis H2 : fadd f1 f1 <> (f0 : K).
Hypothesis NoTwo : forall x : K, fadd (fmul (fmul x x) x) b <> f0.
Let ZADD := pt_zmul_add (b:=b) H2 NoTwo.
Let ZADDR := pt_zmul_add_r (b:=b) H2 NoTwo.
Let ZMUL := pt_zmul_mul (b:=b) H2 NoTwo.
Let ZON := zmul_on_curve (b:=b) H2 NoTwo.
Let ON := point_add_on_curve b H2 NoTwo.
Let C := point_add_comm b H2 NoTwo.
Variable f : point K -> point K.
Hypothesis f_add : forall P Q, on_curve b P -> on_curve b Q -> f (point_add P Q) = point_add (f P) (f Q).
Hypothesis f_zmul : forall n P, on_curve b P -> f (point_zmul n P) = point_zmul n (f P).
Lemma kills_plus (H : point K -> Prop) B : (forall P, H P -> on_curve b P) -> on_curve b B ->
  (forall P, H P -> f P = Infinity) -> f B = Infinity -> forall P, plus H B P -> f P = Infinity.
Proof.
  intros CH CB KH KB P (Q & k & HQ & ->). rewrite f_add by (auto || apply ZON; exact CB). rewrite KH by exact HQ.
  rewrite f_zmul by exact CB. rewrite KB. rewrite (pt_zmul_inf (b:=b) H2 NoTwo). reflexivity.
Qed.
Context (H : point K -> Prop) (n e q c : Z) (G : point K).
Hypothesis SH : sub (b:=b) H n e.
Hypothesis KH : forall P, H P -> f P = Infinity.
Hypothesis CG : on_curve b G.
Hypothesis NG : G <> Infinity.
Hypothesis PR : prime q.
Hypothesis OG : point_zmul q G = Infinity.
Hypothesis FG : f G = point_zmul c G.
Hypothesis UC : c mod q <> 0.
Hypothesis RP : rel_prime e q.
Hypothesis ALL : forall P, on_curve b P -> plus H G P.
Lemma f_plus Q k : H Q -> f (point_add Q (point_zmul k G)) = point_zmul (k * c) G.
Proof.
  intros HQ. rewrite f_add by (exact (sub_on _ _ _ SH _ HQ) || apply ZON; exact CG). rewrite KH by exact HQ.
  rewrite point_add_0_l, f_zmul by exact CG. rewrite FG. symmetry. apply ZMUL. exact CG.
Qed.
Lemma fibre_image P : on_curve b P -> exists k, f P = point_zmul k G.
Proof. intros CP. destruct (ALL P CP) as (Q & k & HQ & ->). exists (k * c). apply f_plus. exact HQ. Qed.
Lemma fibre_torsion P : on_curve b P -> point_zmul q P = Infinity -> exists k, P = point_zmul k G.
Proof.
  intros CP OP. destruct (ALL P CP) as (Q & k & HQ & ->). exists k. pose proof (sub_on _ _ _ SH _ HQ) as CQ.
  replace Q with (Infinity : point K); [reflexivity|]. symmetry.
  apply (both_orders H2 NoTwo e q); [exact CQ|exact RP|exact (sub_kill _ _ _ SH _ HQ)|].
  rewrite ZADDR in OP by (exact CQ || apply ZON; exact CG). rewrite <- (ZMUL q k) in OP by exact CG.
  rewrite Z.mul_comm, ZMUL, OG, (pt_zmul_inf (b:=b) H2 NoTwo) in OP by exact CG.
  rewrite (add_0_r (b:=b) H2 NoTwo) in OP by (apply ZON; exact CQ). exact OP.
Qed.
Lemma multiples_mod k l : (q | k - l) -> point_zmul k G = point_zmul l G.
Proof.
  intros (d & D). replace k with (l + d * q) by lia. rewrite ZADD, ZMUL by exact CG.
  rewrite OG, (pt_zmul_inf (b:=b) H2 NoTwo). apply (add_0_r (b:=b) H2 NoTwo). apply ZON, CG.
Qed.
Lemma multiples_inj k l : point_zmul k G = point_zmul l G -> (q | k - l).
Proof.
  intros E. pose proof (prime_ge_2 _ PR). apply Z.mod_divide; [lia|].
  apply (pt_zmul_prime_order (b:=b) H2 NoTwo q _ G CG PR OG); [|exact NG].
  rewrite (zmul_sub' (b:=b) H2 NoTwo) by exact CG. rewrite E. apply point_add_neg_r.
Qed.
Theorem fibre_count Q : on_curve b Q -> point_zmul q Q = Infinity ->
  exists g : Z -> point K, (forall i, 0 <= i < n -> on_curve b (g i) /\ f (g i) = Q) /\
    (forall i j, 0 <= i < n -> 0 <= j < n -> g i = g j -> i = j) /\
    (forall P, on_curve b P -> f P = Q -> exists i, 0 <= i < n /\ g i = P).
Proof.
  intros CQ OQ. destruct (fibre_torsion Q CQ OQ) as (m & ->). destruct (unit_mod q _ PR UC) as (u & k & U).
  assert (CU : forall x, (q | x - m * u * c) -> point_zmul x G = point_zmul m G).
  { intros x (d & D). apply multiples_mod. exists (d + m * k).
    replace (x - m) with (x - m * u * c + m * (u * c - 1)) by ring. rewrite D, U. ring. }
  destruct (sub_enum _ _ _ SH) as (h & HH & HJ & HT).
  assert (CM : on_curve b (point_zmul (m * u) G)) by (apply ZON, CG).
  assert (CHI : forall i, 0 <= i < n -> on_curve b (h i)) by (intros i I; exact (sub_on _ _ _ SH _ (HH i I))).
  exists (fun i => point_add (h i) (point_zmul (m * u) G)). split; [|split].
  - intros i I. split; [apply ON; auto|]. rewrite f_plus by auto. apply CU. rewrite Z.sub_diag. apply Z.divide_0_r.
  - intros i j I J E. apply HJ; [exact I|exact J|]. apply (pt_cancel (b:=b) H2 NoTwo (point_zmul (m * u) G)); auto.
    rewrite (C (point_zmul (m * u) G)), (C (point_zmul (m * u) G)) by auto. exact E.
  - intros P CP E. destruct (ALL P CP) as (A & l & HA & ->). rewrite f_plus in E by exact HA.
    apply multiples_inj in E. destruct (HT A HA) as (i & I & <-). exists i. split; [exact I|]. apply f_equal. apply multiples_mod.
    destruct E as (d & D). exists (l * k - d * u).
    replace m with (l * c - d * q) by lia.
    transitivity (l * (u * c) - u * d * q - l); [ring|]. rewrite U. ring.
Qed.
End Fibre.
