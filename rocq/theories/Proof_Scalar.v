(** * Proof_Scalar: limb arithmetic refines arithmetic modulo r *)
From Coq Require Import ZArith Lia List Bool Znumtheory.
From Verif Require Import Base Fermat Tables Zr Model_Scalar.
Import ListNotations.
Local Open Scope Z_scope.

Definition u64 (x : Z) : Prop := 0 <= x < W.
Definition wf (a : scalar) : Prop :=
  let '(Scalar a0 a1 a2 a3) := a in u64 a0 /\ u64 a1 /\ u64 a2 /\ u64 a3.
Definition sval (a : scalar) : Z :=
  let '(Scalar a0 a1 a2 a3) := a in a0 + W * (a1 + W * (a2 + W * a3)).

Lemma W_val : W = 18446744073709551616. Proof. reflexivity. Qed.
Lemma u64_0 : u64 0. Proof. unfold u64, W. lia. Qed.
Lemma u64_q0 : u64 q0. Proof. unfold u64, W, q0. lia. Qed.
Lemma u64_q1 : u64 q1. Proof. unfold u64, W, q1. lia. Qed.
Lemma u64_q2 : u64 q2. Proof. unfold u64, W, q2. lia. Qed.
Lemma u64_q3 : u64 q3. Proof. unfold u64, W, q3. lia. Qed.
Global Hint Resolve u64_0 u64_q0 u64_q1 u64_q2 u64_q3 : u64.

Lemma sval_MODULUS : sval MODULUS = r. Proof. reflexivity. Qed.
Lemma wf_MODULUS : wf MODULUS.
Proof. repeat split; discriminate || reflexivity. Qed.
Lemma r_lt_W4 : 2 * r < W ^ 4. Proof. reflexivity. Qed.

Lemma as_u64_mod x : as_u64 x = x mod W.
Proof. unfold as_u64. change 0xffffffffffffffff with (Z.ones 64). now rewrite Z.land_ones by lia. Qed.
Lemma as_u128_mod x : as_u128 x = x mod 2 ^ 128.
Proof. unfold as_u128. change 0xffffffffffffffffffffffffffffffff with (Z.ones 128). now rewrite Z.land_ones by lia. Qed.
Lemma shr_div a n : 0 <= n -> shr a n = a / 2 ^ n.
Proof. intros. unfold shr. now apply Z.shiftr_div_pow2. Qed.
Lemma shr64_div a : shr a 64 = a / W.
Proof. now rewrite shr_div by lia. Qed.
Lemma shl_mod a n : 0 <= n -> shl a n = (a * 2 ^ n) mod W.
Proof. intros. unfold shl. rewrite as_u64_mod. now rewrite Z.shiftl_mul_pow2. Qed.
Lemma wrapping_mul_mod a b : wrapping_mul a b = (a * b) mod W.
Proof. apply as_u64_mod. Qed.

Lemma split_word x : 0 <= x < W * W -> u64 (x mod W) /\ u64 ((x / W) mod W) /\ x mod W + W * ((x / W) mod W) = x.
Proof.
  intros H. assert (0 < W) by reflexivity.
  assert (B := Z.mod_pos_bound x W ltac:(assumption)).
  assert (Q : 0 <= x / W < W).
  { split; [apply Z.div_pos; lia|]. apply Z.div_lt_upper_bound; lia. }
  rewrite (Z.mod_small (x / W)) by exact Q.
  split; [exact B|]. split; [exact Q|].
  rewrite (Z.div_mod x W) at 3 by lia. lia.
Qed.

(** the u128 intermediates of [adc] and [mac] do not overflow *)
Lemma adc_no_overflow a b c : u64 a -> u64 b -> u64 c -> 0 <= a + b + c < 2 ^ 128.
Proof. unfold u64. change (2 ^ 128) with (W * W). rewrite W_val. lia. Qed.
Lemma mac_no_overflow a b c d : u64 a -> u64 b -> u64 c -> u64 d -> 0 <= a + b * c + d < 2 ^ 128.
Proof.
  unfold u64. change (2 ^ 128) with (W * W). intros A B C D.
  assert (0 <= b * c <= (W - 1) * (W - 1)) by nia. nia.
Qed.

Lemma adc_spec a b c lo hi : adc a b c = (lo, hi) -> u64 a -> u64 b -> u64 c ->
  u64 lo /\ u64 hi /\ lo = a + b + c - W * hi.
Proof.
  intros E A B C. unfold adc in E. cbv zeta in E. rewrite shr64_div, !as_u64_mod in E. apply pair_equal_spec in E as [<- <-].
  assert (H := adc_no_overflow a b c A B C). change (2 ^ 128) with (W * W) in H.
  destruct (split_word _ H) as (X & Y & Z). repeat split; try apply X; try apply Y. lia.
Qed.

Lemma mac_spec a b c d lo hi : mac a b c d = (lo, hi) -> u64 a -> u64 b -> u64 c -> u64 d ->
  u64 lo /\ u64 hi /\ lo = a + b * c + d - W * hi.
Proof.
  intros E A B C D. unfold mac in E. cbv zeta in E. rewrite shr64_div, !as_u64_mod in E. apply pair_equal_spec in E as [<- <-].
  assert (H := mac_no_overflow a b c d A B C D). change (2 ^ 128) with (W * W) in H.
  destruct (split_word _ H) as (X & Y & Z). repeat split; try apply X; try apply Y. lia.
Qed.

(** a borrow word is 0 or all ones; [bbit] is the borrow it stands for *)
Definition bword (x : Z) : Prop := x = 0 \/ x = W - 1.
Definition bbit (x : Z) : Z := if x =? 0 then 0 else 1.
Lemma bword_shr x : bword x -> shr x 63 = bbit x.
Proof. intros [-> | ->]; reflexivity. Qed.
Lemma bword_0 : bword 0. Proof. now left. Qed.
Global Hint Resolve bword_0 : u64.

Lemma sbb_spec a b w lo w' : sbb a b w = (lo, w') -> u64 a -> u64 b -> bword w ->
  u64 lo /\ bword w' /\ lo = a - b - bbit w + W * bbit w'.
Proof.
  intros E A B C. unfold sbb in E. rewrite (bword_shr _ C) in E. cbv zeta in E. rewrite shr64_div, !as_u64_mod, as_u128_mod in E. apply pair_equal_spec in E as [<- <-].
  change (2 ^ 128) with (W * W).
  assert (Hb : 0 <= bbit w <= 1) by (unfold bbit; destruct (w =? 0); lia).
  unfold u64 in *. assert (HW := W_val).
  destruct (Z_lt_ge_dec (a - (b + bbit w)) 0) as [L|L].
  - assert (E : (a - (b + bbit w)) mod (W * W) = a - (b + bbit w) + W * W).
    { symmetry. apply (Z.mod_unique _ _ (-1)); [left; lia|ring]. }
    rewrite E. set (x := a - (b + bbit w)) in *.
    assert (Q : (x + W * W) / W = W - 1).
    { symmetry. apply (Z.div_unique _ _ _ (x + W)); [left; lia|ring]. }
    assert (M : (x + W * W) mod W = x + W).
    { symmetry. apply (Z.mod_unique _ _ (W - 1)); [left; lia|ring]. }
    rewrite Q, M. rewrite Z.mod_small by lia. split; [lia|]. split; [now right|].
    change (bbit (W - 1)) with 1. unfold x. ring.
  - rewrite (Z.mod_small _ (W * W)) by nia.
    rewrite Z.mod_small by lia.
    rewrite Z.div_small by lia. split; [lia|]. split; [now left|].
    change (bbit (0 mod W)) with 0. ring.
Qed.

Lemma land_bword m w : u64 m -> bword w -> Z.land m w = m * bbit w.
Proof.
  intros M [-> | ->].
  - rewrite Z.land_0_r. cbn. ring.
  - change (W - 1) with (Z.ones 64) at 1. rewrite Z.land_ones by lia.
    rewrite Z.mod_small by exact M. change (bbit (W - 1)) with 1. ring.
Qed.
Lemma u64_land m w : u64 m -> bword w -> u64 (Z.land m w).
Proof.
  intros M Hw. rewrite (land_bword _ _ M Hw). unfold bbit. destruct (w =? 0); [rewrite Z.mul_0_r; apply u64_0|now rewrite Z.mul_1_r].
Qed.
Global Hint Resolve u64_land : u64.
Lemma bbit_01 w : bbit w = 0 \/ bbit w = 1.
Proof. unfold bbit. destruct (w =? 0); auto. Qed.

Ltac limb_step :=
  let lo := fresh "lo" in let hi := fresh "hi" in let E := fresh "E" in let Ulo := fresh "U" in let Uhi := fresh "U" in
  match goal with
  | |- context [let '(_, _) := ?e in _] =>
    lazymatch e with
    | mac ?a ?b ?c ?d => destruct (mac a b c d) as [lo hi] eqn:E; apply mac_spec in E; [destruct E as (Ulo & Uhi & E)|auto with u64..]
    | adc ?a ?b ?c => destruct (adc a b c) as [lo hi] eqn:E; apply adc_spec in E; [destruct E as (Ulo & Uhi & E)|auto with u64..]
    | sbb ?a ?b ?c => destruct (sbb a b c) as [lo hi] eqn:E; apply sbb_spec in E; [destruct E as (Ulo & Uhi & E)|auto with u64..]
    end
  end.

Lemma sval_range a : wf a -> 0 <= sval a < W ^ 4.
Proof.
  destruct a as [a0 a1 a2 a3]. unfold wf, u64, sval. intros (A & B & C & D).
  change (W ^ 4) with (W * (W * (W * W))). rewrite W_val in *. lia.
Qed.

(** *** subtraction *)
Lemma sub_spec a b : wf a -> wf b ->
  wf (sub a b) /\
  (sval b <= sval a -> sval (sub a b) = sval a - sval b) /\
  (sval a < sval b -> sval b - sval a <= r -> sval (sub a b) = sval a - sval b + r).
Proof.
  destruct a as [a0 a1 a2 a3], b as [b0 b1 b2 b3]. intros (A0 & A1 & A2 & A3) (B0 & B1 & B2 & B3).
  assert (Ra := sval_range (Scalar a0 a1 a2 a3) ltac:(repeat split; apply A0 || apply A1 || apply A2 || apply A3)).
  assert (Rb := sval_range (Scalar b0 b1 b2 b3) ltac:(repeat split; apply B0 || apply B1 || apply B2 || apply B3)).
  unfold sub.
  do 8 limb_step.
  assert (D : lo + W * (lo0 + W * (lo1 + W * lo2)) = sval (Scalar a0 a1 a2 a3) - sval (Scalar b0 b1 b2 b3) + W ^ 4 * bbit hi2).
  { unfold sval. rewrite E, E0, E1, E2. change (bbit 0) with 0. ring. }
  rewrite (land_bword q0), (land_bword q1), (land_bword q2), (land_bword q3) in * by auto with u64.
  assert (F : sval (Scalar lo3 lo4 lo5 lo6) = lo + W * (lo0 + W * (lo1 + W * lo2)) + r * bbit hi2 - W ^ 4 * hi6).
  { unfold sval. rewrite E3, E4, E5, E6. replace r with (q0 + W * (q1 + W * (q2 + W * q3))) by reflexivity. ring. }
  assert (WF : wf (Scalar lo3 lo4 lo5 lo6)) by (repeat split; apply U7 || apply U9 || apply U11 || apply U13 || idtac).
  assert (Rf := sval_range _ WF).
  assert (Rd := sval_range (Scalar lo lo0 lo1 lo2) ltac:(repeat split; apply U || apply U1 || apply U3 || apply U5)).
  split; [exact WF|].
  clear - D F Rf Rd Ra Rb U14.
  cbn [sval] in Rd. rewrite D in Rd, F. clear D.
  set (x := sval (Scalar lo3 lo4 lo5 lo6)) in *.
  set (a := sval (Scalar a0 a1 a2 a3)) in *. set (b := sval (Scalar b0 b1 b2 b3)) in *.
  assert (Hr := r_lt_W4). assert (r_pos := r_pos). unfold u64 in U14. change (W ^ 4) with (2 ^ 256) in *.
  set (w4 := 2 ^ 256) in *. set (rr := r) in *. clearbody w4 rr x a b. 
  assert (C : hi6 = 0 \/ hi6 = 1 \/ 2 <= hi6) by lia.
  destruct C as [-> | [-> | C]]; [| |assert (2 * w4 <= w4 * hi6) by nia];
    destruct (bbit_01 hi2) as [X|X]; rewrite X in *; split; intros; lia.
Qed.

(** *** canonical values *)
Definition canonical (a : scalar) : Prop := wf a /\ sval a < r.

Lemma mod_add_once x m : 0 < m -> m <= x < 2 * m -> x mod m = x - m.
Proof. intros H1 H2. symmetry. apply (Z.mod_unique _ _ 1); [left; lia|ring]. Qed.
Lemma mod_sub_once x m : 0 < m -> - m <= x < 0 -> x mod m = x + m.
Proof. intros H1 H2. symmetry. apply (Z.mod_unique _ _ (-1)); [left; lia|ring]. Qed.

(** a value below 2r is brought into range by one subtraction *)
Lemma sub_MODULUS_spec a : wf a -> sval a < 2 * r -> canonical (sub a MODULUS) /\ sval (sub a MODULUS) = sval a mod r.
Proof.
  intros A L. destruct (sub_spec a MODULUS A wf_MODULUS) as (Wf & G & S). rewrite sval_MODULUS in *.
  assert (P := r_pos). assert (Ra := sval_range a A).
  destruct (Z_lt_ge_dec (sval a) r) as [H|H].
  - rewrite (Z.mod_small (sval a)) by lia. unfold canonical. rewrite S by lia. split; [split; [exact Wf|lia]|lia].
  - rewrite mod_add_once by lia. unfold canonical. rewrite G by lia. split; [split; [exact Wf|lia]|lia].
Qed.

Lemma sub_canonical a b : canonical a -> canonical b ->
  canonical (sub a b) /\ sval (sub a b) = (sval a - sval b) mod r.
Proof.
  intros [A LA] [B LB]. destruct (sub_spec a b A B) as (Wf & G & S).
  assert (P := r_pos). assert (Ra := sval_range a A). assert (Rb := sval_range b B).
  destruct (Z_lt_ge_dec (sval a) (sval b)) as [H|H].
  - rewrite mod_sub_once by lia. unfold canonical. rewrite S by lia. split; [split; [exact Wf|lia]|lia].
  - rewrite Z.mod_small by lia. unfold canonical. rewrite G by lia. split; [split; [exact Wf|lia]|lia].
Qed.

Lemma add_spec a b : wf a -> wf b -> sval a + sval b < 2 * r ->
  canonical (add a b) /\ sval (add a b) = (sval a + sval b) mod r.
Proof.
  intros A B L. destruct a as [a0 a1 a2 a3], b as [b0 b1 b2 b3].
  assert (Ra := sval_range _ A). assert (Rb := sval_range _ B).
  destruct A as (A0 & A1 & A2 & A3), B as (B0 & B1 & B2 & B3).
  unfold add. do 4 limb_step.
  assert (F : sval (Scalar lo lo0 lo1 lo2) = sval (Scalar a0 a1 a2 a3) + sval (Scalar b0 b1 b2 b3) - W ^ 4 * hi2).
  { unfold sval. rewrite E, E0, E1, E2. ring. }
  assert (WF : wf (Scalar lo lo0 lo1 lo2)) by (repeat split; apply U || apply U1 || apply U3 || apply U5).
  assert (Rf := sval_range _ WF).
  assert (Hi : hi2 = 0).
  { assert (Hr := r_lt_W4). unfold u64 in U6. change (W ^ 4) with (2 ^ 256) in *. nia. }
  rewrite Hi, Z.mul_0_r, Z.sub_0_r in F. rewrite <- F in L |- *.
  apply sub_MODULUS_spec; assumption.
Qed.

Lemma add_canonical a b : canonical a -> canonical b ->
  canonical (add a b) /\ sval (add a b) = (sval a + sval b) mod r.
Proof. intros [A LA] [B LB]. apply add_spec; auto. lia. Qed.

(** *** Montgomery reduction *)
Lemma INV_spec x : u64 x -> (x + wrapping_mul x INV * q0) mod W = 0.
Proof.
  intros _. rewrite wrapping_mul_mod.
  rewrite Z.add_mod, Z.mul_mod_idemp_l, <- Z.add_mod by discriminate.
  replace (x + x * INV * q0) with (x * (INV * q0 + 1)) by ring.
  rewrite Z.mul_mod by discriminate. change ((INV * q0 + 1) mod W) with 0. rewrite Z.mul_0_r. reflexivity.
Qed.
Lemma u64_wrapping_mul a b : u64 (wrapping_mul a b).
Proof. rewrite wrapping_mul_mod. apply Z.mod_pos_bound. reflexivity. Qed.
Global Hint Resolve u64_wrapping_mul : u64.
Lemma mac_low_zero x lo hi : u64 x -> u64 lo -> lo = x + wrapping_mul x INV * q0 + 0 - W * hi -> lo = 0.
Proof.
  intros X L E. rewrite <- (Z.mod_small lo W) by exact L. rewrite E.
  replace (x + wrapping_mul x INV * q0 + 0 - W * hi) with (x + wrapping_mul x INV * q0 + (- hi) * W) by ring.
  rewrite Z_mod_plus_full. apply INV_spec, X.
Qed.

Lemma montgomery_reduce_spec r0 r1 r2 r3 r4 r5 r6 r7 :
  u64 r0 -> u64 r1 -> u64 r2 -> u64 r3 -> u64 r4 -> u64 r5 -> u64 r6 -> u64 r7 ->
  let t := r0 + W * (r1 + W * (r2 + W * (r3 + W * (r4 + W * (r5 + W * (r6 + W * r7)))))) in
  t < r * W ^ 4 ->
  canonical (montgomery_reduce r0 r1 r2 r3 r4 r5 r6 r7) /\
  (sval (montgomery_reduce r0 r1 r2 r3 r4 r5 r6 r7) * W ^ 4) mod r = t mod r.
Proof.
  intros H0 H1 H2 H3 H4 H5 H6 H7 t Ht.
  unfold montgomery_reduce.
  set (k0 := wrapping_mul r0 INV). assert (K0 : u64 k0) by apply u64_wrapping_mul.
  do 5 limb_step. assert (Z0 : lo = 0) by (apply (mac_low_zero r0 _ hi); auto).
  set (k1 := wrapping_mul lo0 INV). assert (K1 : u64 k1) by apply u64_wrapping_mul.
  do 5 limb_step. assert (Z1 : lo4 = 0) by (apply (mac_low_zero lo0 _ hi4); auto).
  set (k2 := wrapping_mul lo5 INV). assert (K2 : u64 k2) by apply u64_wrapping_mul.
  do 5 limb_step. assert (Z2 : lo9 = 0) by (apply (mac_low_zero lo5 _ hi9); auto).
  set (k3 := wrapping_mul lo10 INV). assert (K3 : u64 k3) by apply u64_wrapping_mul.
  do 5 limb_step. assert (Z3 : lo14 = 0) by (apply (mac_low_zero lo10 _ hi14); auto).
  clearbody k0 k1 k2 k3.
  set (kk := k0 + W * (k1 + W * (k2 + W * k3))).
  assert (F : W ^ 4 * (sval (Scalar lo15 lo16 lo17 lo18) + W ^ 4 * hi18) = t + kk * r).
  { replace r with (q0 + W * (q1 + W * (q2 + W * q3))) by reflexivity.
    transitivity (lo + W * (lo4 + W * (lo9 + W * lo14)) + W ^ 4 * (sval (Scalar lo15 lo16 lo17 lo18) + W ^ 4 * hi18)).
    { rewrite Z0, Z1, Z2, Z3. ring. }
    unfold sval, t, kk.
    rewrite E18, E17, E16, E15, E14, E13, E12, E11, E10, E9, E8, E7, E6, E5, E4, E3, E2, E1, E0, E. ring. }
  assert (KK : 0 <= kk < W ^ 4).
  { unfold kk. unfold u64 in K0, K1, K2, K3. clear - K0 K1 K2 K3. change (W ^ 4) with (W * (W * (W * W))). rewrite W_val in *. lia. }
  assert (WF : wf (Scalar lo15 lo16 lo17 lo18)) by (repeat split; apply U31 || apply U33 || apply U35 || apply U37).
  assert (Rf := sval_range _ WF).
  set (u := sval (Scalar lo15 lo16 lo17 lo18)) in *.
  assert (P := r_pos). assert (Hr := r_lt_W4).
  assert (B : u + W ^ 4 * hi18 < 2 * r).
  { apply (Zmult_lt_reg_r _ _ (W ^ 4)); [reflexivity|]. rewrite Z.mul_comm, F.
    apply Z.lt_le_trans with (r * W ^ 4 + W ^ 4 * r); [|apply Z.eq_le_incl; ring].
    apply Z.add_lt_mono; [exact Ht|]. apply Zmult_lt_compat_r; [exact P|apply KK]. }
  assert (Hi : hi18 = 0).
  { unfold u64 in U38. clear - B Rf Hr U38. change (W ^ 4) with (2 ^ 256) in *. nia. }
  rewrite Hi in *. rewrite Z.mul_0_r, Z.add_0_r in *.
  destruct (sub_MODULUS_spec _ WF B) as [C V]. split; [exact C|]. rewrite V.
  fold u. rewrite Z.mul_mod_idemp_l by (apply Z.neq_sym, Z.lt_neq, P).
  rewrite (Z.mul_comm u), F. apply Z_mod_plus_full.
Qed.

Lemma mul_spec a b : wf a -> wf b -> sval a * sval b < r * W ^ 4 ->
  canonical (mul a b) /\ (sval (mul a b) * W ^ 4) mod r = (sval a * sval b) mod r.
Proof.
  destruct a as [a0 a1 a2 a3], b as [b0 b1 b2 b3]. intros (A0 & A1 & A2 & A3) (B0 & B1 & B2 & B3) L.
  unfold mul. do 16 limb_step.
  match goal with |- context [montgomery_reduce ?x0 ?x1 ?x2 ?x3 ?x4 ?x5 ?x6 ?x7] =>
    assert (F : x0 + W * (x1 + W * (x2 + W * (x3 + W * (x4 + W * (x5 + W * (x6 + W * x7))))))
      = sval (Scalar a0 a1 a2 a3) * sval (Scalar b0 b1 b2 b3)) end.
  { unfold sval. rewrite E14, E13, E12, E11, E10, E9, E8, E7, E6, E5, E4, E3, E2, E1, E0, E. ring. }
  rewrite <- F in L |- *. apply montgomery_reduce_spec; assumption.
Qed.

Lemma shr63 x : u64 x -> 0 <= shr x 63 <= 1.
Proof.
  unfold u64. rewrite shr_div by lia. intros [A B]. split; [apply Z.div_pos; lia|].
  apply Z.lt_succ_r. apply Z.div_lt_upper_bound; [lia|]. change (2 ^ 63 * Z.succ 1) with W. exact B.
Qed.
Lemma shl1 x : u64 x -> shl x 1 = 2 * x - W * shr x 63 /\ u64 (shl x 1).
Proof.
  intros H. rewrite shl_mod, shr_div by lia. change (2 ^ 1) with 2. split; [|apply Z.mod_pos_bound; reflexivity].
  rewrite Z.mod_eq by discriminate. change W with (2 ^ 63 * 2) at 2.
  rewrite Z.div_mul_cancel_r by discriminate. ring.
Qed.
Lemma shl_lor x y : u64 x -> u64 y ->
  Z.lor (shl x 1) (shr y 63) = 2 * x - W * shr x 63 + shr y 63 /\ u64 (Z.lor (shl x 1) (shr y 63)).
Proof.
  intros X Y. assert (SY := shr63 y Y). destruct (shl1 x X) as [EX UX].
  assert (EV : exists h, shl x 1 = 2 * h).
  { exists (x - 2 ^ 63 * shr x 63). rewrite EX. unfold W. ring. }
  destruct EV as [h Eh]. rewrite <- EX. rewrite Eh in *.
  assert (E : Z.lor (2 * h) (shr y 63) = 2 * h + shr y 63).
  { assert (C : shr y 63 = 0 \/ shr y 63 = 1) by lia. destruct C as [-> | ->].
    - rewrite Z.lor_0_r. ring.
    - replace (2 * h + 1) with (Z.lor (2 * h) 1); [reflexivity|].
      destruct h as [|h|h]; try reflexivity. destruct h; reflexivity. }
  rewrite E. split; [reflexivity|]. unfold u64 in *. assert (HW : W = 2 * 2 ^ 63) by reflexivity. lia.
Qed.

Lemma square_spec a : wf a -> sval a * sval a < r * W ^ 4 ->
  canonical (square a) /\ (sval (square a) * W ^ 4) mod r = (sval a * sval a) mod r.
Proof.
  destruct a as [a0 a1 a2 a3]. intros (A0 & A1 & A2 & A3) L.
  unfold square. do 6 limb_step.
  destruct (shl1 lo U) as [S1 V1].
  destruct (shl_lor lo0 lo U1 U) as [S2 V2].
  destruct (shl_lor lo2 lo0 U5 U1) as [S3 V3].
  destruct (shl_lor lo3 lo2 U7 U5) as [S4 V4].
  destruct (shl_lor lo4 lo3 U9 U7) as [S5 V5].
  destruct (shl_lor hi4 lo4 U10 U9) as [S6 V6].
  assert (V7 : u64 (shr hi4 63)).
  { assert (X := shr63 hi4 U10). unfold u64. rewrite W_val. lia. }
  do 8 limb_step.
  match goal with |- context [montgomery_reduce ?x0 ?x1 ?x2 ?x3 ?x4 ?x5 ?x6 ?x7] =>
    set (t := x0 + W * (x1 + W * (x2 + W * (x3 + W * (x4 + W * (x5 + W * (x6 + W * x7)))))));
    assert (F : t + W ^ 8 * hi12 = sval (Scalar a0 a1 a2 a3) * sval (Scalar a0 a1 a2 a3)) end.
  { unfold sval, t. rewrite E12, E11, E10, E9, E8, E7, E6, E5, S1, S2, S3, S4, S5, S6, E4, E3, E2, E1, E0, E. ring. }
  assert (T : 0 <= t).
  { unfold t, u64 in *. rewrite W_val in *. lia. }
  assert (Hi : hi12 = 0).
  { assert (Hr := r_lt_W4). assert (W ^ 8 = W ^ 4 * W ^ 4) by reflexivity. rewrite <- F in L.
    assert (r * W ^ 4 < W ^ 8) by reflexivity.
    assert (0 <= hi12) by apply U26. change (W ^ 8) with (2 ^ 512) in *. nia. }
  rewrite Hi, Z.mul_0_r, Z.add_0_r in F.
  rewrite <- F in L |- *. apply montgomery_reduce_spec; assumption.
Qed.
