(** * Proof_GLV: splitting a scalar and recoding the halves *)
From Coq Require Import ZArith List Bool Lia.
From Verif Require Import Base Fld Zr Spec_Scalar Model_Scalar Proof_Scalar Proof_Scalar2 Model_Fp Model_Curve Model_G1.
Import ListNotations.
Local Open Scope Z_scope.

Definition wv (a : words4) : Z := let '(a0, a1, a2, a3) := a in a0 + W * (a1 + W * (a2 + W * a3)).
Definition wok (a : words4) : Prop := let '(a0, a1, a2, a3) := a in u64 a0 /\ u64 a1 /\ u64 a2 /\ u64 a3.

Lemma mul_short_ok a b0 b1 b2 : wok a -> u64 b0 -> u64 b1 -> u64 b2 ->
  let '(r0, r1, r2, r3, r4, r5, r6, r7) := mul_short a (b0, b1, b2, 0) in
  u64 r0 /\ u64 r1 /\ u64 r2 /\ u64 r3 /\ u64 r4 /\ u64 r5 /\ u64 r6 /\ r7 = 0 /\
  wv (r0, r1, r2, r3) + W ^ 4 * wv (r4, r5, r6, r7) = wv a * wv (b0, b1, b2, 0).
Proof.
  destruct a as [[[a0 a1] a2] a3]. intros (A0 & A1 & A2 & A3) B0 B1 B2. unfold mul_short.
  do 12 limb_step.
  do 7 (split; [assumption|]). split; [reflexivity|].
  unfold wv. change (W ^ 4) with (W * (W * (W * W))).
  rewrite E10, E9, E8, E7, E6, E5, E4, E3, E2, E1, E0, E. ring.
Qed.

Lemma sub_borrow_ok a b : wok a -> wok b -> wv a < W ^ 4 -> 
  let '(d0, d1, d2, d3, s) := sub_borrow a b in
  wok (d0, d1, d2, d3) /\
  ((wv b <= wv a /\ s = 0 /\ wv (d0, d1, d2, d3) = wv a - wv b) \/
   (wv a < wv b /\ s = -1 /\ wv (d0, d1, d2, d3) = wv a - wv b + W ^ 4)).
Proof.
  destruct a as [[[a0 a1] a2] a3], b as [[[b0 b1] b2] b3]. intros (A0 & A1 & A2 & A3) (B0 & B1 & B2 & B3) L.
  unfold sub_borrow. do 4 limb_step.
  split; [split; [|split; [|split]]; assumption|].
  assert (V : wv (lo, lo0, lo1, lo2) = wv (a0, a1, a2, a3) - wv (b0, b1, b2, b3) + W ^ 4 * bbit hi2).
  { unfold wv. change (W ^ 4) with (W * (W * (W * W))). rewrite E2, E1, E0, E.
    change (bbit 0) with 0. ring. }
  assert (G : 0 <= wv (lo, lo0, lo1, lo2) < W ^ 4)
    by (apply (sval_range (Scalar lo lo0 lo1 lo2)); split; [|split; [|split]]; assumption).
  match goal with H : bword hi2 |- _ => destruct H as [-> | ->] end.
  - left. change (bbit 0) with 0 in V. split; [lia|]. split; [reflexivity|lia].
  - right. change (bbit (W - 1)) with 1 in V. split; [lia|]. split; [reflexivity|lia].
Qed.

(** ** the split *)
Definition glv_v : Z := 0x17c6becf1e01faadd63f6e522f6cfee2f.
Definition glv_lambda : Z := 0xac45a4010001a40200000000ffffffff.
(** k times V, divided by 2^256 and rounded *)
Definition glv_h (k : Z) : Z := (k * glv_v + 2 ^ 255) / 2 ^ 256.
(** the rounding carries out of the lowest word *)
Definition glv_carry (k : Z) : bool := (k * glv_v / 2 ^ 255) mod 2 ^ 65 =? 2 ^ 65 - 1.

Lemma glv_V0_val : wv glv_V0 = glv_v. Proof. reflexivity. Qed.
Lemma glv_V1_val : wv glv_V1 = glv_lambda. Proof. reflexivity. Qed.
Lemma glv_v_lambda : glv_v * glv_lambda <= 2 ^ 256 < (glv_v + 2) * glv_lambda.
Proof. split; [discriminate|reflexivity]. Qed.

Lemma glv_abs (B C D v l k h m : Z) : 0 < B -> C = 2 * B -> 2 <= D -> 0 <= k < B -> 0 < v < D -> 0 < l ->
  v * l <= C -> C < (v + 2) * l -> k * v + B = C * h + m -> 0 <= m < C ->
  0 <= h < D /\ - l < k - h * l < 2 * l.
Proof.
  intros HB -> HD K V L V1 V2 E M.
  assert (H0 : 0 <= h) by nia.
  assert (KV : k * v <= B * v) by nia.
  assert (KV' : B * v <= B * (D - 1)) by nia.
  assert (H1 : h < D) by nia.
  split; [split; assumption|].
  assert (X1 : h * l * (2 * B) <= k * (2 * B) + B * l) by nia.
  assert (Y : k * l <= B * l) by nia.
  assert (X2 : k * (2 * B) < h * l * (2 * B) + 2 * (2 * B) * l) by nia.
  split; nia.
Qed.
Lemma glv_h_bound k : 0 <= k < 2 ^ 255 ->
  0 <= glv_h k < 2 ^ 129 /\ - glv_lambda < k - glv_h k * glv_lambda < 2 * glv_lambda.
Proof.
  intros K. pose proof glv_v_lambda as [V1 V2].
  apply (glv_abs (2 ^ 255) (2 ^ 256) (2 ^ 129) glv_v glv_lambda k (glv_h k) ((k * glv_v + 2 ^ 255) mod 2 ^ 256));
    [reflexivity|reflexivity|discriminate|exact K|split; reflexivity|reflexivity|exact V1|exact V2| |].
  - apply Z.div_mod. discriminate.
  - apply Z.mod_pos_bound. reflexivity.
Qed.

(** rounding through the words *)
Lemma round_words n L b3 H : 0 <= L < W ^ 3 -> u64 b3 -> n = L + W ^ 3 * b3 + W ^ 4 * H ->
  (n + 2 ^ 255) / 2 ^ 256 = H + shr b3 63 /\ (n / 2 ^ 255) = 2 * H + shr b3 63.
Proof.
  intros HL HB ->. rewrite shr_div by lia. unfold u64 in HB.
  pose proof (Z.div_mod b3 (2 ^ 63) ltac:(discriminate)) as DM.
  pose proof (Z.mod_pos_bound b3 (2 ^ 63) ltac:(reflexivity)) as MB.
  assert (Q : 0 <= b3 / 2 ^ 63 <= 1).
  { split; [apply Z.div_pos; [lia|reflexivity]|]. apply Z.lt_succ_r. apply Z.div_lt_upper_bound; [reflexivity|].
    change (2 ^ 63 * Z.succ 1) with W. lia. }
  set (q := b3 / 2 ^ 63) in *. set (m := b3 mod 2 ^ 63) in *.
  assert (E1 : W ^ 3 * 2 ^ 63 = 2 ^ 255) by reflexivity.
  assert (E2 : W ^ 4 = 2 ^ 256) by reflexivity.
  assert (E3 : 2 ^ 256 = 2 * 2 ^ 255) by reflexivity.
  assert (X : 0 <= L + W ^ 3 * m < 2 ^ 255).
  { rewrite <- E1. revert HL MB. generalize (W ^ 3) (2 ^ 63). intros. nia. }
  rewrite DM. replace (L + W ^ 3 * (2 ^ 63 * q + m)) with (L + W ^ 3 * m + 2 ^ 255 * q) by (rewrite <- E1; ring).
  rewrite E2, E3. revert X. generalize (L + W ^ 3 * m) (2 ^ 255). intros y B Y.
  split; symmetry.
  - destruct (Z.eq_dec q 0) as [-> | N].
    + apply (Z.div_unique _ _ _ (y + B)); [left; lia|ring].
    + assert (q = 1) as -> by lia. apply (Z.div_unique _ _ _ y); [left; lia|ring].
  - apply (Z.div_unique _ _ _ y); [left; lia|ring].
Qed.

Lemma from_raw_spec l0 l1 l2 l3 : wf (Scalar l0 l1 l2 l3) ->
  rep (from_raw l0 l1 l2 l3) (fr_of (sval (Scalar l0 l1 l2 l3))).
Proof. apply rep_mul_R2. Qed.
Lemma bytes_of_rep s n : rep s (fr_of n) -> 0 <= n < r ->
  is_bytes 32 (Model_Scalar.to_bytes s) /\ bytes_val (Model_Scalar.to_bytes s) = n.
Proof.
  intros H R. destruct (to_bytes_spec s _ H) as [A B]. split; [exact A|]. rewrite B. unfold fr_of.
  rewrite val_to_Fr. now apply Z.mod_small.
Qed.
Lemma not_words l0 l1 l2 l3 : wf (Scalar l0 l1 l2 l3) ->
  wf (Scalar (not64 l0) (not64 l1) (not64 l2) (not64 l3)) /\
  sval (Scalar (not64 l0) (not64 l1) (not64 l2) (not64 l3)) = W ^ 4 - 1 - sval (Scalar l0 l1 l2 l3).
Proof.
  intros (A & B & C & D). unfold u64, not64, wf, sval, u64 in *. change (W ^ 4) with (W * (W * (W * W))).
  split; [|ring]. generalize dependent W. intros. repeat split; lia.
Qed.

(** the split, with the low word of the second half wrapped when the rounding carries *)
Definition glv_h' (k : Z) : Z := if glv_carry k then glv_h k - W else glv_h k.
Lemma glv_recoding_ok checked k n : is_bytes 32 k -> bytes_val k = n -> n < 2 ^ 255 ->
  0 <= glv_h' n -> n - glv_h' n * glv_lambda < r ->
  if glv_carry n && checked then glv_recoding checked k = Panic
  else exists s1 k1 k2, glv_recoding checked k = Ok (s1, k1, 0, k2) /\
    is_bytes 32 k1 /\ is_bytes 32 k2 /\ bytes_val k2 = glv_h' n /\
    (s1 = 0 /\ bytes_val k1 = n - glv_h' n * glv_lambda \/ s1 = -1 /\ - bytes_val k1 = n - glv_h' n * glv_lambda).
Proof.
  intros Bk V N H0 HR. unfold glv_recoding.
  destruct (words_val4 k Bk) as [Wt Vt]. rewrite V in Vt.
  set (t := (word k 0, word k 1, word k 2, word k 3)).
  assert (Ot : wok t) by exact Wt. assert (VT : wv t = n) by exact Vt.
  assert (N0 : 0 <= n) by (rewrite <- Vt; apply (sval_range _ Wt)).
  pose proof (glv_h_bound n (conj N0 N)) as [HB LB].
  pose proof (mul_short_ok t (0x63f6e522f6cfee2f) 0x7c6becf1e01faadd 1 Ot
    ltac:(split; [discriminate|reflexivity]) ltac:(split; [discriminate|reflexivity]) ltac:(split; [discriminate|reflexivity])) as M.
  change (0x63f6e522f6cfee2f, 0x7c6becf1e01faadd, 1, 0) with glv_V0 in M.
  destruct (mul_short t glv_V0) as [[[[[[[b0 b1] b2] b3] b4] b5] b6] b7].
  destruct M as (U0 & U1 & U2 & U3 & U4 & U5 & U6 & -> & M). rewrite VT, glv_V0_val in M.
  assert (HL : 0 <= b0 + W * (b1 + W * b2) < W ^ 3).
  { unfold u64 in *. change (W ^ 3) with (W * (W * W)). revert U0 U1 U2. assert (0 < W) by reflexivity.
    generalize dependent W. intros. nia. }
  destruct (round_words (n * glv_v) (b0 + W * (b1 + W * b2)) b3 (b4 + W * (b5 + W * b6)) HL U3) as [R1 R2].
  { rewrite <- M. unfold wv. change (W ^ 3) with (W * (W * W)). ring. }
  pose proof (shr63 b3 U3) as S3.
  assert (HV : glv_h n = b4 + shr b3 63 + W * (b5 + W * b6)) by (unfold glv_h; rewrite R1; ring).
  assert (CV : glv_carry n = negb (b4 + shr b3 63 <? W)).
  { unfold glv_carry. rewrite R2.
    assert (E : (2 * (b4 + W * (b5 + W * b6)) + shr b3 63) mod 2 ^ 65 = 2 * b4 + shr b3 63).
    { symmetry. apply (Z.mod_unique _ _ (b5 + W * b6)).
      - left. unfold u64 in U4. change (2 ^ 65) with (2 * W). lia.
      - change (2 ^ 65) with (2 * W). ring. }
    rewrite E. unfold u64 in U4. change (2 ^ 65) with (2 * W).
    destruct (Z.ltb_spec (b4 + shr b3 63) W); cbn [negb]; [apply Z.eqb_neq|apply Z.eqb_eq]; lia. }
  unfold u64_add.
  assert (KEY : forall h0, u64 h0 -> h0 + W * (b5 + W * b6) = glv_h' n ->
    exists s1 k1 k2,
      (let b2h := (h0, b5, b6, 0) in
       let '(b10, b11, b12, b13, _, _, _, _) := mul_short b2h glv_V1 in
       let '(l0, l1, l2, l3, s1) := sub_borrow t (b10, b11, b12, b13) in
       let minus_k1 := Model_Scalar.add (from_raw (not64 l0) (not64 l1) (not64 l2) (not64 l3)) Model_Scalar.one in
       let k1 := from_raw l0 l1 l2 l3 in
       let k1 := conditional_select k1 minus_k1 (as_u8 (- s1) =? 1) in
       let k2 := from_raw h0 b5 b6 0 in
       Ok (s1, Model_Scalar.to_bytes k1, 0, Model_Scalar.to_bytes k2)) = Ok (s1, k1, 0, k2) /\
      is_bytes 32 k1 /\ is_bytes 32 k2 /\ bytes_val k2 = glv_h' n /\
      (s1 = 0 /\ bytes_val k1 = n - glv_h' n * glv_lambda \/ s1 = -1 /\ - bytes_val k1 = n - glv_h' n * glv_lambda)).
  { intros h0 Uh Vh. cbv zeta.
    assert (Oh : wok (h0, b5, b6, 0)) by (split; [|split; [|split]]; auto using u64_0).
    assert (Vh' : wv (h0, b5, b6, 0) = glv_h' n) by (rewrite <- Vh; unfold wv; ring).
    pose proof (mul_short_ok (h0, b5, b6, 0) 0x00000000ffffffff 0xac45a4010001a402 0 Oh
      ltac:(split; [discriminate|reflexivity]) ltac:(split; [discriminate|reflexivity]) u64_0) as M1.
    change (0x00000000ffffffff, 0xac45a4010001a402, 0, 0) with glv_V1 in M1.
    destruct (mul_short (h0, b5, b6, 0) glv_V1) as [[[[[[[c0 c1] c2] c3] c4] c5] c6] c7].
    destruct M1 as (C0 & C1 & C2 & C3 & C4 & C5 & C6 & -> & M1). rewrite Vh', glv_V1_val in M1.
    assert (HLE : glv_h' n <= glv_h n) by (unfold glv_h'; destruct (glv_carry n); [|lia]; assert (0 < W) by reflexivity; lia).
    assert (PB : 0 <= glv_h' n * glv_lambda < W ^ 4).
    { assert (P1 : 0 <= glv_lambda) by discriminate.
      assert (P2 : glv_h' n * glv_lambda <= glv_h n * glv_lambda) by (apply Z.mul_le_mono_nonneg_r; assumption).
      assert (P3 : 0 <= glv_h' n * glv_lambda) by (apply Z.mul_nonneg_nonneg; assumption).
      assert (P4 : 2 ^ 255 + glv_lambda < W ^ 4) by reflexivity. lia. }
    assert (Z4 : 0 <= wv (c4, c5, c6, 0) /\ 0 <= wv (c0, c1, c2, c3)).
    { split; [apply (sval_range (Scalar c4 c5 c6 0))|apply (sval_range (Scalar c0 c1 c2 c3))];
        (split; [|split; [|split]]; auto using u64_0). }
    assert (M2 : wv (c0, c1, c2, c3) = glv_h' n * glv_lambda).
    { assert (wv (c4, c5, c6, 0) = 0); [|lia]. revert M1 PB Z4. assert (PW : 0 < W ^ 4) by reflexivity. revert PW.
      generalize (W ^ 4) (wv (c4, c5, c6, 0)) (wv (c0, c1, c2, c3)). intros w4 u v PW M1 PB [Z4 Z5]. nia. }
    assert (TB : wv t < W ^ 4) by (rewrite VT; assert (2 ^ 255 < W ^ 4) by reflexivity; lia).
    assert (Oc : wok (c0, c1, c2, c3)) by (split; [|split; [|split]]; assumption).
    pose proof (sub_borrow_ok t (c0, c1, c2, c3) Ot Oc TB) as SB.
    destruct (sub_borrow t (c0, c1, c2, c3)) as [[[[l0 l1] l2] l3] s1]. destruct SB as [Ol SB].
    rewrite M2, VT in SB.
    assert (Wl : wf (Scalar l0 l1 l2 l3)) by exact Ol.
    assert (Wh : wf (Scalar h0 b5 b6 0)) by exact Oh.
    assert (HR2 : 0 <= glv_h' n < r) by (split; [assumption|]; assert (2 ^ 129 < r) by reflexivity; lia).
    destruct (bytes_of_rep (from_raw h0 b5 b6 0) (glv_h' n)) as [K2a K2b].
    { rewrite <- Vh'. apply (from_raw_spec _ _ _ _ Wh). }
    { exact HR2. }
    destruct SB as [(S1 & -> & SV) | (S1 & -> & SV)].
    - change (as_u8 (- 0) =? 1) with false. unfold conditional_select.
      destruct (bytes_of_rep (from_raw l0 l1 l2 l3) (n - glv_h' n * glv_lambda)) as [K1a K1b].
      { rewrite <- SV. apply (from_raw_spec _ _ _ _ Wl). }
      { split; lia. }
      eexists _, _, _. split; [reflexivity|]. split; [exact K1a|]. split; [exact K2a|]. split; [exact K2b|].
      left. split; [reflexivity|exact K1b].
    - change (as_u8 (- -1) =? 1) with true. unfold conditional_select.
      destruct (not_words l0 l1 l2 l3 Wl) as [Wn Vn].
      destruct (bytes_of_rep (Model_Scalar.add (from_raw (not64 l0) (not64 l1) (not64 l2) (not64 l3)) Model_Scalar.one)
        (glv_h' n * glv_lambda - n)) as [K1a K1b].
      { replace (fr_of (glv_h' n * glv_lambda - n)) with (fadd (fr_of (glv_h' n * glv_lambda - n - 1)) f1).
        - apply rep_add; [|apply rep_one].
          replace (glv_h' n * glv_lambda - n - 1) with (sval (Scalar (not64 l0) (not64 l1) (not64 l2) (not64 l3))).
          + apply (from_raw_spec _ _ _ _ Wn).
          + rewrite Vn. change (sval (Scalar l0 l1 l2 l3)) with (wv (l0, l1, l2, l3)). rewrite SV. ring.
        - change (f1 : Fr) with (fr_of 1). rewrite <- fr_of_add. f_equal. ring. }
      { split; [lia|]. assert (P1 : 0 <= glv_lambda) by discriminate.
        assert (P2 : glv_h' n * glv_lambda <= glv_h n * glv_lambda) by (apply Z.mul_le_mono_nonneg_r; assumption).
        assert (glv_lambda < r) by reflexivity. lia. }
      eexists _, _, _. split; [reflexivity|]. split; [exact K1a|]. split; [exact K2a|]. split; [exact K2b|].
      right. split; [reflexivity|]. rewrite K1b. ring. }
  assert (NP : 0 <= b4 + shr b3 63) by (unfold u64 in U4; lia).
  unfold glv_h' in *. rewrite CV in *.
  destruct (Z.ltb_spec (b4 + shr b3 63) W) as [LT|GE]; cbn [negb andb] in *.
  - cbn [bind]. apply KEY; [split; assumption|]. rewrite HV. ring.
  - destruct checked; [reflexivity|]. cbn [bind].
    assert (E : (b4 + shr b3 63) mod W = b4 + shr b3 63 - W).
    { symmetry. apply (Z.mod_unique _ _ 1); [left; unfold u64 in U4; lia|ring]. }
    apply KEY; [rewrite E; unfold u64 in *; lia|]. rewrite E, HV. ring.
Qed.
