(** * Proof_FpTop: the base field, in terms of what the limbs stand for *)
From Coq Require Import ZArith List Bool Lia.
From Verif Require Import Base Fld Tables Zp Model_Scalar Model_Fp Spec_Scalar Spec_Fp Proof_Fp Proof_FpRep.
Import ListNotations.
Local Open Scope Z_scope.

Lemma fp_one_to_one :
  (forall x : Fp, exists s, stands_for s x) /\
  (forall s (x y : Fp), stands_for s x -> stands_for s y -> x = y) /\
  (forall s t (x : Fp), stands_for s x -> stands_for t x -> s = t) /\
  (forall s n, limbs6 s n -> n < p -> exists x : Fp, stands_for s x).
Proof.
  split; [|split; [|split]].
  - intros x. pose proof (pval_range x).
    (* encode and decode *)
    set (n := (pval x * 2 ^ 384) mod p).
    assert (R : 0 <= n < p) by (apply Z.mod_pos_bound, p_pos).
    assert (P : p < W ^ 6) by (vm_compute; reflexivity).
    exists (FP (n mod W) (n / W mod W) (n / W ^ 2 mod W) (n / W ^ 3 mod W) (n / W ^ 4 mod W) (n / W ^ 5 mod W)).
    unfold stands_for, limbs6. fold n. change (2 ^ 64) with W.
    assert (WP : 0 < W) by reflexivity.
    repeat (split; [apply Z.mod_pos_bound; exact WP|]).
    cbn [limbs_val]. change (2 ^ 64) with W.
    assert (D : forall k, 0 <= k -> n / W ^ k mod W + W * (n / W ^ (k + 1)) = n / W ^ k).
    { intros k K. assert (0 < W ^ k) by (apply Z.pow_pos_nonneg; lia).
      rewrite Z.pow_add_r, Z.pow_1_r, <- Z.div_div by lia.
      rewrite Z.add_comm. symmetry. apply Z_div_mod_eq_full. }
    assert (T : n / W ^ 5 mod W = n / W ^ 5).
    { apply Z.mod_small. split; [apply Z.div_pos; [lia|reflexivity]|]. apply Z.div_lt_upper_bound; [reflexivity|].
      change (W ^ 5 * W) with (W ^ 6). lia. }
    rewrite T, Z.mul_0_r, Z.add_0_r.
    pose proof (D 4 ltac:(lia)) as D4. change (4 + 1) with 5 in D4. rewrite D4.
    pose proof (D 3 ltac:(lia)) as D3. change (3 + 1) with 4 in D3. rewrite D3.
    pose proof (D 2 ltac:(lia)) as D2. change (2 + 1) with 3 in D2. rewrite D2.
    pose proof (D 1 ltac:(lia)) as D1. change (1 + 1) with 2 in D1. rewrite Z.pow_1_r in D1. rewrite D1.
    rewrite Z.add_comm. apply Z_div_mod_eq_full.
  - intros s x y. rewrite !stands_for_frep. apply frep_unique.
  - intros s t x. rewrite !stands_for_frep. apply frep_inj.
  - intros s n L R. apply fwf_limbs6 in L. destruct L as [L <-].
    exists (fdiv (fp_of (fpv s)) RP). apply stands_for_frep. apply fcanonical_frep. split; assumption.
Qed.

Lemma fp_ring_ops a b (x y : Fp) : stands_for a x -> stands_for b y ->
  stands_for (fp_add a b) (fadd x y) /\ stands_for (fp_sub a b) (fsub x y) /\ stands_for (fp_neg a) (fneg x) /\
  stands_for (fp_mul a b) (fmul x y) /\ stands_for (fp_square a) (fmul x x) /\
  (forall c, stands_for (fp_select a b c) (if c then y else x)).
Proof.
  rewrite !stands_for_frep. intros A B.
  split; [|split; [|split; [|split; [|split]]]]; try (intros c); rewrite ?stands_for_frep;
    auto using frep_add, frep_sub, frep_neg, frep_mul, frep_square, frep_select.
Qed.
Lemma fp_constants : stands_for fp_zero f0 /\ stands_for fp_one f1.
Proof. rewrite !stands_for_frep. auto using frep_zero, frep_one. Qed.
Lemma fp_equality a b (x y : Fp) : stands_for a x -> stands_for b y ->
  (fp_eq a b = true <-> x = y) /\ (fp_is_zero a = true <-> x = f0).
Proof.
  rewrite !stands_for_frep. intros A B. split; [now apply fp_eq_spec|].
  rewrite (fp_is_zero_feqb _ _ A). apply feqb_spec.
Qed.

Lemma fp_encode a (x : Fp) : stands_for a x ->
  is_bytes 48 (fp_to_bytes a) /\ be_val (fp_to_bytes a) = pval x.
Proof. rewrite stands_for_frep. apply fp_to_bytes_spec. Qed.
Lemma fp_decode bs : is_bytes 48 bs ->
  (be_val bs < p -> exists s, fp_from_bytes bs = Some s /\ stands_for s (fp_of (be_val bs))) /\
  (p <= be_val bs -> fp_from_bytes bs = None).
Proof.
  intros H. destruct (fp_from_bytes_spec bs H) as [A B]. split; [|exact B].
  intros L. destruct (A L) as (s & E & R). exists s. split; [exact E|]. now apply stands_for_frep.
Qed.
Lemma fp_roundtrip :
  (forall a (x : Fp), stands_for a x -> fp_from_bytes (fp_to_bytes a) = Some a) /\
  (forall bs a, is_bytes 48 bs -> fp_from_bytes bs = Some a -> fp_to_bytes a = bs).
Proof.
  split.
  - intros a x H. destruct (fp_encode a x H) as [A B]. pose proof (pval_range x).
    destruct (fp_decode _ A) as [D _]. rewrite B in D. destruct (D ltac:(lia)) as (s & E & R).
    rewrite E. f_equal. apply (proj1 (proj2 (proj2 fp_one_to_one))) with (x := x); [|exact H].
    now rewrite fp_of_pval in R.
  - intros bs a H E. destruct (fp_decode bs H) as [D N].
    destruct (Z.lt_ge_cases (be_val bs) p) as [L|L]; [|rewrite (N L) in E; discriminate].
    destruct (D L) as (s & E' & R). rewrite E in E'. injection E' as <-.
    destruct (fp_encode a _ R) as [[A1 A2] B]. destruct H as [H1 H2].
    apply be_val_inj; [exact A2|exact H2|congruence|]. rewrite B, pval_fp_of. apply Z.mod_small.
    split; [|exact L]. now apply be_val_range.
Qed.
Lemma fp_lexicographic a (x : Fp) : stands_for a x ->
  (fp_lexicographically_largest a = true <-> pval (fneg x) < pval x).
Proof. rewrite stands_for_frep. apply fp_lexicographically_largest_spec. Qed.

Lemma fp_from_wide h l hn ln : limbs6 h hn -> limbs6 l ln ->
  let '(FP h5 h4 h3 h2 h1 h0) := h in let '(FP l5 l4 l3 l2 l1 l0) := l in
  stands_for (fp_from_u768 h0 h1 h2 h3 h4 h5 l0 l1 l2 l3 l4 l5) (fp_of (hn + 2 ^ 384 * ln)).
Proof.
  intros H L. apply fwf_limbs6 in H, L. destruct H as [H <-], L as [L <-].
  destruct h as [h5 h4 h3 h2 h1 h0], l as [l5 l4 l3 l2 l1 l0].
  destruct H as (? & ? & ? & ? & ? & ?), L as (? & ? & ? & ? & ? & ?).
  cbv beta iota. rewrite stands_for_frep. assert (E : 2 ^ 384 = W ^ 6) by (vm_compute; reflexivity). rewrite E.
  apply fp_from_u768_spec; assumption.
Qed.
Lemma fp_from_wide_documented_refuted :
  exists h l hn ln, limbs6 h hn /\ limbs6 l ln /\
  let '(FP h5 h4 h3 h2 h1 h0) := h in let '(FP l5 l4 l3 l2 l1 l0) := l in
  ~ stands_for (fp_from_u768 h0 h1 h2 h3 h4 h5 l0 l1 l2 l3 l4 l5) (fp_of (2 ^ 384 * hn + ln)).
Proof.
  exists (FP 0 0 0 0 0 0), (FP 1 0 0 0 0 0), 0, 1.
  assert (A : limbs6 (FP 0 0 0 0 0 0) 0) by (cbn; lia). assert (B : limbs6 (FP 1 0 0 0 0 0) 1) by (cbn; lia).
  split; [exact A|]. split; [exact B|]. intros H.
  pose proof (fp_from_wide _ _ _ _ A B) as H'. cbv beta iota in H'.
  pose proof (proj1 (proj2 fp_one_to_one) _ _ _ H H') as E.
  apply (f_equal pval) in E. rewrite !pval_fp_of in E. vm_compute in E. discriminate.
Qed.

Lemma fp_inverse a (x : Fp) : stands_for a x ->
  (x = f0 -> fp_invert a = None) /\ (x <> f0 -> exists t, fp_invert a = Some t /\ stands_for t (finv x)).
Proof.
  rewrite stands_for_frep. intros H. destruct (fp_invert_spec a x H) as [A B]. split; [exact A|].
  intros N. destruct (B N) as (t & E & R). exists t. split; [exact E|]. now apply stands_for_frep.
Qed.
Lemma fp_power a (x : Fp) ws : stands_for a x -> Forall (fun w => 0 <= w < 2 ^ 64) ws ->
  stands_for (fp_pow_vartime a ws) (Fp_pow x (limbs_val ws)).
Proof. rewrite !stands_for_frep. intros H F. apply (fp_pow_vartime_spec x a ws H F). Qed.
Lemma fp_square_root a (y : Fp) : stands_for a y ->
  ((exists x, fmul x x = y) -> exists s x, fp_sqrt a = Some s /\ stands_for s x /\ fmul x x = y) /\
  (~ (exists x, fmul x x = y) -> fp_sqrt a = None).
Proof.
  rewrite stands_for_frep. intros H. destruct (fp_sqrt_spec a y H) as [A B]. split; [|exact B].
  intros N. destruct (A N) as (s & x & E & R & S). exists s, x. rewrite stands_for_frep. auto.
Qed.

(** -1 is no square: p = 3 mod 4 *)
Lemma p_half_odd : p - 1 = 2 * (2 * ((p - 3) / 4) + 1) /\ 0 <= (p - 3) / 4.
Proof. vm_compute. split; [reflexivity|discriminate]. Qed.
Lemma Fp_minus_one_not_one : (fneg f1 : Fp) <> f1.
Proof. intros H. apply (f_equal pval) in H. vm_compute in H. discriminate. Qed.
Lemma Fp_minus_one_nonsquare : ~ exists x : Fp, fmul x x = fneg f1.
Proof.
  intros [x H]. assert (N : x <> f0).
  { intros ->. apply (f_equal pval) in H. vm_compute in H. discriminate. }
  pose proof (Fp_pow_fermat x N) as F. destruct p_half_odd as [E G]. rewrite E in F.
  set (q := (p - 3) / 4) in *. clearbody q.
  rewrite <- Fp_pow_pow in F by lia.
  assert (S : Fp_pow x 2 = fneg f1).
  { change 2 with (1 + 1). rewrite Fp_pow_add, Fp_pow_1 by lia. exact H. }
  rewrite S in F. rewrite Fp_pow_add, Fp_pow_1, <- Fp_pow_pow in F by lia.
  assert (T : Fp_pow (fneg f1) 2 = f1).
  { apply pval_inj. vm_compute. reflexivity. }
  assert (O : forall e, 0 <= e -> Fp_pow f1 e = f1).
  { intros e He. unfold Fp_pow. change (pval (f1 : Fp)) with 1. rewrite Z.pow_1_l by exact He. reflexivity. }
  rewrite T, O in F by lia. apply Fp_minus_one_not_one.
  transitivity (fmul f1 (fneg f1) : Fp); [|exact F]. symmetry. apply pval_inj. vm_compute. reflexivity.
Qed.
Lemma stands_for_lit s n : limbs6 s (((n mod p) * 2 ^ 384) mod p) -> stands_for s (fp_of n).
Proof. unfold stands_for. now rewrite pval_fp_of. Qed.
Lemma fp_root_cases :
  fp_invert fp_zero = None /\
  (exists t, fp_invert (fp_add fp_one fp_one) = Some t /\ fp_mul t (fp_add fp_one fp_one) = fp_one) /\
  (exists s, fp_sqrt (fp_mul (fp_add fp_one fp_one) (fp_add fp_one fp_one)) = Some s) /\
  fp_sqrt (fp_neg fp_one) = None.
Proof.
  assert (T : frep (fp_add fp_one fp_one) (fadd f1 f1)) by auto using frep_add, frep_one.
  split; [|split; [|split]].
  - now apply (fp_invert_spec fp_zero f0 frep_zero).
  - destruct (fp_invert_spec _ _ T) as [_ H]. destruct H as (t & E & R).
    { intros H. apply (f_equal pval) in H. vm_compute in H. discriminate. }
    exists t. split; [exact E|]. apply (frep_inj _ _ f1); [|exact frep_one].
    refine (frep_to _ _ _ _ (frep_mul _ _ _ _ R T)). apply finv_l.
    intros H. apply (f_equal pval) in H. vm_compute in H. discriminate.
  - destruct (fp_sqrt_spec _ _ (frep_mul _ _ _ _ T T)) as [H _].
    destruct H as (s & x & E & _); [eexists; reflexivity|]. now exists s.
  - destruct (fp_sqrt_spec _ _ (frep_neg _ _ frep_one)) as [_ H]. apply H. exact Fp_minus_one_nonsquare.
Qed.
