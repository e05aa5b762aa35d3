(** * Proof_Utils: lemmas about [Model_Utils] *)
From Coq Require Import NArith List Arith Lia Bool.
From Coq Require Import Permutation.
From Verif Require Import Base Model_Utils Spec.
Import ListNotations.
Local Open Scope N_scope.

(** ** Lemmas *)

Lemma is_power_of_two_spec x : is_power_of_two x = true <-> exists k, x = 2 ^ k.
Proof.
  unfold is_power_of_two. split.
  - intros H. apply andb_true_iff in H as [Hx H].
    apply negb_true_iff, N.eqb_neq in Hx. apply N.eqb_eq in H.
    exists (N.log2 x). destruct (N.log2_spec x) as [L U]; [lia|].
    destruct (N.eq_dec x (2 ^ N.log2 x)) as [|Nq]; auto. exfalso.
    assert (Hb : N.testbit (N.land x (x - 1)) (N.log2 x) = true).
    { rewrite N.land_spec, N.bit_log2 by auto. simpl.
      replace (N.log2 x) with (N.log2 (x - 1)).
      - apply N.bit_log2. lia.
      - apply N.log2_unique; [lia|]. split; [lia|]. lia. }
    rewrite H in Hb. now rewrite N.bits_0 in Hb.
  - intros [k ->].
    assert (2 ^ k <> 0) by (apply N.pow_nonzero; lia).
    apply andb_true_iff. split.
    + now apply negb_true_iff, N.eqb_neq.
    + apply N.eqb_eq. apply N.bits_inj. intros i. rewrite N.land_spec, N.bits_0.
      rewrite N.sub_1_r, <- N.ones_equiv.
      destruct (N.lt_ge_cases i k).
      * rewrite N.pow2_bits_false by lia. reflexivity.
      * rewrite N.ones_spec_high by lia. apply andb_false_r.
Qed.

Definition smeared (m : N) (v u : N) :=
  forall i, N.testbit u i = true <-> exists j, i <= j < i + m /\ N.testbit v j = true.

Lemma smear_step m v u : smeared m v u -> smeared (2 * m) v (N.lor u (N.shiftr u m)).
Proof.
  intros H i. rewrite N.lor_spec, orb_true_iff, N.shiftr_spec'.
  rewrite (H i), (H (i + m)). split.
  - intros [(j & ? & ?)|(j & ? & ?)]; exists j; split; auto; lia.
  - intros (j & Hj & B). destruct (N.lt_ge_cases j (i + m)).
    + left. exists j. split; auto; lia.
    + right. exists j. split; auto; lia.
Qed.

Lemma smeared_1 v : smeared 1 v v.
Proof.
  intros i. split.
  - intros. exists i. split; auto; lia.
  - intros (j & Hj & B). now replace i with j by lia.
Qed.

Lemma smeared_64 v u : v < 2 ^ 64 -> smeared 64 v u -> u = if v =? 0 then 0 else 2 ^ (N.log2 v + 1) - 1.
Proof.
  intros Hv H. destruct (N.eqb_spec v 0) as [->|Nz].
  - apply N.bits_inj. intros i. rewrite N.bits_0.
    destruct (N.testbit u i) eqn:E; auto. apply H in E as (j & _ & B).
    now rewrite N.bits_0 in B.
  - rewrite N.sub_1_r, <- N.ones_equiv. apply N.bits_inj. intros i.
    assert (HL : N.log2 v < 64) by (apply N.log2_lt_pow2; lia).
    destruct (N.lt_ge_cases i (N.log2 v + 1)).
    + rewrite N.ones_spec_low by lia. apply H. exists (N.log2 v). split; [lia|].
      now apply N.bit_log2.
    + rewrite N.ones_spec_high by lia.
      destruct (N.testbit u i) eqn:E; auto. apply H in E as (j & Hj & B).
      rewrite N.bits_above_log2 in B by lia. discriminate.
Qed.

(** the result, in closed form *)
Lemma next_power_of_two_closed v :
  0 < v -> v <= 2 ^ 63 -> next_power_of_two v = Ok (if v =? 1 then 1 else 2 ^ (N.log2 (v - 1) + 1)).
Proof.
  intros H0 H1. unfold next_power_of_two.
  destruct (N.eqb_spec v 0); [lia|].
  set (u0 := v - 1).
  set (u1 := N.lor u0 (N.shiftr u0 1)).
  set (u2 := N.lor u1 (N.shiftr u1 2)).
  set (u3 := N.lor u2 (N.shiftr u2 4)).
  set (u4 := N.lor u3 (N.shiftr u3 8)).
  set (u5 := N.lor u4 (N.shiftr u4 16)).
  set (u6 := N.lor u5 (N.shiftr u5 32)).
  assert (S6 : smeared 64 u0 u6).
  { assert (S0 := smeared_1 u0).
    apply smear_step in S0. change (2 * 1) with 2 in S0.
    apply smear_step in S0. change (2 * 2) with 4 in S0.
    apply smear_step in S0. change (2 * 4) with 8 in S0.
    apply smear_step in S0. change (2 * 8) with 16 in S0.
    apply smear_step in S0. change (2 * 16) with 32 in S0.
    apply smear_step in S0. change (2 * 32) with 64 in S0.
    exact S0. }
  assert (Hlt : u0 < 2 ^ 64) by (unfold u0; change (2^64) with (2 * 2^63); lia).
  rewrite (smeared_64 u0 u6 Hlt S6). unfold u0.
  destruct (N.eqb_spec (v - 1) 0).
  - destruct (N.eqb_spec v 1); [|lia]. reflexivity.
  - destruct (N.eqb_spec v 1); [lia|].
    assert (P : 0 < 2 ^ (N.log2 (v - 1) + 1)).
    { apply N.neq_0_lt_0. apply N.pow_nonzero. lia. }
    replace (2 ^ (N.log2 (v - 1) + 1) - 1 + 1) with (2 ^ (N.log2 (v - 1) + 1)) by lia.
    assert (L : N.log2 (v - 1) < 63) by (apply N.log2_lt_pow2; lia).
    assert (B : 2 ^ (N.log2 (v - 1) + 1) <= 2 ^ 63) by (apply N.pow_le_mono_r; lia).
    destruct (N.leb_spec (2 ^ 64) (2 ^ (N.log2 (v - 1) + 1))).
    + exfalso. change (2^64) with (2 * 2^63) in *. lia.
    + destruct (N.eqb_spec (2 ^ (N.log2 (v - 1) + 1)) 0); [lia|]. reflexivity.
Qed.

Lemma next_power_of_two_spec v :
  0 < v -> v <= 2 ^ 63 ->
  exists k, next_power_of_two v = Ok (2 ^ k) /\ v <= 2 ^ k /\ (forall j, v <= 2 ^ j -> 2 ^ k <= 2 ^ j).
Proof.
  intros H0 H1. rewrite next_power_of_two_closed by auto.
  destruct (N.eqb_spec v 1) as [->|N1].
  - exists 0. split; [reflexivity|]. split; [reflexivity|]. intros. apply N.pow_le_mono_r; lia.
  - exists (N.log2 (v - 1) + 1). split; [reflexivity|].
    destruct (N.log2_spec (v - 1)) as [L U]; [lia|]. split.
    + rewrite N.add_1_r. lia.
    + intros j Hj. apply N.pow_le_mono_r; [lia|].
      destruct (N.lt_ge_cases j (N.log2 (v - 1) + 1)); auto. exfalso.
      assert (2 ^ j <= 2 ^ N.log2 (v - 1)) by (apply N.pow_le_mono_r; lia). lia.
Qed.

Lemma next_power_of_two_zero : next_power_of_two 0 = Panic.
Proof. reflexivity. Qed.

Lemma log_2_byte_spec b : 0 < b -> b < 256 -> log_2_byte b = N.log2 b.
Proof.
  intros H0 H1.
  assert (H : forallb (fun n => log_2_byte (N.of_nat n) =? N.log2 (N.of_nat n)) (seq 1 255) = true)
    by (vm_compute; reflexivity).
  rewrite forallb_forall in H. specialize (H (N.to_nat b)).
  rewrite N2Nat.id in H. apply N.eqb_eq, H. apply in_seq. lia.
Qed.

Lemma log2_pow2_spec k : k < 32 -> log2_pow2 (2 ^ k) = k.
Proof.
  intros Hk.
  assert (H : forallb (fun n => log2_pow2 (2 ^ N.of_nat n) =? N.of_nat n) (seq 0 32) = true)
    by (vm_compute; reflexivity).
  rewrite forallb_forall in H. specialize (H (N.to_nat k)).
  rewrite N2Nat.id in H. apply N.eqb_eq, H. apply in_seq. lia.
Qed.

Lemma log2_u64_spec n : 0 < n -> n < 2 ^ 64 -> log2_u64 n = Ok (N.log2 n).
Proof.
  intros H0 H1. unfold log2_u64.
  destruct (while_inv (fun s : N * N => 0 < fst s /\ fst s < 2 ^ 64 /\ N.log2 (fst s) + snd s = N.log2 n)
     (fun s => N.to_nat (N.log2 (fst s)))
     (fun s : N * N => negb (N.shiftr (fst s) 1 =? 0))
     (fun s => Ok (N.shiftr (fst s) 1, snd s + 1)) 65 (n, 0)) as (s' & E & (I0 & I1 & I2) & C).
  - simpl. repeat split; auto; lia.
  - simpl. assert (N.log2 n < 64) by (apply N.log2_lt_pow2; auto). lia.
  - intros [m r] (A & B & C) D. cbn [fst snd] in *. apply negb_true_iff, N.eqb_neq in D.
    rewrite N.shiftr_div_pow2 in D |- *. change (2^1) with 2 in D |- *.
    exists (m / 2, r + 1). cbn [fst snd].
    assert (D' : 0 < m / 2) by (destruct (m / 2); [congruence|reflexivity]).
    assert (E2 : N.log2 (m / 2) = N.log2 m - 1).
    { rewrite <- N.div2_div, N.div2_spec. apply N.log2_shiftr. }
    assert (0 < N.log2 m).
    { apply N.log2_pos. destruct (N.lt_ge_cases 1 m); auto.
      assert (m = 1) by lia. subst m. compute in D. congruence. }
    split; [reflexivity|]. split; [split; [exact D'|split]|].
    + apply N.le_lt_trans with m; auto. apply N.div_le_upper_bound; lia.
    + lia.
    + lia.
  - rewrite E. simpl. apply negb_false_iff, N.eqb_eq in C.
    rewrite N.shiftr_div_pow2 in C. change (2^1) with 2 in C.
    destruct s' as [m r]. cbn [fst snd] in *.
    assert (m = 1).
    { assert (m < 2) by (apply N.div_small_iff in C; lia). lia. }
    subst m. change (N.log2 1) with 0 in I2. f_equal. lia.
Qed.

(** ** bit reversal *)
Lemma rbits_lt n x : rbits n x < 2 ^ N.of_nat n.
Proof.
  revert x. induction n; intros x; [simpl; lia|].
  cbn [rbits]. rewrite Nat2N.inj_succ, N.pow_succ_r'.
  assert (A := IHn (x / 2)). assert (x mod 2 < 2) by (apply N.mod_lt; lia). nia.
Qed.

Lemma rbits_testbit n x j : j < N.of_nat n ->
  N.testbit (rbits n x) j = N.testbit x (N.of_nat n - 1 - j).
Proof.
  revert x j. induction n; intros x j Hj; [lia|].
  cbn [rbits].
  assert (L := rbits_lt n (x / 2)).
  destruct (N.eq_dec j (N.of_nat n)) as [->|Nj].
  - replace (N.of_nat (S n) - 1 - N.of_nat n) with 0 by lia.
    rewrite !N.testbit_eqb. change (2 ^ 0) with 1. rewrite (N.div_1_r x).
    rewrite N.div_add_l by (apply N.pow_nonzero; lia).
    rewrite N.div_small by auto. rewrite N.add_0_r, N.mod_mod by lia.
    reflexivity.
  - transitivity (N.testbit (rbits n (x / 2)) j).
    + rewrite <- (N.mod_pow2_bits_low _ (N.of_nat n) j) by lia.
      rewrite N.add_comm, N.mod_add by (apply N.pow_nonzero; lia).
      rewrite N.mod_small by auto. reflexivity.
    + rewrite IHn by lia. rewrite <- N.div2_div, N.div2_spec, N.shiftr_spec'. f_equal. lia.
Qed.

(** the specification of bit reversal on [k] bits *)
Definition brev (k : nat) (i : nat) : nat := N.to_nat (rbits k (N.of_nat i)).

Lemma brev_lt k i : (brev k i < 2 ^ k)%nat.
Proof.
  unfold brev. assert (H := rbits_lt k (N.of_nat i)).
  assert (E : N.of_nat (2 ^ k) = 2 ^ N.of_nat k) by (rewrite Nat2N.inj_pow; reflexivity).
  lia.
Qed.

Lemma N_lt_pow2_bits x k : (forall i, k <= i -> N.testbit x i = false) -> x < 2 ^ k.
Proof.
  intros H. destruct (N.eq_dec x 0) as [->|Nz].
  - apply N.neq_0_lt_0, N.pow_nonzero. lia.
  - apply N.log2_lt_pow2; [lia|].
    destruct (N.lt_ge_cases (N.log2 x) k); auto.
    exfalso.
    assert (B := N.bit_log2 x Nz). rewrite H in B; auto. discriminate.
Qed.

Lemma N_bits_high x k i : x < 2 ^ k -> k <= i -> N.testbit x i = false.
Proof.
  intros H1 H2. destruct (N.eq_dec x 0) as [->|]; [apply N.bits_0|].
  apply N.bits_above_log2. apply N.lt_le_trans with k; auto. apply N.log2_lt_pow2; lia.
Qed.

Lemma rbits_invol k x : x < 2 ^ N.of_nat k -> rbits k (rbits k x) = x.
Proof.
  intros H. apply N.bits_inj. intros i. destruct (N.lt_ge_cases i (N.of_nat k)).
  - rewrite rbits_testbit by auto. rewrite rbits_testbit by lia. f_equal. lia.
  - rewrite (N_bits_high _ _ _ H) by auto.
    apply (N_bits_high _ (N.of_nat k)); auto. apply rbits_lt.
Qed.

Lemma brev_invol k i : (i < 2 ^ k)%nat -> brev k (brev k i) = i.
Proof.
  intros H. unfold brev. rewrite N2Nat.id, rbits_invol; [lia|].
  assert (E : N.of_nat (2 ^ k) = 2 ^ N.of_nat k) by (rewrite Nat2N.inj_pow; reflexivity).
  lia.
Qed.

Lemma reverse_bits_shift k i : k <= 64 -> i < 2 ^ k ->
  N.shiftr (reverse_bits i) (64 - k) = rbits (N.to_nat k) i.
Proof.
  intros Hk Hi. unfold reverse_bits. apply N.bits_inj. intros j.
  rewrite N.shiftr_spec'. destruct (N.lt_ge_cases j k).
  - rewrite !rbits_testbit by lia. f_equal. lia.
  - rewrite (N_bits_high (rbits (N.to_nat k) i) k j); auto.
    + apply (N_bits_high _ 64); [apply (rbits_lt 64)|lia].
    + assert (L := rbits_lt (N.to_nat k) i). now rewrite N2Nat.id in L.
Qed.

Lemma leading_zeros_pow2 k : (k < 64)%nat -> leading_zeros (N.of_nat (2 ^ k)) + 1 = 64 - N.of_nat k.
Proof.
  intros Hk. unfold leading_zeros.
  assert (E : N.of_nat (2 ^ k) = 2 ^ N.of_nat k) by (rewrite Nat2N.inj_pow; reflexivity).
  rewrite E. destruct (N.eqb_spec (2 ^ N.of_nat k) 0) as [Z|].
  - apply N.pow_nonzero in Z; lia.
  - rewrite N.log2_pow2 by lia. lia.
Qed.

Lemma brev_last k : brev k (2 ^ k - 1) = (2 ^ k - 1)%nat.
Proof.
  assert (E : N.of_nat (2 ^ k) = 2 ^ N.of_nat k) by (rewrite Nat2N.inj_pow; reflexivity).
  assert (P : 2 ^ N.of_nat k <> 0) by (apply N.pow_nonzero; lia).
  assert (E1 : N.of_nat (2 ^ k - 1) = N.ones (N.of_nat k)).
  { rewrite Nat2N.inj_sub, E, N.ones_equiv, <- N.sub_1_r. reflexivity. }
  unfold brev. apply Nat2N.inj. rewrite N2Nat.id, E1.
  apply N.bits_inj. intros j. destruct (N.lt_ge_cases j (N.of_nat k)).
  - rewrite rbits_testbit, !N.ones_spec_low by lia. reflexivity.
  - rewrite N.ones_spec_high by auto. apply (N_bits_high _ (N.of_nat k)); auto. apply rbits_lt.
Qed.

(** the swap loop, common to both implementations *)
Lemma rbo_loop {A} (d : A) k (l : list A) last :
  (0 < k < 64)%nat -> length l = (2 ^ k)%nat -> (last <= 2 ^ k)%nat ->
  exists l', for_range 0 last (fun i values =>
    let* r := shr (reverse_bits (N.of_nat i)) (64 - N.of_nat k) in
    let r := N.to_nat r in
    if Nat.ltb i r then
      let* tmp := idx values r in
      let* vi := idx values i in
      let* values := upd values r vi in
      upd values i tmp
    else Ok values) l = Ok l' /\ length l' = length l /\
  forall p, (p < 2 ^ k)%nat -> nth p l' d =
     if (Nat.ltb p last || Nat.ltb (brev k p) last)%bool then nth (brev k p) l d else nth p l d.
Proof.
  intros Hk Hl Hlast.
  destruct (for_range_inv (fun t l' => length l' = length l /\
    forall p, (p < 2 ^ k)%nat -> nth p l' d =
     if (Nat.ltb p t || Nat.ltb (brev k p) t)%bool then nth (brev k p) l d else nth p l d)
     (fun i values =>
    let* r := shr (reverse_bits (N.of_nat i)) (64 - N.of_nat k) in
    let r := N.to_nat r in
    if Nat.ltb i r then
      let* tmp := idx values r in
      let* vi := idx values i in
      let* values := upd values r vi in
      upd values i tmp
    else Ok values) 0 last l) as (l' & E & I).
  - lia.
  - split; [auto|]. intros p Hp.
    assert (Nat.ltb p 0 = false) as -> by (apply Nat.ltb_ge; lia).
    assert (Nat.ltb (brev k p) 0 = false) as -> by (apply Nat.ltb_ge; lia). reflexivity.
  - intros t v Ht (Lv & Iv).
    assert (E : N.of_nat (2 ^ k) = 2 ^ N.of_nat k) by (rewrite Nat2N.inj_pow; reflexivity).
    unfold shr. destruct (N.ltb_spec (64 - N.of_nat k) 64); [|lia]. cbn [bind].
    rewrite reverse_bits_shift by lia. rewrite Nat2N.id. fold (brev k t).
    assert (Bt := brev_lt k t).
    destruct (Nat.ltb_spec t (brev k t)).
    + rewrite (idx_ok v (brev k t) d) by lia. cbn [bind].
      rewrite (idx_ok v t d) by lia. cbn [bind].
      rewrite upd_ok by lia. cbn [bind]. rewrite upd_ok by (rewrite set_length; lia).
      eexists. split; [reflexivity|]. split; [rewrite !set_length; auto|].
      intros p Hp. rewrite nth_set by (rewrite set_length; lia).
      destruct (Nat.eqb_spec p t) as [->|Npt].
      * assert (Nat.ltb t (S t) = true) as -> by (apply Nat.ltb_lt; lia). cbn [orb].
        rewrite Iv by auto.
        assert (Nat.ltb (brev k t) t = false) as -> by (apply Nat.ltb_ge; lia).
        rewrite brev_invol by lia.
        assert (Nat.ltb t t = false) as -> by (apply Nat.ltb_ge; lia). reflexivity.
      * rewrite nth_set by lia. destruct (Nat.eqb_spec p (brev k t)) as [->|Npr].
        -- rewrite brev_invol by lia.
           assert (Nat.ltb t (S t) = true) as -> by (apply Nat.ltb_lt; lia).
           rewrite orb_true_r. rewrite Iv by lia.
           assert (Nat.ltb (brev k t) t = false) as -> by (apply Nat.ltb_ge; lia).
           assert (Nat.ltb t t = false) as -> by (apply Nat.ltb_ge; lia). reflexivity.
        -- rewrite Iv by auto.
           assert (Nb : brev k p <> t).
           { intros Eb. apply Npr. rewrite <- Eb. now rewrite brev_invol. }
           replace (Nat.ltb p (S t)) with (Nat.ltb p t)
             by (apply eq_true_iff_eq; rewrite !Nat.ltb_lt; lia).
           replace (Nat.ltb (brev k p) (S t)) with (Nat.ltb (brev k p) t)
             by (apply eq_true_iff_eq; rewrite !Nat.ltb_lt; lia). reflexivity.
    + eexists. split; [reflexivity|]. split; auto. intros p Hp. rewrite Iv by auto.
      destruct (Nat.eq_dec p t) as [->|Npt].
      * assert (Nat.ltb t (S t) = true) as -> by (apply Nat.ltb_lt; lia). cbn [orb].
        destruct (Nat.eq_dec (brev k t) t) as [->|].
        -- now destruct (Nat.ltb t t || Nat.ltb t t)%bool.
        -- assert (Nat.ltb (brev k t) t = true) as -> by (apply Nat.ltb_lt; lia).
           now rewrite orb_true_r.
      * destruct (Nat.eq_dec (brev k p) t) as [Eb|].
        -- assert (Ep : p = brev k t) by (rewrite <- Eb; now rewrite brev_invol).
           assert (Nat.ltb p t = true) as -> by (apply Nat.ltb_lt; lia).
           assert (Nat.ltb p (S t) = true) as -> by (apply Nat.ltb_lt; lia). reflexivity.
        -- replace (Nat.ltb p (S t)) with (Nat.ltb p t)
             by (apply eq_true_iff_eq; rewrite !Nat.ltb_lt; lia).
           replace (Nat.ltb (brev k p) (S t)) with (Nat.ltb (brev k p) t)
             by (apply eq_true_iff_eq; rewrite !Nat.ltb_lt; lia). reflexivity.
  - exists l'. destruct I as (I1 & I2). auto.
Qed.

Lemma reverse_bit_order_spec {A} (d : A) k (l : list A) :
  (k < 64)%nat -> length l = (2 ^ k)%nat ->
  exists l', reverse_bit_order l = Ok l' /\ length l' = length l /\
    forall p, (p < 2 ^ k)%nat -> nth p l' d = nth (brev k p) l d.
Proof.
  intros Hk Hl. unfold reverse_bit_order.
  assert (P : (0 < 2 ^ k)%nat) by (apply Nat.neq_0_lt_0, Nat.pow_nonzero; lia).
  rewrite Hl, usub_ok by lia. cbn [bind].
  destruct k as [|k'].
  - exists l. split; [reflexivity|]. split; [auto|]. intros p Hp.
    change (2 ^ 0)%nat with 1%nat in Hp. assert (p = 0%nat) as -> by lia. reflexivity.
  - rewrite leading_zeros_pow2 by lia.
    destruct (rbo_loop d (S k') l (2 ^ S k' - 1)) as (l' & E & L & I); auto; try lia.
    exists l'. split; [exact E|]. split; [congruence|]. intros p Hp. rewrite I by auto.
    destruct (Nat.ltb_spec p (2 ^ S k' - 1)); [reflexivity|].
    assert (p = (2 ^ S k' - 1)%nat) as -> by lia. rewrite brev_last. now destruct (_ || _)%bool.
Qed.

Lemma mcl_order_by_rev_bit_order_spec {A} (d : A) k (l : list A) :
  (0 < k < 64)%nat -> length l = (2 ^ k)%nat ->
  exists l', mcl_order_by_rev_bit_order l = Ok l' /\ length l' = length l /\
    forall p, (p < 2 ^ k)%nat -> nth p l' d = nth (brev k p) l d.
Proof.
  intros Hk Hl. unfold mcl_order_by_rev_bit_order. rewrite Hl.
  rewrite leading_zeros_pow2 by lia.
  destruct (rbo_loop d k l (2 ^ k)) as (l' & E & L & I); auto; try lia.
  exists l'. split; [exact E|]. split; [congruence|]. intros p Hp. rewrite I by auto.
  destruct (Nat.ltb_spec p (2 ^ k)); [reflexivity|lia].
Qed.

(** nat versions *)
Lemma N_of_pow2 k : N.of_nat (2 ^ k) = 2 ^ N.of_nat k.
Proof. rewrite Nat2N.inj_pow. reflexivity. Qed.

Lemma is_pow2_spec n : is_pow2 n = true <-> exists k, n = (2 ^ k)%nat.
Proof.
  unfold is_pow2. rewrite is_power_of_two_spec. split.
  - intros [k H]. exists (N.to_nat k). apply Nat2N.inj. rewrite N_of_pow2, N2Nat.id. auto.
  - intros [k ->]. exists (N.of_nat k). apply N_of_pow2.
Qed.

Lemma is_pow2_pow k : is_pow2 (2 ^ k) = true.
Proof. apply is_pow2_spec. eauto. Qed.

Lemma next_pow2_spec n : (0 < n)%nat -> N.of_nat n <= 2 ^ 63 ->
  exists k, next_pow2 n = Ok (2 ^ k)%nat /\ (n <= 2 ^ k)%nat /\ (forall j, (n <= 2 ^ j)%nat -> (k <= j)%nat).
Proof.
  intros H0 H1. unfold next_pow2.
  destruct (next_power_of_two_spec (N.of_nat n)) as (k & E & L & M); [lia|auto|].
  exists (N.to_nat k). rewrite E. simpl.
  assert (Ek : N.of_nat (2 ^ N.to_nat k) = 2 ^ k) by (rewrite N_of_pow2, N2Nat.id; auto).
  split; [f_equal; lia|]. split; [lia|].
  intros j Hj. assert (2 ^ k <= 2 ^ N.of_nat j).
  { apply M. rewrite <- N_of_pow2. lia. }
  apply N.pow_le_mono_r_iff in H; lia.
Qed.

(** ** relation to the specification-level bit reversal *)
Lemma brev_bitrev k i : brev k i = bitrev k i.
Proof.
  unfold brev. revert i. induction k as [|k IH]; intros i; [reflexivity|].
  cbn [rbits bitrev]. rewrite N2Nat.inj_add, N2Nat.inj_mul. f_equal.
  - f_equal.
    + rewrite N2Nat.inj_mod, Nat2N.id. reflexivity.
    + rewrite <- N_of_pow2. apply Nat2N.id.
  - rewrite <- IH. f_equal. f_equal. apply N2Nat.inj. rewrite N2Nat.inj_div, !Nat2N.id. reflexivity.
Qed.

Lemma bitrev_lt k i : (bitrev k i < 2 ^ k)%nat.
Proof. rewrite <- brev_bitrev. apply brev_lt. Qed.
Lemma bitrev_invol k i : (i < 2 ^ k)%nat -> bitrev k (bitrev k i) = i.
Proof. rewrite <- !brev_bitrev. apply brev_invol. Qed.

Lemma nth_error_ext {A} (l1 l2 : list A) : (forall i, nth_error l1 i = nth_error l2 i) -> l1 = l2.
Proof.
  revert l2. induction l1 as [|x l1 IH]; intros [|y l2] H; auto.
  - specialize (H 0%nat). discriminate.
  - specialize (H 0%nat). discriminate.
  - f_equal; [now injection (H 0%nat)|]. apply IH. intros i. exact (H (S i)).
Qed.

Lemma bitrev_permutation {A} k (l l' : list A) :
  length l = (2 ^ k)%nat -> length l' = (2 ^ k)%nat ->
  (forall p, (p < 2 ^ k)%nat -> nth_error l' p = nth_error l (bitrev k p)) -> Permutation l l'.
Proof.
  intros H1 H2 H. apply Permutation_nth_error. split; [congruence|].
  exists (fun p => if Nat.ltb p (2 ^ k) then bitrev k p else p). split.
  - intros p q E. destruct (Nat.ltb_spec p (2 ^ k)) as [Lp|Lp], (Nat.ltb_spec q (2 ^ k)) as [Lq|Lq].
    + rewrite <- (bitrev_invol k p), <- (bitrev_invol k q) by auto. now rewrite E.
    + assert (B := bitrev_lt k p). lia.
    + assert (B := bitrev_lt k q). lia.
    + auto.
  - intros p. destruct (Nat.ltb_spec p (2 ^ k)) as [Lp|Lp]; [now apply H|].
    rewrite (proj2 (nth_error_None l' p)), (proj2 (nth_error_None l p)) by lia. reflexivity.
Qed.

Lemma nth_to_error {A} (l l' : list A) n f :
  length l = n -> length l' = n -> (forall p, (p < n)%nat -> (f p < n)%nat) ->
  (forall d p, (p < n)%nat -> nth p l' d = nth (f p) l d) ->
  forall p, (p < n)%nat -> nth_error l' p = nth_error l (f p).
Proof.
  intros H1 H2 Hf H p Hp. destruct l as [|x l]; [simpl in H1; lia|].
  rewrite (nth_error_nth' l' x) by lia. rewrite (nth_error_nth' (x :: l) x) by (rewrite H1; auto).
  now rewrite H.
Qed.

Lemma reverse_bit_order_correct {A} k (l : list A) :
  (k < 64)%nat -> length l = (2 ^ k)%nat ->
  exists l', reverse_bit_order l = Ok l' /\ length l' = (2 ^ k)%nat /\
    (forall p, (p < 2 ^ k)%nat -> nth_error l' p = nth_error l (bitrev k p)) /\
    Permutation l l' /\ reverse_bit_order l' = Ok l.
Proof.
  intros Hk HL.
  assert (P : (0 < 2 ^ k)%nat) by (apply Nat.neq_0_lt_0, Nat.pow_nonzero; lia).
  assert (main : forall l : list A, length l = (2 ^ k)%nat -> exists l', reverse_bit_order l = Ok l' /\
     length l' = (2 ^ k)%nat /\ forall p, (p < 2 ^ k)%nat -> nth_error l' p = nth_error l (bitrev k p)).
  { clear l HL. intros l HL. destruct l as [|x l0] eqn:El; [simpl in HL; lia|]. rewrite <- El in *.
    destruct (reverse_bit_order_spec x k l Hk HL) as (l' & E & L & I).
    exists l'. split; auto. split; [congruence|]. intros p Hp.
    assert (B := bitrev_lt k p).
    rewrite (nth_error_nth' l' x) by lia. rewrite (nth_error_nth' l x) by lia.
    rewrite I by auto. now rewrite brev_bitrev. }
  destruct (main l HL) as (l' & E & L & I).
  exists l'. split; auto. split; auto. split; auto. split; [now apply (bitrev_permutation k)|].
  destruct (main l' L) as (l2 & E2 & L2 & I2). rewrite E2. f_equal.
  apply nth_error_ext. intros p. destruct (Nat.lt_ge_cases p (2 ^ k)).
  - rewrite I2 by auto. rewrite I by apply bitrev_lt. now rewrite bitrev_invol.
  - rewrite (proj2 (nth_error_None l2 p)), (proj2 (nth_error_None l p)) by lia. reflexivity.
Qed.

Lemma reverse_bit_order_nil {A} : reverse_bit_order (@nil A) = Panic.
Proof. reflexivity. Qed.

Lemma mcl_order_singleton {A} (x : A) : mcl_order_by_rev_bit_order [x] = Panic.
Proof. reflexivity. Qed.

Lemma mcl_order_agrees {A} k (l : list A) :
  (0 < k < 64)%nat -> length l = (2 ^ k)%nat -> mcl_order_by_rev_bit_order l = reverse_bit_order l.
Proof.
  intros Hk HL.
  assert (P : (0 < 2 ^ k)%nat) by (apply Nat.neq_0_lt_0, Nat.pow_nonzero; lia).
  destruct l as [|x l0] eqn:El; [simpl in HL; lia|]. rewrite <- El in *.
  destruct (reverse_bit_order_spec x k l ltac:(lia) HL) as (l1 & E1 & L1 & I1).
  destruct (mcl_order_by_rev_bit_order_spec x k l Hk HL) as (l2 & E2 & L2 & I2).
  rewrite E1, E2. f_equal. apply (nth_ext' x); [congruence|].
  intros i Hi. rewrite I1, I2 by lia. reflexivity.
Qed.

Lemma log2_pow2_wrong k : 32 <= k -> k < 64 -> log2_pow2 (2 ^ k) = 0.
Proof.
  intros H1 H2.
  assert (H : forallb (fun n => log2_pow2 (2 ^ N.of_nat n) =? 0) (seq 32 32) = true)
    by (vm_compute; reflexivity).
  rewrite forallb_forall in H. specialize (H (N.to_nat k)).
  rewrite N2Nat.id in H. apply N.eqb_eq, H. apply in_seq. lia.
Qed.

Lemma next_power_of_two_overflow v : 2 ^ 63 < v -> v < 2 ^ 64 -> next_power_of_two v = Panic.
Proof.
  intros H0 H1. unfold next_power_of_two.
  destruct (N.eqb_spec v 0); [lia|].
  set (u0 := v - 1).
  set (u1 := N.lor u0 (N.shiftr u0 1)).
  set (u2 := N.lor u1 (N.shiftr u1 2)).
  set (u3 := N.lor u2 (N.shiftr u2 4)).
  set (u4 := N.lor u3 (N.shiftr u3 8)).
  set (u5 := N.lor u4 (N.shiftr u4 16)).
  set (u6 := N.lor u5 (N.shiftr u5 32)).
  assert (S6 : smeared 64 u0 u6).
  { assert (S0 := smeared_1 u0).
    apply smear_step in S0. change (2 * 1) with 2 in S0.
    apply smear_step in S0. change (2 * 2) with 4 in S0.
    apply smear_step in S0. change (2 * 4) with 8 in S0.
    apply smear_step in S0. change (2 * 8) with 16 in S0.
    apply smear_step in S0. change (2 * 16) with 32 in S0.
    apply smear_step in S0. change (2 * 32) with 64 in S0.
    exact S0. }
  rewrite (smeared_64 u0 u6 ltac:(unfold u0; lia) S6). unfold u0.
  destruct (N.eqb_spec (v - 1) 0); [lia|].
  assert (L : N.log2 (v - 1) = 63) by (apply N.log2_unique; lia).
  rewrite L. reflexivity.
Qed.
