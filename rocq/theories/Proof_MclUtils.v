(** * Proof_MclUtils: the integer helpers of the mcl backend *)
From Coq Require Import Arith NArith Lia.
From Verif Require Import Base Model_Utils Proof_Utils Model_Mcl Proof_Mcl.
Local Open Scope N_scope.

Lemma mcl_is_pow_all n : (n = 0 -> mcl_is_power_of_2 n = Panic) /\
  (n <> 0 -> exists b, mcl_is_power_of_2 n = Ok b /\ (b = true <-> exists k, n = 2 ^ k)).
Proof.
  split; [intros ->; reflexivity|]. intros H. exists (is_power_of_two n).
  split; [now apply mcl_is_power_of_2_spec|apply is_power_of_two_spec].
Qed.

Lemma mcl_log_2_all x : x < 2 ^ 64 -> mcl_log_2 x = N.log2 x.
Proof. intros H. destruct (N.eq_dec x 0) as [->|E]; [reflexivity|]. apply mcl_log_2_spec. lia. Qed.

Lemma mcl_next_all x :
  (x <= 2 ^ 63 -> exists k, mcl_next_pow_of_2 x = Ok (2 ^ k) /\ x <= 2 ^ k /\ forall j, x <= 2 ^ j -> 2 ^ k <= 2 ^ j) /\
  (2 ^ 63 < x < 2 ^ 64 -> mcl_next_pow_of_2 x = Panic).
Proof.
  split.
  - intros H. destruct (mcl_next_pow_spec (N.to_nat x)) as (m & E & L & M); [now rewrite N2Nat.id|].
    rewrite N2Nat.id in E. exists (N.of_nat m).
    assert (P : forall j, N.of_nat (2 ^ j) = 2 ^ N.of_nat j) by (intros j; rewrite Nat2N.inj_pow; reflexivity).
    rewrite <- P. repeat split; auto; [lia|].
    intros j Hj. rewrite P. apply N.pow_le_mono_r; [lia|].
    destruct M as [->|M]; [lia|].
    assert (Q : 2 ^ N.of_nat (m - 1) < 2 ^ j) by (rewrite <- P; lia).
    apply N.pow_lt_mono_r_iff in Q; lia.
  - intros H. unfold mcl_next_pow_of_2. destruct (N.eqb_spec x 0); [lia|].
    rewrite mcl_is_power_of_2_spec by auto. cbn [bind].
    assert (L : N.log2 x = 63) by (apply N.log2_unique; [lia|]; change (N.succ 63) with 64; lia).
    destruct (is_power_of_two x) eqn:P.
    + apply is_power_of_two_spec in P as (k & ->). exfalso.
      rewrite N.log2_pow2 in L by lia. subst k. lia.
    + rewrite mcl_log_2_all by lia. rewrite L. reflexivity.
Qed.
