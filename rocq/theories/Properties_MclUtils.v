(** * Further theorems for C01 and C02: the integer helpers of the mcl backend *)
From Coq Require Import Arith NArith.
From Verif Require Import Base Model_Utils Model_Mcl Proof_MclUtils.
Local Open Scope N_scope.

Theorem C01_mcl_is_power_of_2 : forall n : N, (n = 0 -> mcl_is_power_of_2 n = Panic) /\
  (n <> 0 -> exists b, mcl_is_power_of_2 n = Ok b /\ (b = true <-> exists k, n = 2 ^ k)).
Proof. exact mcl_is_pow_all. Qed.
Print Assumptions C01_mcl_is_power_of_2.
Example C01_mcl_is_power_of_2_ex : mcl_is_power_of_2 4096 = Ok true /\ mcl_is_power_of_2 12 = Ok false.
Proof. split; reflexivity. Qed.

(** zero is rounded up to one, unlike in the blst backend *)
Theorem C01_mcl_next_pow_of_2 : forall x : N,
  (x <= 2 ^ 63 -> exists k, mcl_next_pow_of_2 x = Ok (2 ^ k) /\ x <= 2 ^ k /\ forall j, x <= 2 ^ j -> 2 ^ k <= 2 ^ j) /\
  (2 ^ 63 < x < 2 ^ 64 -> mcl_next_pow_of_2 x = Panic).
Proof. exact mcl_next_all. Qed.
Print Assumptions C01_mcl_next_pow_of_2.
Example C01_mcl_next_pow_of_2_ex : mcl_next_pow_of_2 0 = Ok 1 /\ mcl_next_pow_of_2 1025 = Ok 2048 /\ mcl_next_pow_of_2 (2 ^ 63) = Ok (2 ^ 63).
Proof. repeat split. Qed.

Theorem C02_mcl_log_2 : forall x : N, x < 2 ^ 64 -> mcl_log_2 x = N.log2 x.
Proof. exact mcl_log_2_all. Qed.
Print Assumptions C02_mcl_log_2.
Example C02_mcl_log_2_ex : mcl_log_2 0x123456789 = 32 /\ mcl_log_2 0 = 0.
Proof. split; reflexivity. Qed.
