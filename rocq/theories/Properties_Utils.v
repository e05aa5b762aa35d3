(** * Properties C01-C03: integer helpers and bit reversal *)
From Coq Require Import Arith NArith List Permutation Lia.
From Verif Require Import Base Model_Utils Spec Proof_Utils Proof_MinMax Model_Mcl Proof_RevLimited.
Import ListNotations.
Local Open Scope N_scope.

Theorem C01_is_power_of_two : forall n : N,
  is_power_of_two n = true <-> exists k, n = 2 ^ k.
Proof. exact is_power_of_two_spec. Qed.
Print Assumptions C01_is_power_of_two.
Example C01_is_power_of_two_ex : is_power_of_two 4096 = true /\ is_power_of_two 0 = false /\ is_power_of_two 12 = false.
Proof. repeat split. Qed.

Theorem C01_next_power_of_two : forall v : N,
  0 < v -> v <= 2 ^ 63 ->
  exists k, next_power_of_two v = Ok (2 ^ k) /\ v <= 2 ^ k /\ (forall j, v <= 2 ^ j -> 2 ^ k <= 2 ^ j).
Proof. exact next_power_of_two_spec. Qed.
Print Assumptions C01_next_power_of_two.
Example C01_next_power_of_two_ex : next_power_of_two 1025 = Ok 2048 /\ next_power_of_two 1024 = Ok 1024.
Proof. split; reflexivity. Qed.

(** outside that range the helper panics (overflow checks) *)
Theorem C01_next_power_of_two_panics : forall v : N,
  v = 0 \/ (2 ^ 63 < v /\ v < 2 ^ 64) -> next_power_of_two v = Panic.
Proof. intros v [-> | [H1 H2]]; [exact next_power_of_two_zero | exact (next_power_of_two_overflow v H1 H2)]. Qed.
Print Assumptions C01_next_power_of_two_panics.
Example C01_next_power_of_two_panics_ex : next_power_of_two (2 ^ 63 + 1) = Panic.
Proof. reflexivity. Qed.

(** the smaller and the larger of two sizes *)
Theorem C01_min_max : forall a b : nat,
  (min_u64 a b <= a /\ min_u64 a b <= b /\ (min_u64 a b = a \/ min_u64 a b = b))%nat /\
  (a <= max_u64 a b /\ b <= max_u64 a b /\ (max_u64 a b = a \/ max_u64 a b = b))%nat.
Proof. exact min_max_spec. Qed.
Print Assumptions C01_min_max.
Example C01_min_max_ex : (min_u64 5 3 = 3 /\ max_u64 5 3 = 5 /\ max_u64 3 5 = 5)%nat.
Proof. repeat split. Qed.

Theorem C02_log_2_byte : forall b : N, 0 < b -> b < 256 -> log_2_byte b = N.log2 b.
Proof. exact log_2_byte_spec. Qed.
Print Assumptions C02_log_2_byte.
Example C02_log_2_byte_ex : log_2_byte 0x93 = 7.
Proof. reflexivity. Qed.

Theorem C02_log2_u64 : forall n : N, 0 < n -> n < 2 ^ 64 -> log2_u64 n = Ok (N.log2 n).
Proof. exact log2_u64_spec. Qed.
Print Assumptions C02_log2_u64.
Example C02_log2_u64_ex : log2_u64 0x123456789 = Ok 32.
Proof. reflexivity. Qed.

Theorem C02_log2_pow2 : forall k : N, k < 32 -> log2_pow2 (2 ^ k) = k.
Proof. exact log2_pow2_spec. Qed.
Print Assumptions C02_log2_pow2.
Example C02_log2_pow2_ex : log2_pow2 (2 ^ 31) = 31.
Proof. reflexivity. Qed.

(** ... and is wrong for every larger 64-bit power of two *)
Theorem C02_log2_pow2_large_refuted : forall k : N, 32 <= k -> k < 64 -> log2_pow2 (2 ^ k) = 0.
Proof. exact log2_pow2_wrong. Qed.
Print Assumptions C02_log2_pow2_large_refuted.
Example C02_log2_pow2_large_ex : log2_pow2 (2 ^ 32) = 0.
Proof. reflexivity. Qed.

Theorem C03_reverse_bit_order : forall (A : Type) (k : nat) (l : list A),
  (k < 64)%nat -> length l = (2 ^ k)%nat ->
  exists l', reverse_bit_order l = Ok l' /\ length l' = (2 ^ k)%nat /\
    (forall p, (p < 2 ^ k)%nat -> nth_error l' p = nth_error l (bitrev k p)) /\
    Permutation l l' /\ reverse_bit_order l' = Ok l.
Proof. exact @reverse_bit_order_correct. Qed.
Print Assumptions C03_reverse_bit_order.
Example C03_reverse_bit_order_ex : reverse_bit_order [10; 11; 12; 13; 14; 15; 16; 17] = Ok [10; 14; 12; 16; 11; 15; 13; 17].
Proof. reflexivity. Qed.

(** the mcl variant is the same function on every length [2^k], [k >= 1] ... *)
Theorem C03_mcl_agrees : forall (A : Type) (k : nat) (l : list A),
  (0 < k < 64)%nat -> length l = (2 ^ k)%nat -> mcl_order_by_rev_bit_order l = reverse_bit_order l.
Proof. exact @mcl_order_agrees. Qed.
Print Assumptions C03_mcl_agrees.
Example C03_mcl_agrees_ex : mcl_order_by_rev_bit_order [1; 2; 3; 4] = Ok [1; 3; 2; 4].
Proof. reflexivity. Qed.

(** ... but panics on one-element vectors, as blst's panics on empty ones *)
Theorem C03_degenerate_refuted :
  (forall (A : Type) (x : A), mcl_order_by_rev_bit_order [x] = Panic) /\
  (forall A : Type, reverse_bit_order (@nil A) = Panic).
Proof. exact (conj (@mcl_order_singleton) (@reverse_bit_order_nil)). Qed.
Print Assumptions C03_degenerate_refuted.

(** mcl's [reverse_bits_limited] reverses as many bits as its first argument has, and is its own inverse ... *)
Theorem C03_limited : forall k n v : N, 0 < k <= 64 -> 2 ^ (k - 1) <= n < 2 ^ k -> v < 2 ^ k ->
  exists y, mcl_reverse_bits_limited n v = Ok y /\ y < 2 ^ k /\
    (forall j, j < k -> N.testbit y j = N.testbit v (k - 1 - j)) /\
    mcl_reverse_bits_limited n y = Ok v.
Proof. exact rev_limited_spec. Qed.
Print Assumptions C03_limited.
(** four bits for the lengths 15 and 8, so a caller with eight positions has to pass 7 *)
Example C03_limited_ex : mcl_reverse_bits_limited 15 3 = Ok 12 /\ mcl_reverse_bits_limited 8 3 = Ok 12 /\ mcl_reverse_bits_limited 7 3 = Ok 6.
Proof. repeat split. Qed.

(** ... and panics for the length zero *)
Theorem C03_limited_zero_refuted : forall v : N, mcl_reverse_bits_limited 0 v = Panic.
Proof. exact rev_limited_zero. Qed.
Print Assumptions C03_limited_zero_refuted.
