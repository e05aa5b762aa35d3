(** * Proof_MinMax: the smaller and the larger of two sizes *)
From Coq Require Import Arith Lia.
From Verif Require Import Model_Utils.

Lemma min_max_spec (a b : nat) :
  (min_u64 a b <= a /\ min_u64 a b <= b /\ (min_u64 a b = a \/ min_u64 a b = b)) /\
  (a <= max_u64 a b /\ b <= max_u64 a b /\ (max_u64 a b = a \/ max_u64 a b = b)).
Proof. unfold min_u64, max_u64. destruct (Nat.ltb_spec a b); lia. Qed.
