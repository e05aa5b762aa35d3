(** * Proof_RevLimited: reversal of as many bits as a length has *)
From Coq Require Import Arith NArith Lia.
From Verif Require Import Base Model_Utils Proof_Utils Model_Mcl.
Local Open Scope N_scope.

Lemma leading_zeros_size k n : 0 < k <= 64 -> 2 ^ (k - 1) <= n < 2 ^ k -> leading_zeros n = 64 - k.
Proof.
  intros Hk Hn. assert (P : 2 ^ (k - 1) <> 0) by (apply N.pow_nonzero; lia).
  unfold leading_zeros. destruct (N.eqb_spec n 0); [lia|].
  assert (E : N.log2 n = k - 1); [|lia].
  apply N.log2_unique; [lia|]. replace (N.succ (k - 1)) with k by lia. exact Hn.
Qed.

Lemma rev_limited_value k n v : 0 < k <= 64 -> 2 ^ (k - 1) <= n < 2 ^ k -> v < 2 ^ k ->
  mcl_reverse_bits_limited n v = Ok (rbits (N.to_nat k) v).
Proof.
  intros Hk Hn Hv. unfold mcl_reverse_bits_limited. rewrite (leading_zeros_size k n Hk Hn).
  unfold shr. destruct (N.ltb_spec (64 - k) 64); [|lia].
  rewrite reverse_bits_shift by (lia || auto). reflexivity.
Qed.

Lemma rev_limited_spec k n v : 0 < k <= 64 -> 2 ^ (k - 1) <= n < 2 ^ k -> v < 2 ^ k ->
  exists y, mcl_reverse_bits_limited n v = Ok y /\ y < 2 ^ k /\
    (forall j, j < k -> N.testbit y j = N.testbit v (k - 1 - j)) /\
    mcl_reverse_bits_limited n y = Ok v.
Proof.
  intros Hk Hn Hv. exists (rbits (N.to_nat k) v).
  assert (L := rbits_lt (N.to_nat k) v). rewrite N2Nat.id in L.
  repeat split; auto.
  - now apply rev_limited_value.
  - intros j Hj. rewrite rbits_testbit by lia. now rewrite N2Nat.id.
  - rewrite (rev_limited_value k) by auto. rewrite rbits_invol by (now rewrite N2Nat.id). reflexivity.
Qed.

Lemma rev_limited_zero v : mcl_reverse_bits_limited 0 v = Panic.
Proof. reflexivity. Qed.
