(** * Spec_Fp: what a six-limb base field element stands for *)
From Coq Require Import ZArith List.
From Verif Require Import Base Fld Tables Zp Model_Fp.
Import ListNotations.
Local Open Scope Z_scope.

(** the 384-bit integer in the limbs, provided every limb is a 64-bit word *)
Definition limbs6 (s : fp) (n : Z) : Prop :=
  let '(FP l0 l1 l2 l3 l4 l5) := s in
  0 <= l0 < 2 ^ 64 /\ 0 <= l1 < 2 ^ 64 /\ 0 <= l2 < 2 ^ 64 /\ 0 <= l3 < 2 ^ 64 /\ 0 <= l4 < 2 ^ 64 /\ 0 <= l5 < 2 ^ 64 /\
  n = limbs_val [l0; l1; l2; l3; l4; l5].

(** Montgomery form: the limbs hold x * 2^384 reduced modulo p *)
Definition stands_for (s : fp) (x : Fp) : Prop := limbs6 s ((pval x * 2 ^ 384) mod p).

(** the power of a field element by a non-negative integer *)
Definition Fp_pow (x : Fp) (e : Z) : Fp := fp_of (pval x ^ e).

(** integer value of a big-endian byte string *)
Definition be_val (bs : list Z) : Z := fold_left (fun acc b => 256 * acc + b) bs 0.
