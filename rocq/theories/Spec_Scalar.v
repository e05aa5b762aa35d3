(** * Spec_Scalar: what a four-limb scalar stands for *)
From Coq Require Import ZArith List.
From Verif Require Import Base Fld Tables Zr Model_Scalar.
Import ListNotations.
Local Open Scope Z_scope.

(** the 256-bit integer in the limbs, provided every limb is a 64-bit word *)
Definition limbs (s : scalar) (n : Z) : Prop :=
  let '(Scalar l0 l1 l2 l3) := s in
  0 <= l0 < 2 ^ 64 /\ 0 <= l1 < 2 ^ 64 /\ 0 <= l2 < 2 ^ 64 /\ 0 <= l3 < 2 ^ 64 /\
  n = limbs_val [l0; l1; l2; l3].

(** Montgomery form: the limbs hold x * 2^256 reduced modulo r *)
Definition represents (s : scalar) (x : Fr) : Prop := limbs s ((val x * 2 ^ 256) mod r).

(** the power of a field element by a non-negative integer *)
Definition Fr_pow (x : Fr) (e : Z) : Fr := fr_of (val x ^ e).

(** integer value of a little-endian byte string *)
Fixpoint bytes_val (bs : list Z) : Z := match bs with [] => 0 | b :: t => b + 256 * bytes_val t end.
Definition is_bytes (n : nat) (bs : list Z) : Prop := length bs = n /\ Forall (fun b => 0 <= b < 256) bs.
