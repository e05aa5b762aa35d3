(** * Spec_ZkWordsFK: transforms of points of the curve, and the scalars that batch proofs multiply by *)
From Coq Require Import List Arith ZArith.
From Verif Require Import Base Fld Zr ZrTables Zp Poly Spec_Curve Model_Curve Model_G1 Spec_CurveCode Spec_G1 Model_Zk Model_ZkWords Spec Proof_FFTFr.
Import ListNotations.

(** f 0 + ... + f (n - 1) *)
Fixpoint point_sum (n : nat) (f : nat -> point Fp) : point Fp :=
  match n with O => Infinity | S n' => point_add (point_sum n' f) (f n') end.
(** the generator of the roots of unity of order 2^m that a transform uses ([root], Proof_FFTFr.v, is
    the entry of the table) *)
Definition transform_root (inverse : bool) (m : nat) : Fr := if inverse then finv (root m) else root m.
(** entry i of the (inverse) discrete Fourier transform of 2^m points *)
Definition transform_point (inverse : bool) (m : nat) (Ps : list (point Fp)) (i : nat) : point Fp :=
  let sum := point_sum (2 ^ m) (fun j => point_zmul (val (fpow (transform_root inverse m) (i * j))) (nth j Ps Infinity)) in
  if inverse then point_zmul (val (finv (fnat (2 ^ m) : Fr))) sum else sum.
(** no root of unity that a transform of 2^m points multiplies by is a scalar for which that
    multiplication goes wrong (property C87) *)
Definition safe_transform (inverse : bool) (m : nat) : Prop :=
  forall i, 2 * i < 2 ^ m -> ~ rounding_carries (val (fpow (transform_root inverse m) i)).
Definition safe_transforms (m : nat) : Prop := safe_transform false m /\ safe_transform true m.

(** the vector of 2 * c coefficients, for chunks of [len] elements, of a polynomial of c * len coefficients *)
Definition circulant (p : list Fr) (c len offset : nat) : list Fr :=
  map (fun i => if i =? 0 then coef p (c * len - 1 - offset)
                else if i <? c + 2 then f0 else coef p ((i - c) * len - offset - 1)) (seq 0 (c * 2)).
(** multiplier i of a batch of 2^(e+1) proofs: entry i of the transform of that vector *)
Definition multiplier (p : list Fr) (e len offset i : nat) : Fr :=
  peval (circulant p (2 ^ e) len offset) (fpow (root (S e)) i).
Definition safe_multipliers (p : list Fr) (e len : nat) : Prop :=
  forall offset i, offset < len -> i < 2 ^ S e -> ~ rounding_carries (val (multiplier p e len offset i)).

(** the words [out] hold n points, the i-th being [f i] *)
Definition holds (out : list g1_projective) (n : nat) (f : nat -> point Fp) : Prop :=
  length out = n /\ forall i, i < n -> exists w, nth_error out i = Some w /\ g1_stands w (f i).
(** [out] holds the 2^(e+1) proofs, for chunks of [len] values, of the polynomial [p] of 2^m coefficients:
    the i-th is the point that the function for one proof computes at the i-th power of the root of
    unity of order 2^(m+1); the zero polynomial, which that function refuses, gets points at infinity *)
Definition right_batch (ks : zkw_settings) (p : list Fr) (m e len : nat) (out : list g1_projective) : Prop :=
  length out = 2 ^ S e /\
  ((exists i, coef p i <> f0) -> forall i, i < 2 ^ S e -> exists w pf A,
     nth_error out i = Some w /\ zkw_compute_proof_multi zk_table ks p (fpow (root (S m)) i) len = Ok pf /\
     g1_subgroup A /\ g1_stands pf A /\ g1_stands w A) /\
  ((forall i, coef p i = f0) -> forall i, i < 2 ^ S e -> exists w, nth_error out i = Some w /\ g1_stands w Infinity).
(** the same list in bit-reversed order *)
Definition reversed (e : nat) (out rev : list g1_projective) : Prop :=
  length rev = 2 ^ S e /\ forall i, i < 2 ^ S e -> nth_error rev i = nth_error out (bitrev (S e) i).
(** the polynomial c * X^(2^m - 1) *)
Definition monomial (m : nat) (c : Fr) : list Fr := repeat f0 (2 ^ m - 1) ++ [c].
