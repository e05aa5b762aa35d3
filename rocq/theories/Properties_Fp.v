(** * Properties_Fp: base field of the curve (zkcrypto/src/curve/fp.rs), C83-C85 *)
From Coq Require Import ZArith Znumtheory List Bool.
From Verif Require Import Base Fld Tables Zp Model_Fp Spec_Scalar Spec_Fp Proof_FpRep Proof_FpTop.
Import ListNotations.
Local Open Scope Z_scope.

(** ** C83: the limbs are the field *)
(** the modulus is prime *)
Theorem C83_prime : prime p.
Proof. exact @p_prime. Qed.
Print Assumptions C83_prime.
(** every residue has exactly one representation, and the representations are the six-word numbers below p *)
Theorem C83_one_to_one : (forall x : Fp, exists s, stands_for s x) /\
  (forall s (x y : Fp), stands_for s x -> stands_for s y -> x = y) /\
  (forall s t (x : Fp), stands_for s x -> stands_for t x -> s = t) /\
  (forall s n, limbs6 s n -> n < p -> exists x : Fp, stands_for s x).
Proof. exact @fp_one_to_one. Qed.
Print Assumptions C83_one_to_one.
(** ring operations and selection *)
Theorem C83_ring : forall a b (x y : Fp),
  stands_for a x -> stands_for b y ->
  stands_for (fp_add a b) (fadd x y) /\ stands_for (fp_sub a b) (fsub x y) /\ stands_for (fp_neg a) (fneg x) /\
  stands_for (fp_mul a b) (fmul x y) /\ stands_for (fp_square a) (fmul x x) /\
  (forall c, stands_for (fp_select a b c) (if c then y else x)).
Proof. exact @fp_ring_ops. Qed.
Print Assumptions C83_ring.
Theorem C83_constants : stands_for fp_zero f0 /\ stands_for fp_one f1.
Proof. exact @fp_constants. Qed.
Print Assumptions C83_constants.
Theorem C83_equality : forall a b (x y : Fp),
  stands_for a x -> stands_for b y ->
  (fp_eq a b = true <-> x = y) /\ (fp_is_zero a = true <-> x = f0).
Proof. exact @fp_equality. Qed.
Print Assumptions C83_equality.
Example C83_ex : stands_for (FP 0xab09000000050002 0xf1b5 0 0 0 0) (fdiv (fp_of (0xab09000000050002 + 2 ^ 64 * 0xf1b5)) (fp_of (2 ^ 384))) /\
  fp_neg fp_zero = fp_zero /\ fp_add fp_one (fp_neg fp_one) = fp_zero /\
  fp_sub fp_zero fp_one = fp_neg fp_one /\ fp_eq (fp_neg fp_one) fp_one = false.
Proof.
  split; [|vm_compute; repeat split].
  apply stands_for_frep. apply (fcanonical_frep (FP 0xab09000000050002 0xf1b5 0 0 0 0)). vm_compute.
  repeat split; discriminate.
Qed.

(** ** C84: bytes *)
Theorem C84_encode : forall a (x : Fp),
  stands_for a x ->
  is_bytes 48 (fp_to_bytes a) /\ be_val (fp_to_bytes a) = pval x.
Proof. exact @fp_encode. Qed.
Print Assumptions C84_encode.
Theorem C84_decode : forall bs,
  is_bytes 48 bs ->
  (be_val bs < p -> exists s, fp_from_bytes bs = Some s /\ stands_for s (fp_of (be_val bs))) /\
  (p <= be_val bs -> fp_from_bytes bs = None).
Proof. exact @fp_decode. Qed.
Print Assumptions C84_decode.
Theorem C84_roundtrip : (forall a (x : Fp), stands_for a x -> fp_from_bytes (fp_to_bytes a) = Some a) /\
  (forall bs a, is_bytes 48 bs -> fp_from_bytes bs = Some a -> fp_to_bytes a = bs).
Proof. exact @fp_roundtrip. Qed.
Print Assumptions C84_roundtrip.
(** the sign bit of the point encodings: true exactly when the canonical integer exceeds that of the negative *)
Theorem C84_lexicographic : forall a (x : Fp),
  stands_for a x ->
  (fp_lexicographically_largest a = true <-> pval (fneg x) < pval x).
Proof. exact @fp_lexicographic. Qed.
Print Assumptions C84_lexicographic.
(** reduction of twelve words: the first six words count once, the last six 2^384 times *)
Theorem C84_from_wide : forall h l hn ln,
  limbs6 h hn -> limbs6 l ln ->
  let '(FP h5 h4 h3 h2 h1 h0) := h in let '(FP l5 l4 l3 l2 l1 l0) := l in
  stands_for (fp_from_u768 h0 h1 h2 h3 h4 h5 l0 l1 l2 l3 l4 l5) (fp_of (hn + 2 ^ 384 * ln)).
Proof. exact @fp_from_wide. Qed.
Print Assumptions C84_from_wide.
(** the documentation promises a big-endian number, i.e. the first six words counted 2^384 times *)
Theorem C84_from_wide_documented_refuted : exists h l hn ln, limbs6 h hn /\ limbs6 l ln /\
  let '(FP h5 h4 h3 h2 h1 h0) := h in let '(FP l5 l4 l3 l2 l1 l0) := l in
  ~ stands_for (fp_from_u768 h0 h1 h2 h3 h4 h5 l0 l1 l2 l3 l4 l5) (fp_of (2 ^ 384 * hn + ln)).
Proof. exact @fp_from_wide_documented_refuted. Qed.
Print Assumptions C84_from_wide_documented_refuted.
Example C84_ex :
  fp_from_bytes (repeat 0 47 ++ [1]) = Some fp_one /\ fp_to_bytes fp_one = repeat 0 47 ++ [1] /\
  fp_from_bytes (repeat 255 48) = None /\
  fp_lexicographically_largest fp_one = false /\ fp_lexicographically_largest (fp_neg fp_one) = true /\
  fp_lexicographically_largest fp_zero = false.
Proof. vm_compute. repeat split. Qed.

(** ** C85: inverse, powers and square roots *)
Theorem C85_inverse : forall a (x : Fp),
  stands_for a x ->
  (x = f0 -> fp_invert a = None) /\ (x <> f0 -> exists t, fp_invert a = Some t /\ stands_for t (finv x)).
Proof. exact @fp_inverse. Qed.
Print Assumptions C85_inverse.
Theorem C85_power : forall a (x : Fp) ws,
  stands_for a x -> Forall (fun w => 0 <= w < 2 ^ 64) ws ->
  stands_for (fp_pow_vartime a ws) (Fp_pow x (limbs_val ws)).
Proof. exact @fp_power. Qed.
Print Assumptions C85_power.
Theorem C85_sqrt : forall a (y : Fp),
  stands_for a y ->
  ((exists x, fmul x x = y) -> exists s x, fp_sqrt a = Some s /\ stands_for s x /\ fmul x x = y) /\
  (~ (exists x, fmul x x = y) -> fp_sqrt a = None).
Proof. exact @fp_square_root. Qed.
Print Assumptions C85_sqrt.
Example C85_ex :
  fp_invert fp_zero = None /\
  (exists t, fp_invert (fp_add fp_one fp_one) = Some t /\ fp_mul t (fp_add fp_one fp_one) = fp_one) /\
  (exists s, fp_sqrt (fp_mul (fp_add fp_one fp_one) (fp_add fp_one fp_one)) = Some s) /\
  fp_sqrt (fp_neg fp_one) = None.
Proof. exact fp_root_cases. Qed.
