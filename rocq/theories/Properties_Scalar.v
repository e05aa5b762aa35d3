(** * Properties C41-C43, C48, C49 and the scalar parts of C04 and C27: limb arithmetic *)
From Coq Require Import ZArith List.
From Verif Require Import Base Fld Tables Zr Model_Scalar Spec_Scalar Proof_Scalar5.
Import ListNotations.
Local Open Scope Z_scope.

(** canonical limb quadruples and field elements correspond one to one *)
Theorem C41_representation :
  (forall s n, limbs s n -> n < r -> exists x, represents s x /\ forall y, represents s y -> y = x) /\
  (forall x, exists s, represents s x /\ forall t, represents t x -> t = s).
Proof. exact C41_representation_proof. Qed.
Print Assumptions C41_representation.

Theorem C41_operations : forall a b x y, represents a x -> represents b y ->
  represents (add a b) (fadd x y) /\ represents (sub a b) (fsub x y) /\ represents (mul a b) (fmul x y) /\
  represents (neg a) (fneg x) /\ represents (double a) (fadd x x) /\ represents (square a) (fmul x x) /\
  represents zero f0 /\ represents one f1 /\ (ct_eq a b = true <-> x = y).
Proof. exact C41_operations_proof. Qed.
Print Assumptions C41_operations.
(** r - 1 and 2: carries through all limbs, sum 1, product r - 2 *)
Example C41_ex : represents (from_u64 2) (fr_of 2) /\ represents (neg one) (fr_of (r - 1)) /\
  add (neg one) (from_u64 2) = one /\ mul (neg one) (from_u64 2) = neg (from_u64 2).
Proof. vm_compute. repeat split; reflexivity || discriminate. Qed.

Theorem C42_encode : forall a x, represents a x ->
  is_bytes 32 (to_bytes a) /\ bytes_val (to_bytes a) = val x /\ from_bytes (to_bytes a) = Some a.
Proof. exact C42_encode_proof. Qed.
Print Assumptions C42_encode.
Theorem C42_decode : forall bs, is_bytes 32 bs ->
  (bytes_val bs < r -> exists s, from_bytes bs = Some s /\ represents s (fr_of (bytes_val bs)) /\ to_bytes s = bs) /\
  (r <= bytes_val bs -> from_bytes bs = None).
Proof. exact C42_decode_proof. Qed.
Print Assumptions C42_decode.
Theorem C42_wide : forall bs, is_bytes 64 bs -> represents (from_bytes_wide bs) (fr_of (bytes_val bs)).
Proof. exact C42_wide_proof. Qed.
Print Assumptions C42_wide.
Theorem C42_words : forall l0 l1 l2 l3 n, limbs (Scalar l0 l1 l2 l3) n ->
  represents (from_raw l0 l1 l2 l3) (fr_of n) /\ represents (from_u64 l0) (fr_of l0).
Proof. exact C42_words_proof. Qed.
Print Assumptions C42_words.
Theorem C42_limbs : forall a x, represents a x ->
  exists l0 l1 l2 l3, to_u64_arr a = [l0; l1; l2; l3] /\ limbs (Scalar l0 l1 l2 l3) (val x).
Proof. exact C42_limbs_proof. Qed.
Print Assumptions C42_limbs.
(** r - 1 decodes, r and 2^256 - 1 do not, 2^512 - 1 is reduced *)
Example C42_ex :
  from_bytes (to_bytes (neg one)) = Some (neg one) /\
  from_bytes (1 :: tl (to_bytes (neg one))) = None /\ bytes_val (1 :: tl (to_bytes (neg one))) = r /\
  from_bytes (repeat 255 32) = None /\
  to_bytes (from_bytes_wide (repeat 255 64)) = to_bytes (sub R3 R).
Proof. vm_compute. repeat split; reflexivity. Qed.

Theorem C43_invert : forall a x, represents a x ->
  (x = f0 -> invert a = None /\ zk_inverse a = Panic) /\
  (x <> f0 -> exists t, invert a = Some t /\ zk_inverse a = Ok t /\ represents t (finv x) /\ fmul x (finv x) = f1).
Proof. exact C43_invert_proof. Qed.
Print Assumptions C43_invert.
Theorem C43_powers : forall a x e0 e1 e2 e3 e, represents a x -> limbs (Scalar e0 e1 e2 e3) e ->
  represents (pow a [e0; e1; e2; e3]) (Fr_pow x e) /\ represents (pow_vartime a [e0; e1; e2; e3]) (Fr_pow x e).
Proof. exact C43_pow_proof. Qed.
Print Assumptions C43_powers.
(** division never fails: a zero divisor gives Ok(0) *)
Theorem C43_division : forall a b x y, represents a x -> represents b y ->
  exists t, zk_div a b = Ok t /\ (y <> f0 -> represents t (fdiv x y)) /\ (y = f0 -> represents t f0).
Proof. exact C43_div_proof. Qed.
Print Assumptions C43_division.
Example C43_ex : invert zero = None /\
  match invert (from_u64 2) with Some t => mul t (from_u64 2) = one | None => False end /\
  pow (from_u64 3) [5; 0; 0; 0] = from_u64 243 /\ pow_vartime (from_u64 3) [0; 0; 0; 0] = one /\
  match zk_div (from_u64 6) (from_u64 3) with Ok t => t = from_u64 2 | _ => False end.
Proof. vm_compute. repeat split; reflexivity. Qed.

(** C04 for the zkcrypto backend, every usize exponent *)
Theorem C04_pow_zkcrypto : forall a x n, represents a x -> 0 <= n < 2 ^ 64 ->
  exists s, zk_pow a n = Ok s /\ represents s (fpow x (Z.to_nat n)).
Proof. exact C04_zk_proof. Qed.
Print Assumptions C04_pow_zkcrypto.
Example C04_zk_ex : zk_pow (from_u64 3) 5 = Ok (from_u64 243) /\ zk_pow (from_u64 3) 0 = Ok one.
Proof. vm_compute. split; reflexivity. Qed.

(** square roots exist exactly for squares *)
Theorem C48_sqrt : forall a y, represents a y ->
  ((exists x, fmul x x = y) -> exists s x, sqrt a = Some s /\ represents s x /\ fmul x x = y) /\
  (~ (exists x, fmul x x = y) -> sqrt a = None).
Proof. exact C48_proof. Qed.
Print Assumptions C48_sqrt.
Example C48_ex : sqrt GENERATOR = None /\
  option_map square (sqrt (from_u64 4)) = Some (from_u64 4).
Proof. vm_compute. split; reflexivity. Qed.

(** right shift of the limbs, and the conversion out of Montgomery form used before it *)
Theorem C49_shift : forall a m n, limbs a m -> 0 <= n -> exists s, divn a n = Ok s /\ limbs s (m / 2 ^ n).
Proof. exact C49_divn_proof. Qed.
Print Assumptions C49_shift.
Theorem C49_reduce : forall a x, represents a x -> limbs (reduce a) (val x).
Proof. exact C49_reduce_proof. Qed.
Print Assumptions C49_reduce.
Example C49_ex : divn (Scalar 0 0 5 0) 130 = Ok (Scalar 1 0 0 0) /\ divn (Scalar 7 7 7 7) 256 = Ok (Scalar 0 0 0 0) /\
  divn (Scalar 1 3 0 0) 1 = Ok (Scalar (2 ^ 63) 1 0 0).
Proof. vm_compute. repeat split; reflexivity. Qed.

(** C27 for the zkcrypto backend: the sentinel is not a field element *)
Theorem C27_null_zkcrypto : forall a x, represents a x ->
  is_null a = false /\ is_null null = true /\ forall y, ~ represents null y.
Proof. exact C27_zk_proof. Qed.
Print Assumptions C27_null_zkcrypto.
Example C27_zk_ex : is_null (neg one) = false. Proof. reflexivity. Qed.
