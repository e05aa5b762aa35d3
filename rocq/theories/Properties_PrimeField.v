(** * Properties C117 and C118: what zkcrypto publishes about its scalar field, and the texts it prints *)
From Coq Require Import Ascii String List Bool ZArith.
From Verif Require Import Base Fld Tables Zr Zp Model_Scalar Spec_Scalar Model_PrimeField Proof_PrimeField Model_Fp Spec_Fp Model_Fp2 Model_Fp12 Spec_Show Model_Show Proof_Show Power Tower Ext Spec_Ext.
Import ListNotations.
Local Open Scope list_scope.
Local Open Scope Z_scope.

(** ** C117 *)
(** every scalar other than 0 is one power of the published generator, which is not a square *)
Theorem C117_generator : exists g, represents multiplicative_generator g /\
  (forall x, x <> f0 -> exists e, 0 <= e < r - 1 /\ Fr_pow g e = x /\ forall e', 0 <= e' < r - 1 -> Fr_pow g e' = x -> e' = e) /\
  (forall x, fmul x x <> g).
Proof. exact generator_ok. Qed.
Print Assumptions C117_generator.
(** the published root of unity is a power of it by an odd number, and has order 2^S *)
Theorem C117_root : exists g w t, represents multiplicative_generator g /\ represents root_of_unity w /\
  r - 1 = 2 ^ S_const * t /\ Z.odd t = true /\ w = Fr_pow g t /\ forall e, 0 <= e -> Fr_pow w e = f1 <-> (2 ^ S_const | e).
Proof. exact root_ok. Qed.
Print Assumptions C117_root.
(** the published numbers of bits *)
Theorem C117_bits : 2 ^ (NUM_BITS - 1) <= r < 2 ^ NUM_BITS /\
  (forall bs, is_bytes 32 bs -> bytes_val bs < 2 ^ CAPACITY -> exists s, from_repr bs = Some s /\ represents s (fr_of (bytes_val bs))) /\
  (exists bs, is_bytes 32 bs /\ bytes_val bs < 2 ^ (CAPACITY + 1) /\ from_repr bs = None).
Proof. exact bits_ok. Qed.
Print Assumptions C117_bits.
Theorem C117_repr : forall a x, represents a x ->
  is_bytes 32 (to_repr a) /\ bytes_val (to_repr a) = val x /\ from_repr (to_repr a) = Some a /\ into_bytes a = to_repr a.
Proof. exact repr_ok. Qed.
Print Assumptions C117_repr.
Theorem C117_odd : forall a x, represents a x -> is_odd a = Z.odd (val x).
Proof. exact odd_ok. Qed.
Print Assumptions C117_odd.
Theorem C117_sum : forall items xs, Forall2 represents items xs -> represents (sum items) (fold_right fadd f0 xs).
Proof. exact sum_ok. Qed.
Print Assumptions C117_sum.
(** r - 1 is even although its words in memory are odd, 1 is odd although its words are even; r - 1 and 3 sum to 2 *)
Example C117_ex : is_odd (neg one) = false /\ is_odd one = true /\ sum [neg one; from_u64 3] = from_u64 2 /\ sum [] = zero /\
  pow multiplicative_generator [0; 0; 0; 0] = one /\ to_repr multiplicative_generator = 7 :: repeat 0 31.
Proof. vm_compute. repeat split; reflexivity. Qed.

(** ** C118 *)
Theorem C118_scalar : forall a x, represents a x -> writes 64 (val x) (scalar_debug a) /\ scalar_display a = scalar_debug a.
Proof. exact (fun a x H => conj (scalar_text a x H) eq_refl). Qed.
Print Assumptions C118_scalar.
Theorem C118_base : forall a x, stands_for a x -> writes 96 (pval x) (fp_debug a).
Proof. exact fp_text. Qed.
Print Assumptions C118_base.
Theorem C118_extensions :
  (forall a x, stands_for2 a x -> writes2 x (fp2_debug a)) /\
  (forall a x, stands_for6 a x -> writes6 x (fp6_debug a)) /\
  (forall a x, stands_for12 a x -> writes12 x (fp12_debug a)).
Proof. exact (conj fp2_text (conj fp6_text fp12_text)). Qed.
Print Assumptions C118_extensions.
(** two elements print alike only if they are the same *)
Theorem C118_tells_apart :
  (forall a b x y, represents a x -> represents b y -> scalar_debug a = scalar_debug b <-> x = y) /\
  (forall a b x y, stands_for a x -> stands_for b y -> fp_debug a = fp_debug b <-> x = y) /\
  (forall a b x y, stands_for2 a x -> stands_for2 b y -> fp2_debug a = fp2_debug b <-> x = y) /\
  (forall a b x y, stands_for6 a x -> stands_for6 b y -> fp6_debug a = fp6_debug b <-> x = y) /\
  (forall a b x y, stands_for12 a x -> stands_for12 b y -> fp12_debug a = fp12_debug b <-> x = y).
Proof. exact (conj scalar_tells (conj fp_tells (conj fp2_tells (conj fp6_tells fp12_tells)))). Qed.
Print Assumptions C118_tells_apart.
(** words that are not below the modulus print like the words they reduce to, and are not equal to them *)
Theorem C118_unreduced_refuted : exists a b, scalar_debug a = scalar_debug b /\ ct_eq a b = false.
Proof. exact (ex_intro _ MODULUS (ex_intro _ zero modulus_text)). Qed.
Print Assumptions C118_unreduced_refuted.
Example C118_ex :
  scalar_debug (neg one) = lit "0x73eda753299d7d483339d80809a1d80553bda402fffe5bfeffffffff00000000" /\
  fp2_debug (FP2 fp_one fp_zero) = lit "0x000000000000000000000000000000000000000000000000000000000000000000000000000000000000000000000001 + 0x000000000000000000000000000000000000000000000000000000000000000000000000000000000000000000000000*u".
Proof. vm_compute. split; reflexivity. Qed.
