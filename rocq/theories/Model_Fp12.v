(** * Model_Fp12: zkcrypto/src/curve/fp6.rs and fp12.rs, the cubic and quadratic steps of the tower *)
From Coq Require Import ZArith List Bool.
From Verif Require Import Base Model_Scalar Model_Fp Model_Fp2.
Import ListNotations.
Local Open Scope Z_scope.

(** ** fp6.rs *)
(** fp6.rs:196-200 *)
Inductive fp6 := FP6 (c0 c1 c2 : fp2).
(** fp6.rs:203-219 [from] *)
Definition fp6_from_fp2 (f : fp2) : fp6 := FP6 f fp2_zero fp2_zero.
Definition fp6_from_fp (f : fp) : fp6 := FP6 (fp2_from_fp f) fp2_zero fp2_zero.
(** fp6.rs:253-266 [conditional_select], [ct_eq] *)
Definition fp6_select (a b : fp6) (c : bool) : fp6 :=
  let '(FP6 a0 a1 a2) := a in let '(FP6 b0 b1 b2) := b in
  FP6 (fp2_select a0 b0 c) (fp2_select a1 b1 c) (fp2_select a2 b2 c).
Definition fp6_eq (a b : fp6) : bool :=
  let '(FP6 a0 a1 a2) := a in let '(FP6 b0 b1 b2) := b in fp2_eq a0 b0 && fp2_eq a1 b1 && fp2_eq a2 b2.
(** fp6.rs:271-286 *)
Definition fp6_zero : fp6 := FP6 fp2_zero fp2_zero fp2_zero.
Definition fp6_one : fp6 := FP6 fp2_one fp2_zero fp2_zero.
(** fp6.rs:470-511 [add], [neg], [sub] *)
Definition fp6_add (a b : fp6) : fp6 :=
  let '(FP6 a0 a1 a2) := a in let '(FP6 b0 b1 b2) := b in FP6 (fp2_add a0 b0) (fp2_add a1 b1) (fp2_add a2 b2).
Definition fp6_neg (a : fp6) : fp6 := let '(FP6 a0 a1 a2) := a in FP6 (fp2_neg a0) (fp2_neg a1) (fp2_neg a2).
Definition fp6_sub (a b : fp6) : fp6 :=
  let '(FP6 a0 a1 a2) := a in let '(FP6 b0 b1 b2) := b in FP6 (fp2_sub a0 b0) (fp2_sub a1 b1) (fp2_sub a2 b2).
(** fp6.rs:297-310 [mul_by_1] *)
Definition fp6_mul_by_1 (s : fp6) (c1 : fp2) : fp6 :=
  let '(FP6 s0 s1 s2) := s in
  let b_b := fp2_mul s1 c1 in
  let t1 := fp2_sub (fp2_mul (fp2_add s1 s2) c1) b_b in
  let t1 := fp2_mul_by_nonresidue t1 in
  let t2 := fp2_sub (fp2_mul (fp2_add s0 s1) c1) b_b in
  FP6 t1 t2 b_b.
(** fp6.rs:312-328 [mul_by_01] *)
Definition fp6_mul_by_01 (s : fp6) (c0 c1 : fp2) : fp6 :=
  let '(FP6 s0 s1 s2) := s in
  let a_a := fp2_mul s0 c0 in
  let b_b := fp2_mul s1 c1 in
  let t1 := fp2_sub (fp2_mul (fp2_add s1 s2) c1) b_b in
  let t1 := fp2_add (fp2_mul_by_nonresidue t1) a_a in
  let t2 := fp2_sub (fp2_sub (fp2_mul (fp2_add c0 c1) (fp2_add s0 s1)) a_a) b_b in
  let t3 := fp2_add (fp2_sub (fp2_mul (fp2_add s0 s2) c0) a_a) b_b in
  FP6 t1 t2 t3.
(** fp6.rs:331-342 [mul_by_nonresidue] *)
Definition fp6_mul_by_nonresidue (s : fp6) : fp6 :=
  let '(FP6 s0 s1 s2) := s in FP6 (fp2_mul_by_nonresidue s2) s0 s1.
(** fp6.rs:346-380 [frobenius_map] *)
Definition fp6_frobenius_c1 : fp2 := FP2 fp_zero (FP 0xcd03c9e48671f071 0x5dab22461fcda5d2 0x587042afd3851b95 0x8eb60ebe01bacb9e 0x03f97d6e83d050d2 0x18f0206554638741).
Definition fp6_frobenius_c2 : fp2 := FP2 (FP 0x890dc9e4867545c3 0x2af322533285a5d5 0x50880866309b7e2c 0xa20d1b8c7e881024 0x14e4f04fe2db9068 0x14e56d3f1564853a) fp_zero.
Definition fp6_frobenius_map (s : fp6) : fp6 :=
  let '(FP6 s0 s1 s2) := s in
  let c0 := fp2_frobenius_map s0 in
  let c1 := fp2_frobenius_map s1 in
  let c2 := fp2_frobenius_map s2 in
  let c1 := fp2_mul c1 fp6_frobenius_c1 in
  let c2 := fp2_mul c2 fp6_frobenius_c2 in
  FP6 c0 c1 c2.
(** fp6.rs:383-385 [is_zero] *)
Definition fp6_is_zero (a : fp6) : bool :=
  let '(FP6 a0 a1 a2) := a in fp2_is_zero a0 && fp2_is_zero a1 && fp2_is_zero a2.
(** fp6.rs:388-402 [square] *)
Definition fp6_square (s : fp6) : fp6 :=
  let '(FP6 c0 c1 c2) := s in
  let s0 := fp2_square c0 in
  let ab := fp2_mul c0 c1 in
  let s1 := fp2_add ab ab in
  let s2 := fp2_square (fp2_add (fp2_sub c0 c1) c2) in
  let bc := fp2_mul c1 c2 in
  let s3 := fp2_add bc bc in
  let s4 := fp2_square c2 in
  FP6 (fp2_add (fp2_mul_by_nonresidue s3) s0)
      (fp2_add (fp2_mul_by_nonresidue s4) s1)
      (fp2_sub (fp2_sub (fp2_add (fp2_add s1 s2) s3) s0) s4).
(** fp6.rs:405-423 [invert] *)
Definition fp6_invert (s : fp6) : option fp6 :=
  let '(FP6 s0 s1 s2) := s in
  let c0 := fp2_mul_by_nonresidue (fp2_mul s1 s2) in
  let c0 := fp2_sub (fp2_square s0) c0 in
  let c1 := fp2_mul_by_nonresidue (fp2_square s2) in
  let c1 := fp2_sub c1 (fp2_mul s0 s1) in
  let c2 := fp2_square s1 in
  let c2 := fp2_sub c2 (fp2_mul s0 s2) in
  let tmp := fp2_mul_by_nonresidue (fp2_add (fp2_mul s1 c2) (fp2_mul s2 c1)) in
  let tmp := fp2_add tmp (fp2_mul s0 c0) in
  match fp2_invert tmp with
  | None => None
  | Some t => Some (FP6 (fp2_mul t c0) (fp2_mul t c1) (fp2_mul t c2))
  end.
(** fp6.rs:430-463 [mul] *)
Definition fp6_mul (s other : fp6) : fp6 :=
  let '(FP6 s0 s1 s2) := s in let '(FP6 o0 o1 o2) := other in
  let aa := fp2_mul s0 o0 in
  let bb := fp2_mul s1 o1 in
  let cc := fp2_mul s2 o2 in
  let t1 := fp2_add o1 o2 in
  let tmp := fp2_add s1 s2 in
  let t1 := fp2_mul t1 tmp in
  let t1 := fp2_sub t1 bb in
  let t1 := fp2_sub t1 cc in
  let t1 := fp2_mul_by_nonresidue t1 in
  let t1 := fp2_add t1 aa in
  let t3 := fp2_add o0 o2 in
  let tmp := fp2_add s0 s2 in
  let t3 := fp2_mul t3 tmp in
  let t3 := fp2_sub t3 aa in
  let t3 := fp2_add t3 bb in
  let t3 := fp2_sub t3 cc in
  let t2 := fp2_add o0 o1 in
  let tmp := fp2_add s0 s1 in
  let t2 := fp2_mul t2 tmp in
  let t2 := fp2_sub t2 aa in
  let t2 := fp2_sub t2 bb in
  let cc := fp2_mul_by_nonresidue cc in
  let t2 := fp2_add t2 cc in
  FP6 t1 t2 t3.

(** ** fp12.rs *)
(** fp12.rs:197-200 *)
Inductive fp12 := FP12 (c0 c1 : fp6).
(** fp12.rs:203-226 [from] *)
Definition fp12_from_fp6 (f : fp6) : fp12 := FP12 f fp6_zero.
Definition fp12_from_fp2 (f : fp2) : fp12 := FP12 (fp6_from_fp2 f) fp6_zero.
Definition fp12_from_fp (f : fp) : fp12 := FP12 (fp6_from_fp f) fp6_zero.
(** fp12.rs:260-272 [conditional_select], [ct_eq] *)
Definition fp12_select (a b : fp12) (c : bool) : fp12 :=
  let '(FP12 a0 a1) := a in let '(FP12 b0 b1) := b in FP12 (fp6_select a0 b0 c) (fp6_select a1 b1 c).
Definition fp12_eq (a b : fp12) : bool :=
  let '(FP12 a0 a1) := a in let '(FP12 b0 b1) := b in fp6_eq a0 b0 && fp6_eq a1 b1.
(** fp12.rs:277-290 *)
Definition fp12_zero : fp12 := FP12 fp6_zero fp6_zero.
Definition fp12_one : fp12 := FP12 fp6_one fp6_zero.
(** fp12.rs:404-442 [add], [neg], [sub] *)
Definition fp12_add (a b : fp12) : fp12 :=
  let '(FP12 a0 a1) := a in let '(FP12 b0 b1) := b in FP12 (fp6_add a0 b0) (fp6_add a1 b1).
Definition fp12_neg (a : fp12) : fp12 := let '(FP12 a0 a1) := a in FP12 (fp6_neg a0) (fp6_neg a1).
Definition fp12_sub (a b : fp12) : fp12 :=
  let '(FP12 a0 a1) := a in let '(FP12 b0 b1) := b in FP12 (fp6_sub a0 b0) (fp6_sub a1 b1).
(** fp12.rs:300-312 [mul_by_014] *)
Definition fp12_mul_by_014 (s : fp12) (c0 c1 c4 : fp2) : fp12 :=
  let '(FP12 s0 s1) := s in
  let aa := fp6_mul_by_01 s0 c0 c1 in
  let bb := fp6_mul_by_1 s1 c4 in
  let o := fp2_add c1 c4 in
  let c1 := fp6_add s1 s0 in
  let c1 := fp6_mul_by_01 c1 c0 o in
  let c1 := fp6_sub (fp6_sub c1 aa) bb in
  let c0 := bb in
  let c0 := fp6_mul_by_nonresidue c0 in
  let c0 := fp6_add c0 aa in
  FP12 c0 c1.
(** fp12.rs:315-325 [is_zero], [conjugate] *)
Definition fp12_is_zero (a : fp12) : bool := let '(FP12 a0 a1) := a in fp6_is_zero a0 && fp6_is_zero a1.
Definition fp12_conjugate (a : fp12) : fp12 := let '(FP12 a0 a1) := a in FP12 a0 (fp6_neg a1).
(** fp12.rs:329-355 [frobenius_map] *)
Definition fp12_frobenius_c : fp2 := FP2 (FP 0x07089552b319d465 0xc6695f92b50a8313 0x97e83cccd117228f 0xa35baecab2dc29ee 0x1ce393ea5daace4d 0x08f2220fb0fb66eb) (FP 0xb2f66aad4ce5d646 0x5842a06bfc497cec 0xcf4895d42599d394 0xc11b9cba40a8e8d0 0x2e3813cbe5a0de89 0x110eefda88847faf).
Definition fp12_frobenius_map (s : fp12) : fp12 :=
  let '(FP12 s0 s1) := s in
  let c0 := fp6_frobenius_map s0 in
  let c1 := fp6_frobenius_map s1 in
  let c1 := fp6_mul c1 (fp6_from_fp2 fp12_frobenius_c) in
  FP12 c0 c1.
(** fp12.rs:358-369 [square] *)
Definition fp12_square (s : fp12) : fp12 :=
  let '(FP12 s0 s1) := s in
  let ab := fp6_mul s0 s1 in
  let c0c1 := fp6_add s0 s1 in
  let c0 := fp6_mul_by_nonresidue s1 in
  let c0 := fp6_add c0 s0 in
  let c0 := fp6_mul c0 c0c1 in
  let c0 := fp6_sub c0 ab in
  let c1 := fp6_add ab ab in
  let c0 := fp6_sub c0 (fp6_mul_by_nonresidue ab) in
  FP12 c0 c1.
(** fp12.rs:371-378 [invert] *)
Definition fp12_invert (s : fp12) : option fp12 :=
  let '(FP12 s0 s1) := s in
  match fp6_invert (fp6_sub (fp6_square s0) (fp6_mul_by_nonresidue (fp6_square s1))) with
  | None => None
  | Some t => Some (FP12 (fp6_mul s0 t) (fp6_mul s1 (fp6_neg t)))
  end.
(** fp12.rs:385-397 [mul] *)
Definition fp12_mul (s other : fp12) : fp12 :=
  let '(FP12 s0 s1) := s in let '(FP12 o0 o1) := other in
  let aa := fp6_mul s0 o0 in
  let bb := fp6_mul s1 o1 in
  let o := fp6_add o0 o1 in
  let c1 := fp6_add s1 s0 in
  let c1 := fp6_mul c1 o in
  let c1 := fp6_sub c1 aa in
  let c1 := fp6_sub c1 bb in
  let c0 := fp6_mul_by_nonresidue bb in
  let c0 := fp6_add c0 aa in
  FP12 c0 c1.
