(** * Model_Fp2: zkcrypto/src/curve/fp2.rs, the quadratic extension

    Two base field elements in Montgomery form; [Choice] is [bool], [CtOption] is [option]. *)
From Coq Require Import ZArith List Bool.
From Verif Require Import Base Model_Scalar Model_Fp.
Import ListNotations.
Local Open Scope Z_scope.

(** fp2.rs:195-198 *)
Inductive fp2 := FP2 (c0 c1 : fp).
Definition fp2_c0 (a : fp2) : fp := let '(FP2 c0 _) := a in c0.
Definition fp2_c1 (a : fp2) : fp := let '(FP2 _ c1) := a in c1.
(** fp2.rs:216-221 [from] *)
Definition fp2_from_fp (f : fp) : fp2 := FP2 f fp_zero.
(** fp2.rs:225-227 [ct_eq], also [==] *)
Definition fp2_eq (a b : fp2) : bool := fp_eq (fp2_c0 a) (fp2_c0 b) && fp_eq (fp2_c1 a) (fp2_c1 b).
(** fp2.rs:239-244 [conditional_select] *)
Definition fp2_select (a b : fp2) (c : bool) : fp2 :=
  FP2 (fp_select (fp2_c0 a) (fp2_c0 b) c) (fp_select (fp2_c1 a) (fp2_c1 b) c).
(** fp2.rs:297-314 *)
Definition fp2_zero : fp2 := FP2 fp_zero fp_zero.
Definition fp2_one : fp2 := FP2 fp_one fp_zero.
Definition fp2_is_zero (a : fp2) : bool := fp_is_zero (fp2_c0 a) && fp_is_zero (fp2_c1 a).
(** fp2.rs:325-337 [frobenius_map], [conjugate] *)
Definition fp2_conjugate (a : fp2) : fp2 := FP2 (fp2_c0 a) (fp_neg (fp2_c1 a)).
Definition fp2_frobenius_map (a : fp2) : fp2 := fp2_conjugate a.
(** fp2.rs:340-350 [mul_by_nonresidue] *)
Definition fp2_mul_by_nonresidue (a : fp2) : fp2 :=
  FP2 (fp_sub (fp2_c0 a) (fp2_c1 a)) (fp_add (fp2_c0 a) (fp2_c1 a)).
(** fp2.rs:355-364 [lexicographically_largest] *)
Definition fp2_lexicographically_largest (a : fp2) : bool :=
  fp_lexicographically_largest (fp2_c1 a)
  || (fp_is_zero (fp2_c1 a) && fp_lexicographically_largest (fp2_c0 a)).
(** fp2.rs:366-387 [square] *)
Definition fp2_square (s : fp2) : fp2 :=
  let a := fp_add (fp2_c0 s) (fp2_c1 s) in
  let b := fp_sub (fp2_c0 s) (fp2_c1 s) in
  let c := fp_add (fp2_c0 s) (fp2_c0 s) in
  FP2 (fp_mul a b) (fp_mul c (fp2_c1 s)).
(** fp2.rs:389-414 [mul] *)
Definition fp2_mul (s rhs : fp2) : fp2 :=
  let v0 := fp_mul (fp2_c0 s) (fp2_c0 rhs) in
  let v1 := fp_mul (fp_neg (fp2_c1 s)) (fp2_c1 rhs) in
  let c0 := fp_add v0 v1 in
  let c1 := fp_mul (fp_add (fp2_c0 s) (fp2_c1 s)) (fp_add (fp2_c0 rhs) (fp2_c1 rhs)) in
  let c1 := fp_sub c1 v0 in
  let c1 := fp_add c1 v1 in
  FP2 c0 c1.
(** fp2.rs:416-435 [add], [sub], [neg] *)
Definition fp2_add (a b : fp2) : fp2 := FP2 (fp_add (fp2_c0 a) (fp2_c0 b)) (fp_add (fp2_c1 a) (fp2_c1 b)).
Definition fp2_sub (a b : fp2) : fp2 := FP2 (fp_sub (fp2_c0 a) (fp2_c0 b)) (fp_sub (fp2_c1 a) (fp2_c1 b)).
Definition fp2_neg (a : fp2) : fp2 := FP2 (fp_neg (fp2_c0 a)) (fp_neg (fp2_c1 a)).
(** fp2.rs:516-528 [pow_vartime]: words from the most significant, bits from the most significant *)
Definition fp2_pow_vartime (a : fp2) (by_ : list Z) : fp2 :=
  fold_left (fun res e =>
    fold_left (fun res i =>
      let res := fp2_square res in
      if limb_bit e i =? 1 then fp2_mul res a else res)
      (rev (seq 0 64)) res)
    (rev by_) fp2_one.
(** fp2.rs:437-487 [sqrt]; [or_else] and [and_then] compute their closures always, which changes nothing *)
Definition fp2_sqrt_exp1 : list Z := [0xee7fbfffffffeaaa; 0x07aaffffac54ffff; 0xd9cc34a83dac3d89; 0xd91dd2e13ce144af; 0x92c6e9ed90d2eb35; 0x0680447a8e5ff9a6].
Definition fp2_sqrt_exp2 : list Z := [0xdcff7fffffffd555; 0x0f55ffff58a9ffff; 0xb39869507b587b12; 0xb23ba5c279c2895f; 0x258dd3db21a5d66b; 0x0d0088f51cbff34d].
Definition fp2_sqrt (a : fp2) : option fp2 :=
  if fp2_is_zero a then Some fp2_zero
  else
    let a1 := fp2_pow_vartime a fp2_sqrt_exp1 in
    let alpha := fp2_mul (fp2_square a1) a in
    let x0 := fp2_mul a1 a in
    let sqrt :=
      if fp2_eq alpha (fp2_neg fp2_one) then FP2 (fp_neg (fp2_c1 x0)) (fp2_c0 x0)
      else fp2_mul (fp2_pow_vartime (fp2_add alpha fp2_one) fp2_sqrt_exp2) x0 in
    if fp2_eq (fp2_square sqrt) a then Some sqrt else None.
(** fp2.rs:492-511 [invert] *)
Definition fp2_invert (a : fp2) : option fp2 :=
  match fp_invert (fp_add (fp_square (fp2_c0 a)) (fp_square (fp2_c1 a))) with
  | None => None
  | Some t => Some (FP2 (fp_mul (fp2_c0 a) t) (fp_mul (fp2_c1 a) (fp_neg t)))
  end.
