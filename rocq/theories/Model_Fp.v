(** * Model_Fp: the base field arithmetic of zkcrypto/src/curve/fp.rs

    Same conventions as Model_Scalar.v: machine words are integers kept in range by the
    explicit masks of every operation; [Choice]/[CtOption] are [bool]/[option]; constant-time
    behaviour is not modelled.  fp.rs:8-25 repeats [adc], [sbb] and [mac] of scalar.rs:21-38
    word for word; the definitions of Model_Scalar.v are used. *)
From Coq Require Import ZArith List Bool.
From Verif Require Import Base Model_Scalar.
Import ListNotations.
Local Open Scope Z_scope.

(** fp.rs:190 [Fp]: six little-endian limbs *)
Inductive fp := FP (l0 l1 l2 l3 l4 l5 : Z).

(** fp.rs:218-234 [ct_eq], [eq] *)
Definition fp_eq (a b : fp) : bool :=
  let '(FP a0 a1 a2 a3 a4 a5) := a in let '(FP b0 b1 b2 b3 b4 b5) := b in
  (a0 =? b0) && (a1 =? b1) && (a2 =? b2) && (a3 =? b3) && (a4 =? b4) && (a5 =? b5).

(** fp.rs:237-246 [conditional_select]: the second when the choice is true *)
Definition fp_select (a b : fp) (c : bool) : fp := if c then b else a.

(** fp.rs:249-257 [MODULUS] *)
Definition p0 := 0xb9feffffffffaaab.
Definition p1 := 0x1eabfffeb153ffff.
Definition p2 := 0x6730d2a0f6b0f624.
Definition p3 := 0x64774b84f38512bf.
Definition p4 := 0x4b1ba7b6434bacd7.
Definition p5 := 0x1a0111ea397fe69a.
(** fp.rs:260 [INV] *)
Definition fp_INV := 0x89f3fffcfffcfffd.
(** fp.rs:263-270 [R] *)
Definition fp_R := FP 0x760900000002fffd 0xebf4000bc40c0002 0x5f48985753c758ba 0x77ce585370525745 0x5c071a97a256ec6d 0x15f65ec3fa80e493.
(** fp.rs:273-280 [R2] *)
Definition fp_R2 := FP 0xf4df1f341c341746 0x0a76e6a609d104f1 0x8de5476c4c95b6d5 0x67eb88a9939d83c0 0x9a793e85b519952d 0x11988fe592cae3aa.
(** fp.rs:283-290 [R3] *)
Definition fp_R3 := FP 0xed48ac6bd94ca1e0 0x315f831e03a7adf8 0x9a53352a615e29dd 0x34c04e5e921e1761 0x2512d43565724728 0x0aa6346091755d4d.

(** fp.rs:343-355 [zero], [one], [is_zero] *)
Definition fp_zero := FP 0 0 0 0 0 0.
Definition fp_one := fp_R.
Definition fp_is_zero (a : fp) : bool := fp_eq a fp_zero.

(** the u64 operator [!] *)
Definition not64 (x : Z) : Z := W - 1 - x.

(** fp.rs:541-559 [subtract_p] *)
Definition fp_subtract_p (a : fp) : fp :=
  let '(FP a0 a1 a2 a3 a4 a5) := a in
  let '(r0, borrow) := sbb a0 p0 0 in
  let '(r1, borrow) := sbb a1 p1 borrow in
  let '(r2, borrow) := sbb a2 p2 borrow in
  let '(r3, borrow) := sbb a3 p3 borrow in
  let '(r4, borrow) := sbb a4 p4 borrow in
  let '(r5, borrow) := sbb a5 p5 borrow in
  let r0 := Z.lor (Z.land a0 borrow) (Z.land r0 (not64 borrow)) in
  let r1 := Z.lor (Z.land a1 borrow) (Z.land r1 (not64 borrow)) in
  let r2 := Z.lor (Z.land a2 borrow) (Z.land r2 (not64 borrow)) in
  let r3 := Z.lor (Z.land a3 borrow) (Z.land r3 (not64 borrow)) in
  let r4 := Z.lor (Z.land a4 borrow) (Z.land r4 (not64 borrow)) in
  let r5 := Z.lor (Z.land a5 borrow) (Z.land r5 (not64 borrow)) in
  FP r0 r1 r2 r3 r4 r5.

(** fp.rs:561-572 [add] *)
Definition fp_add (a b : fp) : fp :=
  let '(FP a0 a1 a2 a3 a4 a5) := a in let '(FP b0 b1 b2 b3 b4 b5) := b in
  let '(d0, carry) := adc a0 b0 0 in
  let '(d1, carry) := adc a1 b1 carry in
  let '(d2, carry) := adc a2 b2 carry in
  let '(d3, carry) := adc a3 b3 carry in
  let '(d4, carry) := adc a4 b4 carry in
  let '(d5, _) := adc a5 b5 carry in
  fp_subtract_p (FP d0 d1 d2 d3 d4 d5).

(** fp.rs:575-597 [neg] *)
Definition fp_neg (a : fp) : fp :=
  let '(FP a0 a1 a2 a3 a4 a5) := a in
  let '(d0, borrow) := sbb p0 a0 0 in
  let '(d1, borrow) := sbb p1 a1 borrow in
  let '(d2, borrow) := sbb p2 a2 borrow in
  let '(d3, borrow) := sbb p3 a3 borrow in
  let '(d4, borrow) := sbb p4 a4 borrow in
  let '(d5, _) := sbb p5 a5 borrow in
  let mask := ((if Z.lor (Z.lor (Z.lor (Z.lor (Z.lor a0 a1) a2) a3) a4) a5 =? 0 then 1 else 0) - 1) mod W in
  FP (Z.land d0 mask) (Z.land d1 mask) (Z.land d2 mask) (Z.land d3 mask) (Z.land d4 mask) (Z.land d5 mask).

(** fp.rs:600-602 [sub] *)
Definition fp_sub (a b : fp) : fp := fp_add (fp_neg b) a.

(** fp.rs:605-680 [montgomery_reduce] *)
Definition fp_montgomery_reduce (t0 t1 t2 t3 t4 t5 t6 t7 t8 t9 t10 t11 : Z) : fp :=
  let k := wrapping_mul t0 fp_INV in
  let '(_, carry) := mac t0 k p0 0 in
  let '(r1, carry) := mac t1 k p1 carry in
  let '(r2, carry) := mac t2 k p2 carry in
  let '(r3, carry) := mac t3 k p3 carry in
  let '(r4, carry) := mac t4 k p4 carry in
  let '(r5, carry) := mac t5 k p5 carry in
  let '(r6, r7) := adc t6 0 carry in
  let k := wrapping_mul r1 fp_INV in
  let '(_, carry) := mac r1 k p0 0 in
  let '(r2, carry) := mac r2 k p1 carry in
  let '(r3, carry) := mac r3 k p2 carry in
  let '(r4, carry) := mac r4 k p3 carry in
  let '(r5, carry) := mac r5 k p4 carry in
  let '(r6, carry) := mac r6 k p5 carry in
  let '(r7, r8) := adc t7 r7 carry in
  let k := wrapping_mul r2 fp_INV in
  let '(_, carry) := mac r2 k p0 0 in
  let '(r3, carry) := mac r3 k p1 carry in
  let '(r4, carry) := mac r4 k p2 carry in
  let '(r5, carry) := mac r5 k p3 carry in
  let '(r6, carry) := mac r6 k p4 carry in
  let '(r7, carry) := mac r7 k p5 carry in
  let '(r8, r9) := adc t8 r8 carry in
  let k := wrapping_mul r3 fp_INV in
  let '(_, carry) := mac r3 k p0 0 in
  let '(r4, carry) := mac r4 k p1 carry in
  let '(r5, carry) := mac r5 k p2 carry in
  let '(r6, carry) := mac r6 k p3 carry in
  let '(r7, carry) := mac r7 k p4 carry in
  let '(r8, carry) := mac r8 k p5 carry in
  let '(r9, r10) := adc t9 r9 carry in
  let k := wrapping_mul r4 fp_INV in
  let '(_, carry) := mac r4 k p0 0 in
  let '(r5, carry) := mac r5 k p1 carry in
  let '(r6, carry) := mac r6 k p2 carry in
  let '(r7, carry) := mac r7 k p3 carry in
  let '(r8, carry) := mac r8 k p4 carry in
  let '(r9, carry) := mac r9 k p5 carry in
  let '(r10, r11) := adc t10 r10 carry in
  let k := wrapping_mul r5 fp_INV in
  let '(_, carry) := mac r5 k p0 0 in
  let '(r6, carry) := mac r6 k p1 carry in
  let '(r7, carry) := mac r7 k p2 carry in
  let '(r8, carry) := mac r8 k p3 carry in
  let '(r9, carry) := mac r9 k p4 carry in
  let '(r10, carry) := mac r10 k p5 carry in
  let '(r11, _) := adc t11 r11 carry in
  fp_subtract_p (FP r6 r7 r8 r9 r10 r11).

(** fp.rs:683-727 [mul] *)
Definition fp_mul (a b : fp) : fp :=
  let '(FP a0 a1 a2 a3 a4 a5) := a in let '(FP b0 b1 b2 b3 b4 b5) := b in
  let '(t0, carry) := mac 0 a0 b0 0 in
  let '(t1, carry) := mac 0 a0 b1 carry in
  let '(t2, carry) := mac 0 a0 b2 carry in
  let '(t3, carry) := mac 0 a0 b3 carry in
  let '(t4, carry) := mac 0 a0 b4 carry in
  let '(t5, t6) := mac 0 a0 b5 carry in
  let '(t1, carry) := mac t1 a1 b0 0 in
  let '(t2, carry) := mac t2 a1 b1 carry in
  let '(t3, carry) := mac t3 a1 b2 carry in
  let '(t4, carry) := mac t4 a1 b3 carry in
  let '(t5, carry) := mac t5 a1 b4 carry in
  let '(t6, t7) := mac t6 a1 b5 carry in
  let '(t2, carry) := mac t2 a2 b0 0 in
  let '(t3, carry) := mac t3 a2 b1 carry in
  let '(t4, carry) := mac t4 a2 b2 carry in
  let '(t5, carry) := mac t5 a2 b3 carry in
  let '(t6, carry) := mac t6 a2 b4 carry in
  let '(t7, t8) := mac t7 a2 b5 carry in
  let '(t3, carry) := mac t3 a3 b0 0 in
  let '(t4, carry) := mac t4 a3 b1 carry in
  let '(t5, carry) := mac t5 a3 b2 carry in
  let '(t6, carry) := mac t6 a3 b3 carry in
  let '(t7, carry) := mac t7 a3 b4 carry in
  let '(t8, t9) := mac t8 a3 b5 carry in
  let '(t4, carry) := mac t4 a4 b0 0 in
  let '(t5, carry) := mac t5 a4 b1 carry in
  let '(t6, carry) := mac t6 a4 b2 carry in
  let '(t7, carry) := mac t7 a4 b3 carry in
  let '(t8, carry) := mac t8 a4 b4 carry in
  let '(t9, t10) := mac t9 a4 b5 carry in
  let '(t5, carry) := mac t5 a5 b0 0 in
  let '(t6, carry) := mac t6 a5 b1 carry in
  let '(t7, carry) := mac t7 a5 b2 carry in
  let '(t8, carry) := mac t8 a5 b3 carry in
  let '(t9, carry) := mac t9 a5 b4 carry in
  let '(t10, t11) := mac t10 a5 b5 carry in
  fp_montgomery_reduce t0 t1 t2 t3 t4 t5 t6 t7 t8 t9 t10 t11.

(** fp.rs:731-778 [square] *)
Definition fp_square (a : fp) : fp :=
  let '(FP a0 a1 a2 a3 a4 a5) := a in
  let '(t1, carry) := mac 0 a0 a1 0 in
  let '(t2, carry) := mac 0 a0 a2 carry in
  let '(t3, carry) := mac 0 a0 a3 carry in
  let '(t4, carry) := mac 0 a0 a4 carry in
  let '(t5, t6) := mac 0 a0 a5 carry in
  let '(t3, carry) := mac t3 a1 a2 0 in
  let '(t4, carry) := mac t4 a1 a3 carry in
  let '(t5, carry) := mac t5 a1 a4 carry in
  let '(t6, t7) := mac t6 a1 a5 carry in
  let '(t5, carry) := mac t5 a2 a3 0 in
  let '(t6, carry) := mac t6 a2 a4 carry in
  let '(t7, t8) := mac t7 a2 a5 carry in
  let '(t7, carry) := mac t7 a3 a4 0 in
  let '(t8, t9) := mac t8 a3 a5 carry in
  let '(t9, t10) := mac t9 a4 a5 0 in
  let t11 := shr t10 63 in
  let t10 := Z.lor (shl t10 1) (shr t9 63) in
  let t9 := Z.lor (shl t9 1) (shr t8 63) in
  let t8 := Z.lor (shl t8 1) (shr t7 63) in
  let t7 := Z.lor (shl t7 1) (shr t6 63) in
  let t6 := Z.lor (shl t6 1) (shr t5 63) in
  let t5 := Z.lor (shl t5 1) (shr t4 63) in
  let t4 := Z.lor (shl t4 1) (shr t3 63) in
  let t3 := Z.lor (shl t3 1) (shr t2 63) in
  let t2 := Z.lor (shl t2 1) (shr t1 63) in
  let t1 := shl t1 1 in
  let '(t0, carry) := mac 0 a0 a0 0 in
  let '(t1, carry) := adc t1 0 carry in
  let '(t2, carry) := mac t2 a1 a1 carry in
  let '(t3, carry) := adc t3 0 carry in
  let '(t4, carry) := mac t4 a2 a2 carry in
  let '(t5, carry) := adc t5 0 carry in
  let '(t6, carry) := mac t6 a3 a3 carry in
  let '(t7, carry) := adc t7 0 carry in
  let '(t8, carry) := mac t8 a4 a4 carry in
  let '(t9, carry) := adc t9 0 carry in
  let '(t10, carry) := mac t10 a5 a5 carry in
  let '(t11, _) := adc t11 0 carry in
  fp_montgomery_reduce t0 t1 t2 t3 t4 t5 t6 t7 t8 t9 t10 t11.

(** [u64::from_be_bytes] of bytes[8i..8i+8] and [u64::to_be_bytes] *)
Definition be_word (bytes : list Z) (i : nat) : Z := from_le_bytes (rev (firstn 8 (skipn (8 * i) bytes))).
Definition to_be_bytes (x : Z) : list Z := rev (to_le_bytes x).

(** fp.rs:359-387 [from_bytes] *)
Definition fp_from_bytes (bytes : list Z) : option fp :=
  let t5 := be_word bytes 0 in let t4 := be_word bytes 1 in let t3 := be_word bytes 2 in
  let t2 := be_word bytes 3 in let t1 := be_word bytes 4 in let t0 := be_word bytes 5 in
  let '(_, borrow) := sbb t0 p0 0 in
  let '(_, borrow) := sbb t1 p1 borrow in
  let '(_, borrow) := sbb t2 p2 borrow in
  let '(_, borrow) := sbb t3 p3 borrow in
  let '(_, borrow) := sbb t4 p4 borrow in
  let '(_, borrow) := sbb t5 p5 borrow in
  let is_some := Z.land (borrow mod 256) 1 in
  let tmp := fp_mul (FP t0 t1 t2 t3 t4 t5) fp_R2 in
  if is_some =? 1 then Some tmp else None.

(** fp.rs:391-407 [to_bytes] *)
Definition fp_to_bytes (a : fp) : list Z :=
  let '(FP a0 a1 a2 a3 a4 a5) := a in
  let '(FP t0 t1 t2 t3 t4 t5) := fp_montgomery_reduce a0 a1 a2 a3 a4 a5 0 0 0 0 0 0 in
  to_be_bytes t5 ++ to_be_bytes t4 ++ to_be_bytes t3 ++ to_be_bytes t2 ++ to_be_bytes t1 ++ to_be_bytes t0.

(** fp.rs:431-449 [from_u768] *)
Definition fp_from_u768 (l0 l1 l2 l3 l4 l5 l6 l7 l8 l9 l10 l11 : Z) : fp :=
  let d1 := FP l11 l10 l9 l8 l7 l6 in
  let d0 := FP l5 l4 l3 l2 l1 l0 in
  fp_add (fp_mul d0 fp_R2) (fp_mul d1 fp_R3).

(** fp.rs:409-427 [random]: [bytes] are the 96 bytes drawn from the generator *)
Definition fp_random (bytes : list Z) : fp :=
  fp_from_u768 (be_word bytes 0) (be_word bytes 1) (be_word bytes 2) (be_word bytes 3) (be_word bytes 4) (be_word bytes 5)
    (be_word bytes 6) (be_word bytes 7) (be_word bytes 8) (be_word bytes 9) (be_word bytes 10) (be_word bytes 11).

(** fp.rs:453-478 [lexicographically_largest] *)
Definition fp_lexicographically_largest (a : fp) : bool :=
  let '(FP a0 a1 a2 a3 a4 a5) := a in
  let '(FP t0 t1 t2 t3 t4 t5) := fp_montgomery_reduce a0 a1 a2 a3 a4 a5 0 0 0 0 0 0 in
  let '(_, borrow) := sbb t0 0xdcff7fffffffd556 0 in
  let '(_, borrow) := sbb t1 0x0f55ffff58a9ffff borrow in
  let '(_, borrow) := sbb t2 0xb39869507b587b12 borrow in
  let '(_, borrow) := sbb t3 0xb23ba5c279c2895f borrow in
  let '(_, borrow) := sbb t4 0x258dd3db21a5d66b borrow in
  let '(_, borrow) := sbb t5 0x0d0088f51cbff34d borrow in
  negb (Z.land (borrow mod 256) 1 =? 1).

(** fp.rs:489-501 [pow_vartime] *)
Definition fp_pow_vartime (a : fp) (by_ : list Z) : fp :=
  fold_left (fun res e =>
    fold_left (fun res i =>
      let res := fp_square res in
      if limb_bit e i =? 1 then fp_mul res a else res) (rev (seq 0 64)) res) (rev by_) fp_one.

(** fp.rs:504-520 [sqrt] *)
Definition fp_sqrt_exp : list Z :=
  [0xee7fbfffffffeaab; 0x07aaffffac54ffff; 0xd9cc34a83dac3d89; 0xd91dd2e13ce144af; 0x92c6e9ed90d2eb35; 0x0680447a8e5ff9a6].
Definition fp_sqrt (a : fp) : option fp :=
  let sqrt := fp_pow_vartime a fp_sqrt_exp in
  if fp_eq (fp_square sqrt) a then Some sqrt else None.

(** fp.rs:526-538 [invert] *)
Definition fp_invert_exp : list Z :=
  [0xb9feffffffffaaa9; 0x1eabfffeb153ffff; 0x6730d2a0f6b0f624; 0x64774b84f38512bf; 0x4b1ba7b6434bacd7; 0x1a0111ea397fe69a].
Definition fp_invert (a : fp) : option fp :=
  let t := fp_pow_vartime a fp_invert_exp in
  if negb (fp_is_zero a) then Some t else None.
