(** * Model_Scalar: the limb arithmetic of zkcrypto/src/curve/scalar.rs

    [u64] and [u8] values are integers, kept in range by the explicit [mod] of every
    operation; [u128] intermediates never overflow (Proof_Scalar.v: [adc_no_overflow],
    [mac_no_overflow]), so they are plain integers.  [Choice]/[CtOption] of the [subtle]
    crate are [bool]/[option]; constant-time behaviour is not modelled.  Rust shadowing
    ([let (r1, carry) = ...] rebinding [r1]) is shadowing here too. *)
From Coq Require Import ZArith List Bool.
From Verif Require Import Base.
Import ListNotations.
Local Open Scope Z_scope.

Definition W : Z := 2 ^ 64.

(** [as u64] on a u128, and the u64 operators [wrapping_mul], [<<] (bits shifted out are
    lost) and [>>] *)
Definition as_u64 (x : Z) : Z := Z.land x 0xffffffffffffffff.
Definition as_u128 (x : Z) : Z := Z.land x 0xffffffffffffffffffffffffffffffff.
Definition wrapping_mul (a b : Z) : Z := as_u64 (a * b).
Definition shl (a n : Z) : Z := as_u64 (Z.shiftl a n).
Definition shr (a n : Z) : Z := Z.shiftr a n.

(** scalar.rs:21-24 [adc] *)
Definition adc (a b carry : Z) : Z * Z :=
  let ret := a + b + carry in (as_u64 ret, as_u64 (shr ret 64)).

(** scalar.rs:28-31 [sbb]: the subtraction wraps in u128 *)
Definition sbb (a b borrow : Z) : Z * Z :=
  let ret := as_u128 (a - (b + shr borrow 63)) in (as_u64 ret, as_u64 (shr ret 64)).

(** scalar.rs:35-38 [mac] *)
Definition mac (a b c carry : Z) : Z * Z :=
  let ret := a + b * c + carry in (as_u64 ret, as_u64 (shr ret 64)).

(** scalar.rs:202 [Scalar]: four little-endian limbs *)
Inductive scalar := Scalar (l0 l1 l2 l3 : Z).

(** scalar.rs:227-239 [ct_eq], [eq] *)
Definition ct_eq (a b : scalar) : bool :=
  let '(Scalar a0 a1 a2 a3) := a in let '(Scalar b0 b1 b2 b3) := b in
  (a0 =? b0) && (a1 =? b1) && (a2 =? b2) && (a3 =? b3).

(** scalar.rs:242-251 [conditional_select]: the second when the choice is true *)
Definition conditional_select (a b : scalar) (c : bool) : scalar := if c then b else a.

(** scalar.rs:256-261 [MODULUS] *)
Definition q0 := 0xffffffff00000001.
Definition q1 := 0x53bda402fffe5bfe.
Definition q2 := 0x3339d80809a1d805.
Definition q3 := 0x73eda753299d7d48.
Definition MODULUS := Scalar q0 q1 q2 q3.
(** scalar.rs:280-285 [GENERATOR] *)
Definition GENERATOR := Scalar 0x0000000efffffff1 0x17e363d300189c0f 0xff9c57876f8457b0 0x351332208fc5a8c4.
(** scalar.rs:336 [INV] *)
Definition INV := 0xfffffffeffffffff.
(** scalar.rs:339-344 [R] *)
Definition R := Scalar 0x00000001fffffffe 0x5884b7fa00034802 0x998c4fefecbc4ff5 0x1824b159acc5056f.
(** scalar.rs:347-352 [R2] *)
Definition R2 := Scalar 0xc999e990f3f29c6d 0x2b6cedcb87925c23 0x05d314967254398f 0x0748d9d99f59ff11.
(** scalar.rs:355-360 [R3] *)
Definition R3 := Scalar 0xc62c1807439b73af 0x1b3e0d188cf06990 0x73d13c71c7b5f418 0x6e2a5bb9c8db33e9.
(** scalar.rs:363 [S] *)
Definition S_adicity : nat := 32.
(** scalar.rs:372-377 [ROOT_OF_UNITY] *)
Definition ROOT_OF_UNITY := Scalar 0xb9b58d8c5f0e466a 0x5b1b4c801819d7ec 0x0af53ae352a31e64 0x5bf3adda19e9b27b.

(** scalar.rs:392-405 [zero], [one], [null] *)
Definition zero := Scalar 0 0 0 0.
Definition one := R.
Definition MAX : Z := W - 1.
Definition null := Scalar MAX MAX MAX MAX.

(** scalar.rs:792-806 [sub] *)
Definition sub (a b : scalar) : scalar :=
  let '(Scalar a0 a1 a2 a3) := a in let '(Scalar b0 b1 b2 b3) := b in
  let '(d0, borrow) := sbb a0 b0 0 in
  let '(d1, borrow) := sbb a1 b1 borrow in
  let '(d2, borrow) := sbb a2 b2 borrow in
  let '(d3, borrow) := sbb a3 b3 borrow in
  let '(d0, carry) := adc d0 (Z.land q0 borrow) 0 in
  let '(d1, carry) := adc d1 (Z.land q1 borrow) carry in
  let '(d2, carry) := adc d2 (Z.land q2 borrow) carry in
  let '(d3, _) := adc d3 (Z.land q3 borrow) carry in
  Scalar d0 d1 d2 d3.

(** scalar.rs:810-819 [add] *)
Definition add (a b : scalar) : scalar :=
  let '(Scalar a0 a1 a2 a3) := a in let '(Scalar b0 b1 b2 b3) := b in
  let '(d0, carry) := adc a0 b0 0 in
  let '(d1, carry) := adc a1 b1 carry in
  let '(d2, carry) := adc a2 b2 carry in
  let '(d3, _) := adc a3 b3 carry in
  sub (Scalar d0 d1 d2 d3) MODULUS.

(** scalar.rs:409-412 [double] *)
Definition double (a : scalar) : scalar := add a a.

(** scalar.rs:823-837 [neg] *)
Definition neg (a : scalar) : scalar :=
  let '(Scalar a0 a1 a2 a3) := a in
  let '(d0, borrow) := sbb q0 a0 0 in
  let '(d1, borrow) := sbb q1 a1 borrow in
  let '(d2, borrow) := sbb q2 a2 borrow in
  let '(d3, _) := sbb q3 a3 borrow in
  let mask := ((if Z.lor (Z.lor (Z.lor a0 a1) a2) a3 =? 0 then 1 else 0) - 1) mod W in
  Scalar (Z.land d0 mask) (Z.land d1 mask) (Z.land d2 mask) (Z.land d3 mask).

(** scalar.rs:716-760 [montgomery_reduce] *)
Definition montgomery_reduce (r0 r1 r2 r3 r4 r5 r6 r7 : Z) : scalar :=
  let k := wrapping_mul r0 INV in
  let '(_, carry) := mac r0 k q0 0 in
  let '(r1, carry) := mac r1 k q1 carry in
  let '(r2, carry) := mac r2 k q2 carry in
  let '(r3, carry) := mac r3 k q3 carry in
  let '(r4, carry2) := adc r4 0 carry in
  let k := wrapping_mul r1 INV in
  let '(_, carry) := mac r1 k q0 0 in
  let '(r2, carry) := mac r2 k q1 carry in
  let '(r3, carry) := mac r3 k q2 carry in
  let '(r4, carry) := mac r4 k q3 carry in
  let '(r5, carry2) := adc r5 carry2 carry in
  let k := wrapping_mul r2 INV in
  let '(_, carry) := mac r2 k q0 0 in
  let '(r3, carry) := mac r3 k q1 carry in
  let '(r4, carry) := mac r4 k q2 carry in
  let '(r5, carry) := mac r5 k q3 carry in
  let '(r6, carry2) := adc r6 carry2 carry in
  let k := wrapping_mul r3 INV in
  let '(_, carry) := mac r3 k q0 0 in
  let '(r4, carry) := mac r4 k q1 carry in
  let '(r5, carry) := mac r5 k q2 carry in
  let '(r6, carry) := mac r6 k q3 carry in
  let '(r7, _) := adc r7 carry2 carry in
  sub (Scalar r4 r5 r6 r7) MODULUS.

(** scalar.rs:764-788 [mul] *)
Definition mul (a b : scalar) : scalar :=
  let '(Scalar a0 a1 a2 a3) := a in let '(Scalar b0 b1 b2 b3) := b in
  let '(r0, carry) := mac 0 a0 b0 0 in
  let '(r1, carry) := mac 0 a0 b1 carry in
  let '(r2, carry) := mac 0 a0 b2 carry in
  let '(r3, r4) := mac 0 a0 b3 carry in
  let '(r1, carry) := mac r1 a1 b0 0 in
  let '(r2, carry) := mac r2 a1 b1 carry in
  let '(r3, carry) := mac r3 a1 b2 carry in
  let '(r4, r5) := mac r4 a1 b3 carry in
  let '(r2, carry) := mac r2 a2 b0 0 in
  let '(r3, carry) := mac r3 a2 b1 carry in
  let '(r4, carry) := mac r4 a2 b2 carry in
  let '(r5, r6) := mac r5 a2 b3 carry in
  let '(r3, carry) := mac r3 a3 b0 0 in
  let '(r4, carry) := mac r4 a3 b1 carry in
  let '(r5, carry) := mac r5 a3 b2 carry in
  let '(r6, r7) := mac r6 a3 b3 carry in
  montgomery_reduce r0 r1 r2 r3 r4 r5 r6 r7.

(** scalar.rs:501-529 [square] *)
Definition square (a : scalar) : scalar :=
  let '(Scalar a0 a1 a2 a3) := a in
  let '(r1, carry) := mac 0 a0 a1 0 in
  let '(r2, carry) := mac 0 a0 a2 carry in
  let '(r3, r4) := mac 0 a0 a3 carry in
  let '(r3, carry) := mac r3 a1 a2 0 in
  let '(r4, r5) := mac r4 a1 a3 carry in
  let '(r5, r6) := mac r5 a2 a3 0 in
  let r7 := shr r6 63 in
  let r6 := Z.lor (shl r6 1) (shr r5 63) in
  let r5 := Z.lor (shl r5 1) (shr r4 63) in
  let r4 := Z.lor (shl r4 1) (shr r3 63) in
  let r3 := Z.lor (shl r3 1) (shr r2 63) in
  let r2 := Z.lor (shl r2 1) (shr r1 63) in
  let r1 := shl r1 1 in
  let '(r0, carry) := mac 0 a0 a0 0 in
  let '(r1, carry) := adc 0 r1 carry in
  let '(r2, carry) := mac r2 a1 a1 carry in
  let '(r3, carry) := adc 0 r3 carry in
  let '(r4, carry) := mac r4 a2 a2 carry in
  let '(r5, carry) := adc 0 r5 carry in
  let '(r6, carry) := mac r6 a3 a3 carry in
  let '(r7, _) := adc 0 r7 carry in
  montgomery_reduce r0 r1 r2 r3 r4 r5 r6 r7.

(** [u64::from_le_bytes] and [u64::to_le_bytes] of the Rust core library *)
Fixpoint from_le_bytes (bs : list Z) : Z :=
  match bs with [] => 0 | b :: t => b + 256 * from_le_bytes t end.
Definition to_le_bytes (x : Z) : list Z :=
  map (fun i => (x / 256 ^ Z.of_nat i) mod 256) (seq 0 8).
(** the word at bytes[8i..8i+8] *)
Definition word (bytes : list Z) (i : nat) : Z := from_le_bytes (firstn 8 (skipn (8 * i) bytes)).

(** scalar.rs:416-441 [from_bytes] *)
Definition from_bytes (bytes : list Z) : option scalar :=
  let t0 := word bytes 0 in let t1 := word bytes 1 in
  let t2 := word bytes 2 in let t3 := word bytes 3 in
  let '(_, borrow) := sbb t0 q0 0 in
  let '(_, borrow) := sbb t1 q1 borrow in
  let '(_, borrow) := sbb t2 q2 borrow in
  let '(_, borrow) := sbb t3 q3 borrow in
  let is_some := Z.land (borrow mod 256) 1 in
  let tmp := mul (Scalar t0 t1 t2 t3) R2 in
  if is_some =? 1 then Some tmp else None.

(** scalar.rs:841-843 [reduce] *)
Definition reduce (a : scalar) : scalar :=
  let '(Scalar a0 a1 a2 a3) := a in montgomery_reduce a0 a1 a2 a3 0 0 0 0.

(** scalar.rs:444-456 [to_bytes] *)
Definition to_bytes (a : scalar) : list Z :=
  let '(Scalar a0 a1 a2 a3) := a in
  let '(Scalar t0 t1 t2 t3) := montgomery_reduce a0 a1 a2 a3 0 0 0 0 in
  to_le_bytes t0 ++ to_le_bytes t1 ++ to_le_bytes t2 ++ to_le_bytes t3.

(** scalar.rs:473-491 [from_u512] *)
Definition from_u512 (l0 l1 l2 l3 l4 l5 l6 l7 : Z) : scalar :=
  let d0 := Scalar l0 l1 l2 l3 in
  let d1 := Scalar l4 l5 l6 l7 in
  add (mul d0 R2) (mul d1 R3).

(** scalar.rs:460-471 [from_bytes_wide] *)
Definition from_bytes_wide (bytes : list Z) : scalar :=
  from_u512 (word bytes 0) (word bytes 1) (word bytes 2) (word bytes 3)
            (word bytes 4) (word bytes 5) (word bytes 6) (word bytes 7).

(** scalar.rs:495-497 [from_raw] *)
Definition from_raw (l0 l1 l2 l3 : Z) : scalar := mul (Scalar l0 l1 l2 l3) R2.

(** scalar.rs:221-225 [From<u64>] *)
Definition from_u64 (v : Z) : scalar := mul (Scalar v 0 0 0) R2.

(** bit [i] of a limb: [(e >> i) & 1] *)
Definition limb_bit (e : Z) (i : nat) : Z := Z.land (shr e (Z.of_nat i)) 1.

(** scalar.rs:583-594 [pow]: [by] as a little-endian list of four limbs *)
Definition pow (a : scalar) (by_ : list Z) : scalar :=
  fold_left (fun res e =>
    fold_left (fun res i =>
      let res := square res in
      let tmp := res in
      let tmp := mul tmp a in
      conditional_select res tmp (limb_bit e i mod 256 =? 1)) (rev (seq 0 64)) res) (rev by_) one.

(** scalar.rs:602-614 [pow_vartime] *)
Definition pow_vartime (a : scalar) (by_ : list Z) : scalar :=
  fold_left (fun res e =>
    fold_left (fun res i =>
      let res := square res in
      if limb_bit e i =? 1 then mul res a else res) (rev (seq 0 64)) res) (rev by_) one.

(** scalar.rs:620-624 [square_assign_multi] *)
Definition square_assign_multi (n : scalar) (num_times : nat) : scalar :=
  Nat.iter num_times square n.

(** scalar.rs:618-713 [invert]: the addition chain; [t0] is the result *)
Definition invert_chain (a : scalar) : scalar :=
  let t0 := square a in
  let t1 := mul t0 a in
  let t16 := square t0 in
  let t6 := square t16 in
  let t5 := mul t6 t0 in
  let t0 := mul t6 t16 in
  let t12 := mul t5 t16 in
  let t2 := square t6 in
  let t7 := mul t5 t6 in
  let t15 := mul t0 t5 in
  let t17 := square t12 in
  let t1 := mul t1 t17 in
  let t3 := mul t7 t2 in
  let t8 := mul t1 t17 in
  let t4 := mul t8 t2 in
  let t9 := mul t8 t7 in
  let t7 := mul t4 t5 in
  let t11 := mul t4 t17 in
  let t5 := mul t9 t17 in
  let t14 := mul t7 t15 in
  let t13 := mul t11 t12 in
  let t12 := mul t11 t17 in
  let t15 := mul t15 t12 in
  let t16 := mul t16 t15 in
  let t3 := mul t3 t16 in
  let t17 := mul t17 t3 in
  let t0 := mul t0 t17 in
  let t6 := mul t6 t0 in
  let t2 := mul t2 t6 in
  let t0 := square_assign_multi t0 8 in
  let t0 := mul t0 t17 in
  let t0 := square_assign_multi t0 9 in
  let t0 := mul t0 t16 in
  let t0 := square_assign_multi t0 9 in
  let t0 := mul t0 t15 in
  let t0 := square_assign_multi t0 9 in
  let t0 := mul t0 t15 in
  let t0 := square_assign_multi t0 7 in
  let t0 := mul t0 t14 in
  let t0 := square_assign_multi t0 7 in
  let t0 := mul t0 t13 in
  let t0 := square_assign_multi t0 10 in
  let t0 := mul t0 t12 in
  let t0 := square_assign_multi t0 9 in
  let t0 := mul t0 t11 in
  let t0 := square_assign_multi t0 8 in
  let t0 := mul t0 t8 in
  let t0 := square_assign_multi t0 8 in
  let t0 := mul t0 a in
  let t0 := square_assign_multi t0 14 in
  let t0 := mul t0 t9 in
  let t0 := square_assign_multi t0 10 in
  let t0 := mul t0 t8 in
  let t0 := square_assign_multi t0 15 in
  let t0 := mul t0 t7 in
  let t0 := square_assign_multi t0 10 in
  let t0 := mul t0 t6 in
  let t0 := square_assign_multi t0 8 in
  let t0 := mul t0 t5 in
  let t0 := square_assign_multi t0 16 in
  let t0 := mul t0 t3 in
  let t0 := square_assign_multi t0 8 in
  let t0 := mul t0 t2 in
  let t0 := square_assign_multi t0 7 in
  let t0 := mul t0 t4 in
  let t0 := square_assign_multi t0 9 in
  let t0 := mul t0 t2 in
  let t0 := square_assign_multi t0 8 in
  let t0 := mul t0 t3 in
  let t0 := square_assign_multi t0 8 in
  let t0 := mul t0 t2 in
  let t0 := square_assign_multi t0 8 in
  let t0 := mul t0 t2 in
  let t0 := square_assign_multi t0 8 in
  let t0 := mul t0 t2 in
  let t0 := square_assign_multi t0 8 in
  let t0 := mul t0 t3 in
  let t0 := square_assign_multi t0 8 in
  let t0 := mul t0 t2 in
  let t0 := square_assign_multi t0 8 in
  let t0 := mul t0 t2 in
  let t0 := square_assign_multi t0 5 in
  let t0 := mul t0 t1 in
  let t0 := square_assign_multi t0 5 in
  let t0 := mul t0 t1 in
  t0.
Definition invert (a : scalar) : option scalar :=
  let t0 := invert_chain a in
  if negb (ct_eq a zero) then Some t0 else None.

(** scalar.rs:533-579 [sqrt].  State of the inner loop: (k, tmp, j_less_than_v, z);
    of the outer loop: (v, x, b, z). *)
Definition sqrt_inner (v j : nat) (st : nat * scalar * bool * scalar) : nat * scalar * bool * scalar :=
  let '(k, tmp, jlv, z) := st in
  let tmp_is_one := ct_eq tmp one in
  let squared := square (conditional_select tmp z tmp_is_one) in
  let tmp := conditional_select squared tmp tmp_is_one in
  let new_z := conditional_select z squared tmp_is_one in
  let jlv := jlv && negb (Nat.eqb j v) in
  let k := if tmp_is_one then k else j in
  let z := conditional_select z new_z jlv in
  (k, tmp, jlv, z).
Definition sqrt_outer (st : nat * scalar * scalar * scalar) (max_v : nat) : nat * scalar * scalar * scalar :=
  let '(v, x, b, z) := st in
  let '(k, tmp, jlv, z) :=
    fold_left (fun st j => sqrt_inner v j st) (seq 2 (max_v - 2)) (1%nat, square b, true, z) in
  let result := mul x z in
  let x := conditional_select result x (ct_eq b one) in
  let z := square z in
  let b := mul b z in
  let v := k in
  (v, x, b, z).
Definition sqrt_exp : list Z := [0x7fff2dff7fffffff; 0x04d0ec02a9ded201; 0x94cebea4199cec04; 0x0000000039f6d3a9].
Definition sqrt (a : scalar) : option scalar :=
  let w := pow_vartime a sqrt_exp in
  let v := S_adicity in
  let x := mul a w in
  let b := mul x w in
  let z := ROOT_OF_UNITY in
  let '(v, x, b, z) := fold_left sqrt_outer (rev (seq 1 S_adicity)) (v, x, b, z) in
  if ct_eq (mul x x) a then Some x else None.

(** scalar.rs:847-870 [divn] *)
Definition divn_words (st : Z * scalar) : res (Z * scalar) :=
  let '(n, Scalar l0 l1 l2 l3) := st in Ok (n - 64, Scalar l1 l2 l3 0).
Definition divn (a : scalar) (n : Z) : res scalar :=
  if 256 <=? n then Ok (from_u64 0) else
  let* (n, a) := while_ 5 (fun st => 64 <=? fst st) divn_words (n, a) in
  if 0 <? n then
    let '(Scalar l0 l1 l2 l3) := a in
    let t := 0 in
    let t2 := shl l3 (64 - n) in let l3 := Z.lor (shr l3 n) t in let t := t2 in
    let t2 := shl l2 (64 - n) in let l2 := Z.lor (shr l2 n) t in let t := t2 in
    let t2 := shl l1 (64 - n) in let l1 := Z.lor (shr l1 n) t in let t := t2 in
    let l0 := Z.lor (shr l0 n) t in
    Ok (Scalar l0 l1 l2 l3)
  else Ok a.

(** ** the trait implementation, zkcrypto/src/zkfr.rs *)

(** zkfr.rs:28-30 [is_null], :75-90 [is_one], [is_zero] *)
Definition is_null (a : scalar) : bool := ct_eq a null.
Definition is_one (a : scalar) : bool := ct_eq a one.
Definition is_zero (a : scalar) : bool := ct_eq a zero.

(** zkfr.rs:55-67 [to_u64_arr] *)
Definition to_u64_arr (a : scalar) : list Z :=
  let bytes := to_bytes a in [word bytes 0; word bytes 1; word bytes 2; word bytes 3].

(** zkfr.rs:110-118 [eucl_inverse], :146-153 [inverse]: [invert().unwrap()] *)
Definition zk_inverse (a : scalar) : res scalar :=
  match invert a with Some x => Ok x | None => Panic end.

(** zkfr.rs:155-162 [div], :171-178 [fr_div] *)
Definition zk_div (a b : scalar) : res scalar :=
  if is_zero b then Ok zero else
  let* tmp := zk_inverse b in
  Ok (mul a tmp).

(** zkfr.rs:120-139 [pow]: [loop] over the bits of a [usize]; state (n2, tmp, out) *)
Fixpoint zk_pow_loop (fuel : nat) (n2 : Z) (tmp out : scalar) : res scalar :=
  match fuel with
  | O => NoFuel
  | S f =>
    let out := if Z.land n2 1 =? 1 then mul out tmp else out in
    let n2 := shr n2 1 in
    if n2 =? 0 then Ok out else zk_pow_loop f n2 (square tmp) out
  end.
Definition zk_pow (a : scalar) (n : Z) : res scalar := zk_pow_loop 64 n a one.
