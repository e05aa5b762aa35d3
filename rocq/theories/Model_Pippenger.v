(** * Model_Pippenger: model of [pippenger] in [zkcrypto/src/curve/multiscalar_mul.rs]

    The function is compiled only with the feature [std], which the crate does not declare;
    nothing calls it, and its test is commented out. *)
From Coq Require Import List Arith Bool ZArith.
From Verif Require Import Base Fld Zr Model_ZkMsm.
Import ListNotations.
Local Open Scope Z_scope.

(** [x as i8], and addition of [i8] with overflow checks *)
Definition as_i8 (z : Z) : Z := (z + 128) mod 256 - 128.
Definition add_i8 (a b : Z) : res Z := if (-128 <=? a + b) && (a + b <=? 127) then Ok (a + b) else Panic.

(** multiscalar_mul.rs:135-137: [LittleEndian::read_u64_into] of [to_bytes], the canonical number *)
Definition radix_words (x : Fr) : list Z := map (fun i => val x / 2 ^ (64 * Z.of_nat i) mod 2 ^ 64) (seq 0 4).

(** multiscalar_mul.rs:110-126 [to_radix_2w_size_hint] *)
Definition radix_count (w : nat) : nat := ((256 + w - 1) / w)%nat.
Definition to_radix_2w_size_hint (w : nat) : res nat :=
  if (w =? 6)%nat || (w =? 7)%nat then Ok (radix_count w)
  else if (w =? 8)%nat then Ok (radix_count w + 1)%nat
  else Panic.

(** multiscalar_mul.rs:146-160: the bits from [bit_offset] on; shifts out of the word are lost *)
Definition radix_bits (ws : list Z) (w i : nat) : res Z :=
  let bit_offset := (i * w)%nat in
  let u64_idx := (bit_offset / 64)%nat in
  let bit_idx := (bit_offset mod 64)%nat in
  if (bit_idx <? 64 - w)%nat || (u64_idx =? 3)%nat then
    let* a := idx ws u64_idx in
    Ok (Z.shiftr a (Z.of_nat bit_idx))
  else
    let* a := idx ws u64_idx in
    let* b := idx ws (1 + u64_idx)%nat in
    Ok (Z.lor (Z.shiftr a (Z.of_nat bit_idx)) (Z.shiftl b (64 - Z.of_nat bit_idx) mod 2 ^ 64)).

(** multiscalar_mul.rs:128-184 [to_radix_2w] *)
Definition to_radix_2w (x : Fr) (w : nat) : res (list Z) :=
  let ws := radix_words x in
  let radix := 2 ^ Z.of_nat w in
  let window_mask := radix - 1 in
  let* st := for_range 0 (radix_count w) (fun i (st : list Z * Z) =>
      let (digits, carry) := st in
      let* bit_buf := radix_bits ws w i in
      let coef := carry + Z.land bit_buf window_mask in
      let carry := Z.shiftr (coef + radix / 2) (Z.of_nat w) in
      let* digits := upd digits i (as_i8 (coef - Z.shiftl carry (Z.of_nat w))) in
      Ok (digits, carry)) (repeat 0 43, 0) in
  let (digits, carry) := st in
  if (w =? 8)%nat then
    let* d := idx digits (radix_count w) in
    let* d := add_i8 d (as_i8 carry) in
    upd digits (radix_count w) d
  else
    let* i := usub (radix_count w) 1 in
    let* d := idx digits i in
    let* d := add_i8 d (as_i8 (Z.shiftl carry (Z.of_nat w))) in
    upd digits i d.

Section Pippenger.
Context {M : gmod Fr}.

(** multiscalar_mul.rs:58-68: one pair of digits and point in one column *)
Definition pip_pair (digit_index : nat) (dp : list Z * M) (buckets : list M) : res (list M) :=
  let (digits, pt) := dp in
  let* digit := idx digits digit_index in
  if 0 <? digit then
    let b := Z.to_nat (digit - 1) in
    let* x := idx buckets b in
    upd buckets b (gadd x pt)
  else if digit <? 0 then
    let b := Z.to_nat (- digit - 1) in
    let* x := idx buckets b in
    upd buckets b (gsub x pt)
  else Ok buckets.

(** multiscalar_mul.rs:48-88: one column *)
Definition pip_column (pairs : list (list Z * M)) (buckets_count digit_index : nat) : res M :=
  let* buckets := for_each pairs (pip_pair digit_index) (repeat g0 buckets_count) in
  let* last := usub buckets_count 1 in
  let* top := idx buckets last in
  let* st := for_each (rev (seq 0 last)) (fun i (st : M * M) =>
      let (intermediate, sum) := st in
      let* b := idx buckets i in
      let intermediate := gadd intermediate b in
      Ok (intermediate, gadd sum intermediate)) (top, top) in
  Ok (snd st).

(** multiscalar_mul.rs:96-107 [mul_by_pow_2] *)
Definition mul_by_pow_2 (point : M) (k : nat) : res M :=
  let* k1 := usub k 1 in
  let* s := for_range 0 k1 (fun _ s => Ok (gadd s s)) point in
  Ok (gadd s s).

(** multiscalar_mul.rs:15-94 [pippenger]; [size] is the lower bound that the iterator over the
    scalars announces, [zip] stops at the shorter iterator *)
Definition pippenger (size : nat) (points : list M) (scalars : list Fr) : res M :=
  let w := if (size <? 500)%nat then 6%nat else if (size <? 800)%nat then 7%nat else 8%nat in
  let max_digit := (2 ^ w)%nat in
  let* digits_count := to_radix_2w_size_hint w in
  let buckets_count := (max_digit / 2)%nat in
  let* ds := for_each scalars (fun s acc => let* d := to_radix_2w s w in Ok (acc ++ [d])) [] in
  let pairs := combine ds points in
  match rev (seq 0 digits_count) with
  | [] => Panic
  | hi :: rest =>
    let* total := pip_column pairs buckets_count hi in
    for_each rest (fun i total =>
      let* p := pip_column pairs buckets_count i in
      let* t := mul_by_pow_2 total w in
      Ok (gadd t p)) total
  end.
End Pippenger.
