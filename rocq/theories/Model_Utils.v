(** * Model_Utils: model of [blst-from-scratch/src/utils.rs]

    [usize]/[u64] words are elements of [N]; every operation that could leave the
    64-bit range is checked explicitly (a Rust build with overflow checks). *)
From Coq Require Import NArith List Arith Lia Bool.
From Verif Require Import Base.
Import ListNotations.
Local Open Scope N_scope.

(** utils.rs:8-10 [is_power_of_two] *)
Definition is_power_of_two (x : N) : bool :=
  negb (x =? 0) && (N.land x (x - 1) =? 0).

(** utils.rs:12-28 [next_power_of_two].  [v -= 1] panics on 0 and [v += 1] panics
    when the result does not fit 64 bits (overflow checks on). *)
Definition next_power_of_two (v : N) : res N :=
  if v =? 0 then Panic else
  let v := v - 1 in
  let v := N.lor v (N.shiftr v 1) in
  let v := N.lor v (N.shiftr v 2) in
  let v := N.lor v (N.shiftr v 4) in
  let v := N.lor v (N.shiftr v 8) in
  let v := N.lor v (N.shiftr v 16) in
  let v := N.lor v (N.shiftr v 32) in
  let v := v + 1 in
  if 2 ^ 64 <=? v then Panic else
  Ok (if v =? 0 then v + 1 else v).

(** utils.rs:30-37 [log_2_byte]; [b] is a [u8].  All intermediate values fit. *)
Definition log_2_byte (b : N) : N :=
  let r := N.shiftl (if 0xF <? b then 1 else 0) 2 in
  let b := N.shiftr b r in
  let shift := N.shiftl (if 0x3 <? b then 1 else 0) 1 in
  let b := N.shiftr b (shift + 1) in
  N.lor r (N.lor shift b).

(** utils.rs:39-47 [log2_pow2] *)
Definition log2_pow2 (n : N) : N :=
  let bit m := if N.land n m =? 0 then 0 else 1 in
  let r := bit 0xAAAAAAAA in
  let r := N.lor r (N.shiftl (bit 0xCCCCCCCC) 1) in
  let r := N.lor r (N.shiftl (bit 0xF0F0F0F0) 2) in
  let r := N.lor r (N.shiftl (bit 0xFF00FF00) 3) in
  let r := N.lor r (N.shiftl (bit 0xFFFF0000) 4) in
  r.

(** utils.rs:49-57 [log2_u64]; the loop runs at most 63 times on 64-bit words *)
Definition log2_u64 (n : N) : res N :=
  let* s := while_ 65 (fun s : N * N => negb (N.shiftr (fst s) 1 =? 0))
              (fun s => Ok (N.shiftr (fst s) 1, snd s + 1)) (n, 0) in
  Ok (snd s).

(** utils.rs:59-73 *)
Definition min_u64 (a b : nat) : nat := if Nat.ltb a b then a else b.
Definition max_u64 (a b : nat) : nat := if Nat.ltb a b then b else a.

(** Rust primitives used by utils.rs:92-105: [leading_zeros] and [reverse_bits]
    of a 64-bit word. *)
Definition leading_zeros (x : N) : N := if x =? 0 then 64 else 63 - N.log2 x.
Fixpoint rbits (n : nat) (x : N) : N :=
  match n with
  | O => 0
  | S n' => (x mod 2) * 2 ^ N.of_nat n' + rbits n' (x / 2)
  end.
Definition reverse_bits (x : N) : N := rbits 64 x.

(** a shift by 64 or more panics (overflow checks) *)
Definition shr (x k : N) : res N := if k <? 64 then Ok (N.shiftr x k) else Panic.

(** utils.rs:92-105 [reverse_bit_order] *)
Definition reverse_bit_order {A} (values : list A) : res (list A) :=
  let unused_bit_len := leading_zeros (N.of_nat (length values)) + 1 in
  let* last := usub (length values) 1 in
  for_range 0 last (fun i values =>
    let* r := shr (reverse_bits (N.of_nat i)) unused_bit_len in
    let r := N.to_nat r in
    if Nat.ltb i r then
      let* tmp := idx values r in
      let* vi := idx values i in
      let* values := upd values r vi in
      upd values i tmp
    else Ok values) values.

(** mcl-kzg/kzg/src/utilities.rs:3-13 [order_by_rev_bit_order]: same algorithm but
    the loop visits every index (so [length = 1] shifts by 64). *)
Definition mcl_order_by_rev_bit_order {A} (vals : list A) : res (list A) :=
  let unused_bit_len := leading_zeros (N.of_nat (length vals)) + 1 in
  for_range 0 (length vals) (fun i vals =>
    let* r := shr (reverse_bits (N.of_nat i)) unused_bit_len in
    let r := N.to_nat r in
    if Nat.ltb i r then
      let* tmp := idx vals r in
      let* vi := idx vals i in
      let* vals := upd vals r vi in
      upd vals i tmp
    else Ok vals) vals.

(** mcl-kzg/kzg/src/utilities.rs:15-17 [is_power_of_2]: [n - 1] underflows at 0 *)
Definition mcl_is_power_of_2 (n : N) : res bool :=
  if n =? 0 then Panic else Ok (N.land n (n - 1) =? 0).

(** the versions used on vector lengths *)
Definition is_pow2 (n : nat) : bool := is_power_of_two (N.of_nat n).
Definition next_pow2 (n : nat) : res nat :=
  let* r := next_power_of_two (N.of_nat n) in Ok (N.to_nat r).
