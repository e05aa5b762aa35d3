(** * Model_ZkMsm: model of [zkcrypto/src/curve/multiscalar_mul.rs], the bucket method for
    sums of scalar multiples, sequential build

    Only [msm_variable_base] is reachable; [pippenger] and [to_radix_2w] are not called. *)
From Coq Require Import List Arith Bool ZArith NArith.
From Verif Require Import Base Fld Model_Scalar Zr.
Import ListNotations.

(** a Rust [for] over the elements of a list *)
Fixpoint for_each {A S} (l : list A) (body : A -> S -> res S) (s : S) : res S :=
  match l with
  | [] => Ok s
  | x :: l => let* s := body x s in for_each l body s
  end.

(** multiscalar_mul.rs:278-285 [log2]: 64 minus the number of leading zero bits *)
Definition msm_log2 (x : nat) : nat :=
  if x <=? 1 then 0 else N.to_nat (N.size (N.of_nat x)).

(** multiscalar_mul.rs:274-277 [ln_without_floats] *)
Definition ln_without_floats (a : nat) : nat := msm_log2 a * 69 / 100.

(** [(0..n).step_by(c)] *)
Definition step_by (n c : nat) : list nat := map (fun i => i * c) (seq 0 ((n + c - 1) / c)).

Section Msm.
(** The points, with the identity, the addition and the doubling of the type. *)
Context {M : Type}.
Variables (zero : M) (add : M -> M -> M) (dbl : M -> M).
(** The scalars, the two comparisons at multiscalar_mul.rs:221 and 223, and the window digit
    at 229-236: the low limb of the scalar, taken out of Montgomery form and shifted right
    by [w_start], modulo 2^c. *)
Context {Sc : Type}.
Variables (is_zero is_one : Sc -> bool) (digit : Sc -> nat -> nat -> res nat).

(** multiscalar_mul.rs:218-246: one pair of scalar and point in one window *)
Definition msm_pair (c w_start : nat) (sp : Sc * M) (st : M * list M) : res (M * list M) :=
  let (scalar, base) := sp in
  let (res, buckets) := st in
  if is_zero scalar then Ok st
  else if is_one scalar then
    if w_start =? 0 then Ok (add res base, buckets) else Ok st
  else
    let* d := digit scalar w_start c in
    if d =? 0 then Ok st
    else
      let* b := idx buckets (d - 1) in
      let* buckets := upd buckets (d - 1) (add b base) in
      Ok (res, buckets).

(** multiscalar_mul.rs:214-255: one window *)
Definition msm_window (c : nat) (pairs : list (Sc * M)) (w_start : nat) : res M :=
  let* st := for_each pairs (msm_pair c w_start) (zero, repeat zero (2 ^ c - 1)) in
  let (res, buckets) := st in
  let* st := for_each (rev buckets) (fun b (st : M * M) =>
      let (running_sum, res) := st in
      let running_sum := add running_sum b in
      Ok (running_sum, add res running_sum)) (zero, res) in
  Ok (snd st).

(** multiscalar_mul.rs:189-272 [msm_variable_base] *)
Definition msm_variable_base (points : list M) (scalars : list Sc) : res M :=
  let c := if length scalars <? 32 then 3 else ln_without_floats (length scalars) + 2 in
  let window_starts := step_by 255 c in
  let pairs := combine scalars points in
  let* window_sums := for_each window_starts (fun w_start sums =>
      let* s := msm_window c pairs w_start in Ok (sums ++ [s])) [] in
  let* lowest := idx window_sums 0 in
  let* rest := slice_from window_sums 1 in
  let* total := for_each (rev rest) (fun sum_i total =>
      for_range 0 c (fun _ total => Ok (dbl total)) (add total sum_i)) zero in
  Ok (add total lowest).
End Msm.

(** ** with the scalars as limbs in Montgomery form *)
Definition limb_digit (s : scalar) (w_start c : nat) : res nat :=
  let* t := divn (reduce s) (Z.of_nat w_start) in
  let '(Scalar l0 _ _ _) := t in
  Ok (Z.to_nat (l0 mod 2 ^ Z.of_nat c)).

Definition msm_limbs {M : gmod Fr} (points : list M) (scalars : list scalar) : res M :=
  msm_variable_base g0 gadd (fun a => gadd a a) Model_Scalar.is_zero Model_Scalar.is_one limb_digit points scalars.

(** ** with the scalars as field elements (the value the limbs represent) *)
Definition fr_digit (x : Fr) (w_start c : nat) : res nat :=
  Ok (Z.to_nat (val x / 2 ^ Z.of_nat w_start mod 2 ^ Z.of_nat c)).

Definition msm_fr {M : gmod Fr} (points : list M) (scalars : list Fr) : res M :=
  msm_variable_base g0 gadd (fun a => gadd a a) (fun x => feqb x f0) (fun x => feqb x f1) fr_digit points scalars.
