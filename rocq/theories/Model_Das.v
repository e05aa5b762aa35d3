(** * Model_Das: model of [data_availability_sampling.rs] (crate [blst-from-scratch]),
    sequential build (the [parallel] feature is modelled in [Model_Par]). *)
From Coq Require Import List Arith Bool.
From Verif Require Import Base Fld Model_Utils Model_FFT.
Import ListNotations.

Section Model.
Context {K : fld}.

(** data_availability_sampling.rs:28-35: first loop of [das_fft_extension_stride] *)
Definition das_split (s : fft_settings K) (half stride : nat) (evens : list K) : res (list K) :=
  for_range 0 half (fun i evens =>
    let* a := idx evens i in
    let* b := idx evens (half + i) in
    let tmp1 := fadd a b in
    let tmp2 := fsub a b in
    let* r := idx (reverse_roots s) (i * 2 * stride) in
    let* evens := upd evens (half + i) (fmul tmp2 r) in
    upd evens i tmp1) evens.

(** data_availability_sampling.rs:59-66: last loop of [das_fft_extension_stride] *)
Definition das_join (s : fft_settings K) (half stride : nat) (evens : list K) : res (list K) :=
  for_range 0 half (fun i evens =>
    let* x := idx evens i in
    let* y := idx evens (half + i) in
    let* r := idx (expanded_roots s) ((1 + 2 * i) * stride) in
    let y_times_root := fmul y r in
    let* evens := upd evens i (fadd x y_times_root) in
    upd evens (half + i) (fsub x y_times_root)) evens.

(** data_availability_sampling.rs:10-67 [das_fft_extension_stride] *)
Fixpoint das_stride_ (fuel : nat) (s : fft_settings K) (evens : list K) (stride : nat) : res (list K) :=
  match fuel with
  | O => NoFuel
  | S fuel' =>
    match length evens ?= 2 with
    | Lt => Ok evens
    | Eq =>
      let* e0 := idx evens 0 in
      let* e1 := idx evens 1 in
      let x := fadd e0 e1 in
      let y := fsub e0 e1 in
      let* r := idx (expanded_roots s) stride in
      let y_times_root := fmul y r in
      let* evens := upd evens 0 (fadd x y_times_root) in
      upd evens 1 (fsub x y_times_root)
    | Gt =>
      let half := length evens / 2 in
      let* evens := das_split s half stride evens in
      let* lo := das_stride_ fuel' s (firstn half evens) (stride * 2) in
      let* hi := das_stride_ fuel' s (skipn half evens) (stride * 2) in
      das_join s half stride (lo ++ hi)
    end
  end.

Definition das_fft_extension_stride (s : fft_settings K) (evens : list K) (stride : nat) : res (list K) :=
  das_stride_ (S (length evens)) s evens stride.

(** data_availability_sampling.rs:74-96 [das_fft_extension] *)
Definition das_fft_extension (s : fft_settings K) (evens : list K) : res (list K) :=
  if length evens =? 0 then Err
  else if negb (is_pow2 (length evens)) then Err
  else if max_width s <? length evens * 2 then Err
  else
    let stride := max_width s / (length evens * 2) in
    let* odds := das_fft_extension_stride s evens stride in
    let inv_len := finv (fnat (length odds)) in
    Ok (map (fun f => fmul f inv_len) odds).

End Model.
