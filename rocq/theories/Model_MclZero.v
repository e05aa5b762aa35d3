(** * Model_MclZero: vanishing polynomials and recovery of the mcl backend

    Crate [mcl-kzg/kzg], [src/zero_poly.rs] and [src/data_recovery.rs], sequential build
    except where said otherwise.  The trait wrappers
    (trait_implementations/zero_poly.rs, trait_implementations/poly.rs:73-77) forward to
    these methods unchanged. *)
From Coq Require Import List Arith Bool NArith ZArith.
From Verif Require Import Base Fld Model_Utils Model_FFT Model_ZeroPoly Model_Recovery Model_Mcl Model_MclPoly.
Import ListNotations.

(** utilities.rs [next_pow_of_2] and [is_power_of_2] on lengths *)
Definition mcl_next_pow (n : nat) : res nat :=
  let* r := mcl_next_pow_of_2 (N.of_nat n) in Ok (N.to_nat r).
Definition mcl_is_pow (n : nat) : res bool := mcl_is_power_of_2 (N.of_nat n).

Section Model.
Context {K : fld}.

(** zero_poly.rs:8-22 [pad_poly] *)
Definition mcl_pad_poly (new_length : nat) (poly : list K) : res (list K) :=
  if new_length <? length poly then Err else
  for_range (length poly) new_length (fun _ ret => Ok (ret ++ [f0])) poly.

(** zero_poly.rs:44-46: [for j in (1..i).rev()]; [t] counts the rounds, so [j = i - 1 - t] *)
Definition mcl_zero_inner (neg_di : K) (i : nat) (coeffs : list K) : res (list K) :=
  for_range 0 (i - 1) (fun t coeffs =>
    let j := i - 1 - t in
    let* x := idx coeffs j in
    let* y := idx coeffs (j - 1) in
    upd coeffs j (fadd (fmul x neg_di) y)) coeffs.

(** zero_poly.rs:40-49: one round of the outer loop *)
Definition mcl_zero_step (s : fft_settings K) (indices : list nat) (stride i : nat) (coeffs : list K) : res (list K) :=
  let* item := idx indices i in
  let* w := idx (expanded_roots s) (item * stride) in
  let* coeffs := upd coeffs i (fneg w) in
  let* neg_di := idx coeffs i in
  let* x := idx coeffs i in
  let* y := idx coeffs (i - 1) in
  let* coeffs := upd coeffs i (fadd x y) in
  let* coeffs := mcl_zero_inner neg_di i coeffs in
  let* x := idx coeffs 0 in
  upd coeffs 0 (fmul x neg_di).

(** zero_poly.rs:28-52 [do_zero_poly_mul_partial] *)
Definition mcl_do_zero (s : fft_settings K) (indices : list nat) (stride : nat) : res (list K) :=
  if length indices =? 0 then Err else
  let poly := repeat f1 (length indices + 1) in
  let* i0 := idx indices 0 in
  let* w := idx (expanded_roots s) (i0 * stride) in
  let* poly := upd poly 0 (fneg w) in
  for_range 1 (length indices) (mcl_zero_step s indices stride) poly.

(** zero_poly.rs:56-92 [reduce_partials] *)
Definition mcl_reduce_partials (s : fft_settings K) (len_out : nat) (partials : list (list K)) : res (list K) :=
  let* p2 := mcl_is_pow len_out in
  if negb p2 then Err else
  let* out_degree := for_range 0 (length partials) (fun i d =>
      let* p := idx partials i in
      let* l := usub (length p) 1 in
      Ok (d + l)) 0 in
  if len_out <? out_degree + 1 then Err else
  let* last := usub (length partials) 1 in
  let* p := idx partials last in
  let* padded := unwrap (mcl_pad_poly len_out p) in
  let* eval_result := unwrap (mcl_fft s padded false) in
  let* n1 := usub (length partials) 1 in
  let* eval_result := for_range 0 n1 (fun i ev =>
      let* p := idx partials i in
      let* padded := unwrap (mcl_pad_poly len_out p) in
      let* e := unwrap (mcl_fft s padded false) in
      for_range 0 len_out (fun j ev =>
        let* x := idx ev j in
        let* y := idx e j in
        upd ev j (fmul x y)) ev) eval_result in
  let* coeffs := unwrap (mcl_fft s eval_result true) in
  slice coeffs 0 (out_degree + 1).

(** zero_poly.rs:144-160: the partial polynomials *)
Definition mcl_zp_partials (s : fft_settings K) (missing : list nat) (stride count : nat) (work : list K)
  : res (list K * list nat * list nat) :=
  let* st := for_range 0 count (fun _ (st : list K * list nat * list nat * nat * nat) =>
      let '(work, lens, offsets, missing_offset, work_offset) := st in
      let e := Nat.min (missing_offset + 63) (length missing) in
      let* sl := slice missing missing_offset e in
      let* partial := unwrap (mcl_do_zero s sl stride) in
      let* partial := unwrap (mcl_pad_poly 64 partial) in
      let* work := splice work work_offset (work_offset + 64) partial in
      Ok (work, lens ++ [64], offsets ++ [work_offset], missing_offset + 63, work_offset + 64))
    (work, [], [], 0, 0) in
  let '(work, lens, offsets, _, _) := st in
  Ok (work, lens, offsets).

(** zero_poly.rs:179-186: the views of the partials of group [i] *)
Definition mcl_zp_views (work : list K) (lens : list nat) (size i start num : nat) (offsets : list nat)
  : res (list nat * list (list K)) :=
  for_range 0 num (fun j (st : list nat * list (list K)) =>
    let (offsets, pv) := st in
    let* offsets := upd offsets (i + j) ((start + j) * size) in
    let* o := idx offsets (i + j) in
    let* l := idx lens (i + j) in
    let* v := slice work o (o + l) in
    Ok (offsets, pv ++ [v])) (offsets, []).

(** zero_poly.rs:171-201: reduction of group [i] *)
Definition mcl_zp_group (s : fft_settings K) (length_ ceiling count size i : nat)
  (st : list K * list nat * list nat) : res (list K * list nat * list nat) :=
  let '(work, lens, offsets) := st in
  let start := i * 4 in
  let out_end := Nat.min ((start + 4) * size) ceiling in
  let* d := usub out_end (start * size) in
  let reduced_len := Nat.min d length_ in
  let* rest := usub count start in
  let num := Nat.min 4 rest in
  let* offsets := upd offsets i (start * size) in
  let* ov := mcl_zp_views work lens size i start num offsets in
  let (offsets, pv) := ov in
  if 1 <? num then
    let* red := unwrap (mcl_reduce_partials s reduced_len pv) in
    let* lens := upd lens i (length red) in
    let* red := unwrap (mcl_pad_poly (size * num) red) in
    let* o := idx offsets i in
    let* work := splice work o (o + length red) red in
    Ok (work, lens, offsets)
  else
    let* l := idx lens start in
    let* lens := upd lens i l in
    Ok (work, lens, offsets).

(** zero_poly.rs:167-204: one round of the reduction loop *)
Definition mcl_zp_level (s : fft_settings K) (length_ ceiling : nat)
  (st : nat * (list K * list nat * list nat)) : res (nat * (list K * list nat * list nat)) :=
  let (count, wlo) := st in
  let reduced_count := 1 + (count - 1) / 4 in
  let '(_, lens, _) := wlo in
  let* l0 := idx lens 0 in
  let* size := mcl_next_pow l0 in
  let* wlo := for_range 0 reduced_count (mcl_zp_group s length_ ceiling count size) wlo in
  Ok (reduced_count, wlo).

(** zero_poly.rs:131-206: more than 63 missing indices *)
Definition mcl_zp_tree (s : fft_settings K) (length_ ceiling count stride : nat) (missing : list nat) : res (list K) :=
  let* wlen := mcl_next_pow (count * 64) in
  let* wlo := mcl_zp_partials s missing stride count (repeat f0 wlen) in
  let '(work, lens, offsets) := wlo in
  let* l := usub (1 + length missing) ((count - 1) * 63) in
  let* c1 := usub count 1 in
  let* lens := upd lens c1 l in
  let* st := while_ (S count) (fun st => 1 <? fst st) (mcl_zp_level s length_ ceiling) (count, (work, lens, offsets)) in
  let '(_, (work, _, _)) := st in
  Ok work.

(** zero_poly.rs:97-213 [zero_poly_via_multiplication]; line 209 is
    [pad_coeffs_mut] (kzg10.rs:429-435) *)
Definition mcl_zero_poly (s : fft_settings K) (length_ : nat) (missing : list nat) : res (list K * list K) :=
  if length missing =? 0 then Ok (repeat f0 length_, repeat f0 length_)
  else if length_ <=? length missing then Err
  else if max_width s <? length_ then Err
  else
    let* p2 := mcl_is_pow length_ in
    if negb p2 then Err else
    let stride := max_width s / length_ in
    let count := 1 + (length missing - 1) / 63 in
    let* np := mcl_next_pow (count * 64) in
    let ceiling := Nat.min np length_ in
    let* zero_poly :=
      if length missing <=? 63 then unwrap (mcl_do_zero s missing stride)
      else mcl_zp_tree s length_ ceiling count stride missing in
    let zero_poly := mcl_pad zero_poly (length zero_poly) length_ in
    let* zero_eval := unwrap (mcl_fft s zero_poly false) in
    Ok (zero_eval, zero_poly).

(** data_recovery.rs:72-78 [_shift_in_place] *)
Definition mcl_shift (factor : K) (coeffs : list K) : res (list K) :=
  let* st := for_range 0 (length coeffs) (fun i (st : list K * K) =>
      let (coeffs, factor_to_power) := st in
      let* c := idx coeffs i in
      let* coeffs := upd coeffs i (fmul c factor_to_power) in
      Ok (coeffs, fmul factor_to_power factor)) (coeffs, f1) in
  Ok (fst st).

(** data_recovery.rs:17-42 [shift_in_place] and 45-69 [unshift_in_place]
    ([PRIMITIVE_ROOT] = 5, fk20_fft.rs:90) *)
Definition mcl_shift_in_place (coeffs : list K) : res (list K) := mcl_shift (finv (mcl_from_int 5)) coeffs.
Definition mcl_unshift_in_place (coeffs : list K) : res (list K) := mcl_shift (mcl_from_int 5) coeffs.

(** data_recovery.rs:17-42 and 45-69, parallel build: a table of 65536 powers *)
Definition mcl_shift_par (tl : nat) (factor : K) (coeffs : list K) : res (list K) :=
  let* factors := factor_table tl factor in
  for_range 1 (length coeffs) (fun i coeffs =>
    let* c := idx coeffs i in
    let* f := idx factors i in
    upd coeffs i (fmul c f)) coeffs.
Definition mcl_shift_in_place_par (tl : nat) (coeffs : list K) := mcl_shift_par tl (finv (mcl_from_int 5)) coeffs.
Definition mcl_unshift_in_place_par (tl : nat) (coeffs : list K) := mcl_shift_par tl (mcl_from_int 5) coeffs.

(** data_recovery.rs:80-171 [recover_from_samples] up to the choice of the two shifts;
    the [rayon::join]s of the parallel build run independent calls *)
Definition mcl_recover_with (shift unshift : list K -> res (list K)) (s : fft_settings K) (samples : list (option K))
  : res (list K) :=
  let* p2 := mcl_is_pow (length samples) in
  if negb p2 then Err else
  let missing := missing_positions (fun o => match o with None => true | Some _ => false end) samples in
  let* z := unwrap (mcl_zero_poly s (length samples) missing) in
  let (zero_eval, zero_poly) := z in
  let evals := map (fun p : option K * K => match fst p with None => f0 | Some v => fmul v (snd p) end)
                   (combine samples zero_eval) in
  let* poly_with_zero := unwrap (mcl_fft s evals true) in
  let* poly_with_zero := shift poly_with_zero in
  let* zero_poly := shift zero_poly in
  let* e1 := unwrap (mcl_fft s poly_with_zero false) in
  let* e2 := unwrap (mcl_fft s zero_poly false) in
  let reconstructed := map (fun p : K * K => mcl_div_fr (fst p) (snd p)) (combine e1 e2) in
  let* shifted := unwrap (mcl_fft s reconstructed true) in
  let* poly := unshift shifted in
  unwrap (mcl_fft s poly false).

(** the sequential build *)
Definition mcl_recover := mcl_recover_with mcl_shift_in_place mcl_unshift_in_place.
(** the parallel build, with tables of [tl] entries (65536 in the code) *)
Definition mcl_recover_par (tl : nat) := mcl_recover_with (mcl_shift_in_place_par tl) (mcl_unshift_in_place_par tl).

(** data_recovery.rs:173-180 [unwrap_default] *)
Definition mcl_unwrap_default (values : list (option K)) : list K :=
  map (fun o => match o with None => f0 | Some v => v end) values.
End Model.
