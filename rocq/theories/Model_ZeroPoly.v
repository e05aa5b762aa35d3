(** * Model_ZeroPoly: model of [zero_poly.rs] (crate blst-from-scratch, sequential build) *)
From Coq Require Import List Arith Bool.
From Verif Require Import Base Fld Model_Utils Model_FFT.
Import ListNotations.

(** Rust's [Vec::splice(a..b, v)] with the removed items dropped *)
Definition splice {A} (l : list A) (a b : nat) (v : list A) : res (list A) :=
  if (a <=? b) && (b <=? length l) then Ok (firstn a l ++ v ++ skipn b l) else Panic.

Section Model.
Context {K : fld}.

(** zero_poly.rs:24-38 [pad_poly] *)
Definition pad_poly (poly : list K) (new_length : nat) : res (list K) :=
  if new_length <? length poly then Err
  else for_range (length poly) new_length (fun _ ret => Ok (ret ++ [f0])) poly.

(** zero_poly.rs:66-71: the inner loop of [do_zero_poly_mul_partial], [j] counting down *)
Definition zero_inner (neg_di : K) (i : nat) (poly : list K) : res (list K) :=
  let* st := while_ (S i) (fun st : nat * list K => 0 <? fst st)
    (fun st => let (j, poly) := st in
       let* x := idx poly j in
       let* poly := upd poly j (fmul x neg_di) in
       let* x := idx poly j in
       let* y := idx poly (j - 1) in
       let* poly := upd poly j (fadd x y) in
       Ok (j - 1, poly)) (i - 1, poly) in
  Ok (snd st).

(** zero_poly.rs:58-75: one step of the outer loop *)
Definition zero_step (s : fft_settings K) (idxs : list nat) (stride i : nat) (poly : list K) : res (list K) :=
  let* k := idx idxs i in
  let* w := idx (expanded_roots s) (k * stride) in
  let* poly := upd poly i (fneg w) in
  let* neg_di := idx poly i in
  let* y := idx poly (i - 1) in
  let* poly := upd poly i (fadd neg_di y) in
  let* poly := zero_inner neg_di i poly in
  let* x := idx poly 0 in
  upd poly 0 (fmul x neg_di).

(** zero_poly.rs:44-78 [do_zero_poly_mul_partial] *)
Definition do_zero_poly_mul_partial (s : fft_settings K) (idxs : list nat) (stride : nat) : res (list K) :=
  if length idxs =? 0 then Err
  else
    let poly := repeat f1 (length idxs + 1) in
    let* k := idx idxs 0 in
    let* w := idx (expanded_roots s) (k * stride) in
    let* poly := upd poly 0 (fneg w) in
    for_range 1 (length idxs) (zero_step s idxs stride) poly.

(** zero_poly.rs:82-119 [reduce_partials] *)
Definition reduce_partials (s : fft_settings K) (domain_size : nat) (partials : list (list K)) : res (list K) :=
  if negb (is_pow2 domain_size) then Err
  else
    let* out_degree := for_range 0 (length partials) (fun i d =>
        let* p := idx partials i in
        let* l := usub (length p) 1 in
        Ok (d + l)) 0 in
    if domain_size <? out_degree + 1 then Err
    else
      let* p0 := idx partials 0 in
      let* padded := pad_poly p0 domain_size in
      let* eval_result := fft_fr s padded false in
      let* eval_result := for_range 1 (length partials) (fun i ev =>
          let* p := idx partials i in
          let* padded := pad_poly p domain_size in
          let* e := fft_fr s padded false in
          for_range 0 domain_size (fun j ev =>
            let* x := idx ev j in
            let* y := idx e j in
            upd ev j (fmul x y)) ev) eval_result in
      let* coeffs := fft_fr s eval_result true in
      slice coeffs 0 (out_degree + 1).

(** zero_poly.rs:178-193: construction of the partial polynomials *)
Definition zp_partials (s : fft_settings K) (missing : list nat) (stride count : nat) (work : list K)
  : res (list K * list nat * list nat) :=
  let* st := for_range 0 count (fun _ (st : list K * list nat * list nat * nat * nat) =>
      let '(work, lens, offsets, missing_offset, work_offset) := st in
      let e := Nat.min (missing_offset + 63) (length missing) in
      let* sl := slice missing missing_offset e in
      let* partial := do_zero_poly_mul_partial s sl stride in
      let* partial := pad_poly partial 64 in
      let* work := splice work work_offset (work_offset + 64) partial in
      Ok (work, lens ++ [64], offsets ++ [work_offset], missing_offset + 63, work_offset + 64))
    (work, [], [], 0, 0) in
  let '(work, lens, offsets, _, _) := st in
  Ok (work, lens, offsets).

(** zero_poly.rs:259-266: the partial views of group [i] *)
Definition zp_views (work : list K) (lens : list nat) (size i start num : nat) (offsets : list nat)
  : res (list nat * list (list K)) :=
  for_range 0 num (fun j (st : list nat * list (list K)) =>
    let (offsets, pv) := st in
    let* offsets := upd offsets (i + j) ((start + j) * size) in
    let* o := idx offsets (i + j) in
    let* l := idx lens (i + j) in
    let* v := slice work o (o + l) in
    Ok (offsets, pv ++ [v])) (offsets, []).

(** zero_poly.rs:249-281: reduction of group [i] *)
Definition zp_group (s : fft_settings K) (domain ceiling count size i : nat)
  (st : list K * list nat * list nat) : res (list K * list nat * list nat) :=
  let '(work, lens, offsets) := st in
  let start := i * 4 in
  let out_end := Nat.min ((start + 4) * size) ceiling in
  let* d := usub out_end (start * size) in
  let reduced_len := Nat.min d domain in
  let* rest := usub count start in
  let num := Nat.min 4 rest in
  let* offsets := upd offsets i (start * size) in
  let* ov := zp_views work lens size i start num offsets in
  let (offsets, pv) := ov in
  if 1 <? num then
    let* red := reduce_partials s reduced_len pv in
    let* lens := upd lens i (length red) in
    let* red := pad_poly red (size * num) in
    let* o := idx offsets i in
    let* work := splice work o (o + length red) red in
    Ok (work, lens, offsets)
  else
    let* l := idx lens start in
    let* lens := upd lens i l in
    Ok (work, lens, offsets).

(** zero_poly.rs:244-285: one level of the reduction tree *)
Definition zp_level (s : fft_settings K) (domain ceiling : nat)
  (st : nat * (list K * list nat * list nat)) : res (nat * (list K * list nat * list nat)) :=
  let (count, wlo) := st in
  let reduced_count := 1 + (count - 1) / 4 in
  let '(_, lens, _) := wlo in
  let* l0 := idx lens 0 in
  let* size := next_pow2 l0 in
  let* wlo := for_range 0 reduced_count (zp_group s domain ceiling count size) wlo in
  Ok (reduced_count, wlo).

(** zero_poly.rs:161-287: the branch for more than 63 missing indices *)
Definition zp_tree (s : fft_settings K) (domain ceiling count stride : nat) (missing : list nat) : res (list K) :=
  let* wlen := next_pow2 (count * 64) in
  let* wlo := zp_partials s missing stride count (repeat f0 wlen) in
  let '(work, lens, offsets) := wlo in
  let* l := usub (1 + length missing) ((count - 1) * 63) in
  let* c1 := usub count 1 in
  let* lens := upd lens c1 l in
  let* st := while_ (S count) (fun st => 1 <? fst st) (zp_level s domain ceiling) (count, (work, lens, offsets)) in
  let '(_, (work, _, _)) := st in
  Ok work.

(** zero_poly.rs:121-305 [zero_poly_via_multiplication] *)
Definition zero_poly_via_multiplication (s : fft_settings K) (domain : nat) (missing : list nat)
  : res (list K * list K) :=
  if length missing =? 0 then Ok ([], [])
  else if domain <=? length missing then Err
  else if max_width s <? domain then Err
  else if negb (is_pow2 domain) then Err
  else
    let stride := max_width s / domain in
    let count := 1 + (length missing - 1) / 63 in
    let* next_pow := next_pow2 (count * 64) in
    let ceiling := Nat.min next_pow domain in
    let* zero_poly :=
      if length missing <=? 63 then do_zero_poly_mul_partial s missing stride
      else zp_tree s domain ceiling count stride missing in
    let* zero_poly :=
      match Nat.compare (length zero_poly) domain with
      | Lt => pad_poly zero_poly domain
      | Eq => Ok zero_poly
      | Gt => slice zero_poly 0 domain
      end in
    let* zero_eval := fft_fr s zero_poly false in
    Ok (zero_eval, zero_poly).

End Model.
