(** * Model_ArkZero: model of [zero_poly.rs] and [recover.rs] of the Arkworks backend,
    sequential build *)
From Coq Require Import List Arith Bool.
From Verif Require Import Base Fld Model_Utils Model_FFT Model_ZeroPoly Model_Recovery Model_Zk Model_ZkZero Model_Ark.
Import ListNotations.

Section Model.
Context {K : fld}.
Variable W : K.

(** zero_poly.rs:42-56: one round of [do_zero_poly_mul_partial]; the inner loop (48-53) is
    [zero_inner] *)
Definition ark_zero_step (s : fft_settings K) (indices : list nat) (stride i : nat) (poly : list K) : res (list K) :=
  let* k := idx indices i in
  let* w := idx (expanded_roots s) (k * stride) in
  let neg_di := fneg w in
  let* y := idx poly (i - 1) in
  let* poly := upd poly i (fadd neg_di y) in
  let* poly := zero_inner neg_di i poly in
  let* x := idx poly 0 in
  upd poly 0 (fmul x neg_di).

(** zero_poly.rs:27-59 [do_zero_poly_mul_partial] *)
Definition ark_zero_partial (s : fft_settings K) (indices : list nat) (stride : nat) : res (list K) :=
  if length indices =? 0 then Err
  else
    let poly := dense (repeat f1 (length indices + 1)) in
    let* k := idx indices 0 in
    let* w := idx (expanded_roots s) (k * stride) in
    let* poly := upd poly 0 (fneg w) in
    for_range 1 (length indices) (ark_zero_step s indices stride) poly.

(** zero_poly.rs:61-92 [reduce_partials] *)
Definition ark_reduce_partials (s : fft_settings K) (len_out : nat) (partials : list (list K)) : res (list K) :=
  let* out_degree := for_range 0 (length partials) (fun i d =>
      let* p := idx partials i in
      let* l := usub (length p) 1 in
      Ok (d + l)) 0 in
  if len_out <? out_degree + 1 then Err
  else
    let* p0 := idx partials 0 in
    let* p_partial := unwrap (ark_pad p0 len_out) in
    let* ev := unwrap (ark_fft_fr W s p_partial false) in
    let* ev := for_range 1 (length partials) (fun i ev =>
        let* p := idx partials i in
        let* p_partial := ark_pad p len_out in
        let* e := unwrap (ark_fft_fr W s p_partial false) in
        for_range 0 len_out (fun j ev =>
          let* x := idx ev j in
          let* y := idx e j in
          upd ev j (fmul x y)) ev) ev in
    let* coeffs := ark_fft_fr W s ev true in
    slice coeffs 0 (out_degree + 1).

(** zero_poly.rs:135-155: construction of the partial polynomials *)
Definition ark_zp_partials (s : fft_settings K) (missing : list nat) (stride count : nat) (work : list K)
  : res (list K * list nat) :=
  let* st := for_range 0 count (fun _ (st : list K * list nat * nat * nat) =>
      let '(work, lens, offset, out_offset) := st in
      let e := Nat.min (offset + 63) (length missing) in
      let* sl := slice missing offset e in
      let* partial := ark_zero_partial s sl stride in
      let* partial := ark_pad partial 64 in
      let* work := splice work out_offset (out_offset + 64) partial in
      Ok (work, lens ++ [64], offset + 63, out_offset + 64))
    (work, [], 0, 0) in
  let '(work, lens, _, _) := st in
  Ok (work, lens).

(** zero_poly.rs:171-176: the polynomials of group [i] *)
Definition ark_zp_views (work : list K) (lens : list nat) (size i start num : nat) : res (list (list K)) :=
  for_range 0 num (fun j pv =>
    let k := (start + j) * size in
    let* l := idx lens (i + j) in
    let* v := slice work k (k + l) in
    Ok (pv ++ [v])) [].

(** zero_poly.rs:165-189: reduction of group [i] *)
Definition ark_zp_group (s : fft_settings K) (domain ceiling count size i : nat)
  (st : list K * list nat) : res (list K * list nat) :=
  let (work, lens) := st in
  let start := i * 4 in
  let out_end := Nat.min ((start + 4) * size) ceiling in
  let* d := usub out_end (start * size) in
  let reduced_len := Nat.min d domain in
  let* rest := usub count start in
  let num := Nat.min 4 rest in
  let* pv := ark_zp_views work lens size i start num in
  if 1 <? num then
    let* red := ark_reduce_partials s reduced_len pv in
    let* lens := upd lens i (length red) in
    let* red := ark_pad red (size * num) in
    let* work := splice work (start * size) (start * size + length red) red in
    Ok (work, lens)
  else
    let* l := idx lens start in
    let* lens := upd lens i l in
    Ok (work, lens).

(** zero_poly.rs:161-192: one level of the reduction tree *)
Definition ark_zp_level (s : fft_settings K) (domain ceiling : nat)
  (st : nat * (list K * list nat)) : res (nat * (list K * list nat)) :=
  let '(count, (work, lens)) := st in
  let reduced_count := 1 + (count - 1) / 4 in
  let* l0 := idx lens 0 in
  let* size := std_next_pow2 l0 in
  let* wl := for_range 0 reduced_count (ark_zp_group s domain ceiling count size) (work, lens) in
  Ok (reduced_count, wl).

(** zero_poly.rs:131-195: the branch for more than 63 missing indices *)
Definition ark_zp_tree (s : fft_settings K) (domain ceiling count stride : nat) (missing : list nat) : res (list K) :=
  let* wlen := std_next_pow2 (count * 64) in
  let* wl := ark_zp_partials s missing stride count (repeat f0 wlen) in
  let (work, lens) := wl in
  let* c1 := usub count 1 in
  let* l := usub (1 + length missing) (c1 * 63) in
  let* lens := upd lens c1 l in
  let* st := while_ (S count) (fun st => 1 <? fst st) (ark_zp_level s domain ceiling) (count, (work, lens)) in
  let '(_, (work, _)) := st in
  Ok work.

(** zero_poly.rs:95-212 [zero_poly_via_multiplication] *)
Definition ark_zero_poly (s : fft_settings K) (length_ : nat) (missing : list nat)
  : res (list K * list K) :=
  if length missing =? 0 then Ok ([], [])
  else if length_ <=? length missing then Err
  else if max_width s <? length_ then Err
  else if negb (std_is_pow2 length_) then Err
  else
    let stride := max_width s / length_ in
    let count := (63 + length missing - 1) / 63 in
    let* next_pow := std_next_pow2 (count * 64) in
    let ceiling := Nat.min next_pow length_ in
    let* zero_poly :=
      if length missing <=? 63 then ark_zero_partial s missing stride
      else ark_zp_tree s length_ ceiling count stride missing in
    let* zero_poly :=
      match Nat.compare (length zero_poly) length_ with
      | Lt => ark_pad zero_poly length_
      | Gt => slice zero_poly 0 length_
      | Eq => Ok zero_poly
      end in
    let* zero_eval := ark_fft_fr W s zero_poly false in
    Ok (zero_eval, zero_poly).

(** recover.rs:122 and 140-200: from the values of [E * Z] to the recovered values *)
Definition ark_recover_core (s : fft_settings K) (n : nat) (evals zero_poly : list K) : res (list K) :=
  let* poly_with_zero := unwrap (ark_fft_fr W s evals true) in
  let* scaled_poly_with_zero := ark_scale_poly poly_with_zero in
  let* scaled_zero_poly := ark_scale_poly zero_poly in
  let* ev1 := unwrap (ark_fft_fr W s scaled_poly_with_zero false) in
  let* ev2 := unwrap (ark_fft_fr W s scaled_zero_poly false) in
  let* evr := for_range 0 n (fun i l =>
      let* a := idx ev1 i in
      let* b := idx ev2 i in
      let* q := unwrap (ark_fr_div a b) in
      upd l i q) ev1 in
  let* scaled := unwrap (ark_fft_fr W s evr true) in
  let* poly := ark_unscale_poly scaled in
  unwrap (ark_fft_fr W s poly false).

(** recover.rs:82-211 [recover_poly_from_samples]; the first check visits the values that
    exist (103: [enumerate().take(len)]) *)
Definition ark_recover (s : fft_settings K) (samples : list (option K)) : res (list K) :=
  let n := length samples in
  if negb (std_is_pow2 n) then Err
  else
    let missing := missing_positions zk_is_none samples in
    let* z := unwrap (ark_zero_poly s n missing) in
    let (zero_eval, zero_poly) := z in
    let* _ := for_range 0 (Nat.min (length zero_eval) n) (fun i _ =>
        let* item := idx zero_eval i in
        let* sm := idx samples i in
        if negb (Bool.eqb (zk_is_none sm) (feqb item f0)) then Err else Ok tt) tt in
    let* evals := for_range 0 n (fun i l =>
        let* sm := idx samples i in
        match sm with
        | None => upd l i f0
        | Some v => let* ze := idx zero_eval i in upd l i (fmul v ze)
        end) (repeat f0 n) in
    let* out := ark_recover_core s n evals zero_poly in
    let* _ := for_range 0 n (fun i _ =>
        let* sm := idx samples i in
        match sm with
        | None => Ok tt
        | Some v => let* d := idx out i in if feqb d v then Ok tt else Err
        end) tt in
    Ok out.
End Model.
