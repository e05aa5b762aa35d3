(** * Model_MclPoly: polynomials of the mcl backend

    Crate [mcl-kzg/kzg], [src/kzg10.rs] (the [Polynomial] type) and its trait wrapper
    [src/trait_implementations/poly.rs].  A polynomial is the list of its coefficients.
    [eval_at] and [commit] call the mcl library and are not modelled here.  [pr5] is the
    parsed PR5 table read by [FFTSettings::new]; that the state of the global table does
    not matter is C46. *)
From Coq Require Import List Arith Bool NArith ZArith.
From Verif Require Import Base Fld Model_Utils Model_FFT Model_Mcl.
Import ListNotations.

Section Model.
Context {K : fld}.
Variable pr5 : list K.

(** [FFTSettings::new(scale as u8)], in a fresh process *)
Definition mcl_fresh (scale : N) : res (fft_settings K) :=
  fst (mcl_new (2 ^ as_u8 scale) pr5 (as_u8 scale) globals0).

(** kzg10.rs:250-256 [poly_quotient_length] *)
Definition mcl_quotient_length (dividend divisor : list K) : nat :=
  if length divisor <=? length dividend then length dividend - length divisor + 1 else 0.

(** [a / b] on field elements (kzg10.rs:171-179, [mclBnFr_div]) *)
Definition mcl_div_fr (a b : K) : K := fmul a (finv b).

(** kzg10.rs:281-285: inner loop of [long_division]; the top coefficient is left alone *)
Definition mcl_long_inner (divisor : list K) (b_pos diff : nat) (out a : list K) : res (list K) :=
  for_range 0 b_pos (fun i a =>
    let* q := idx out diff in
    let* d := idx divisor i in
    let tmp := fmul q d in
    let* x := idx a (diff + i) in
    upd a (diff + i) (fsub x tmp)) a.

(** kzg10.rs:278-289: one round of the loop of [long_division] *)
Definition mcl_long_step (divisor : list K) (b_pos : nat) (st : list K * list K * nat * nat)
  : res (list K * list K * nat * nat) :=
  let '(out, a, diff, a_pos) := st in
  let* x := idx a a_pos in
  let* y := idx divisor b_pos in
  let* out := upd out diff (mcl_div_fr x y) in
  let* a := mcl_long_inner divisor b_pos diff out a in
  let* a_pos := usub a_pos 1 in
  let* diff := usub diff 1 in
  Ok (out, a, diff, a_pos).

(** kzg10.rs:258-292 [long_division] *)
Definition mcl_long_division (p divisor : list K) : res (list K) :=
  if length divisor =? 0 then Err else
  let* lead := idx divisor (length divisor - 1) in
  if feqb lead f0 then Err else
  let out_length := mcl_quotient_length p divisor in
  if out_length =? 0 then Ok [] else
  let* a_pos := usub (length p) 1 in
  let* b_pos := usub (length divisor) 1 in
  let* diff := usub a_pos b_pos in
  let* st := while_ (S diff) (fun st : list K * list K * nat * nat => 0 <? snd (fst st))
               (mcl_long_step divisor b_pos) (repeat f0 out_length, p, diff, a_pos) in
  let '(out, a, _, a_pos) := st in
  let* x := idx a a_pos in
  let* y := idx divisor b_pos in
  upd out 0 (mcl_div_fr x y).

(** kzg10.rs:326-332 [normalise_coeffs] *)
Definition mcl_normalise (coeffs : list K) : res (list K) :=
  let* n := while_ (S (length coeffs))
     (fun t => if 0 <? t then match nth_error coeffs (t - 1) with Some c => feqb c f0 | None => true end else false)
     (fun t => let* _ := idx coeffs (t - 1) in usub t 1) (length coeffs) in
  slice coeffs 0 n.

(** kzg10.rs:338-344 [flip_coeffs]: pushes the elements from the last to the first *)
Definition mcl_flip (coeffs : list K) : res (list K) :=
  for_range 0 (length coeffs) (fun i result =>
    let* c := idx coeffs (length coeffs - 1 - i) in Ok (result ++ [c])) [].

(** kzg10.rs:414-427 [pad_coeffs] *)
Definition mcl_pad (coeffs : list K) (n_in n_out : nat) : list K :=
  let num := min_u64 n_in n_out in
  firstn num coeffs ++ repeat f0 (n_out - num).

(** kzg10.rs:443-511 [mul_fft], sequential build.  The settings of line 457 are built even
    when others are supplied; [set_len] (line 507) only ever shortens. *)
Definition mcl_mul_fft (a b : list K) (ft : option (fft_settings K)) (len : nat) : res (list K) :=
  let a_len := min_u64 (length a) len in
  let b_len := min_u64 (length b) len in
  let* n := usub (a_len + b_len) 1 in
  let* lengthN := mcl_next_pow_of_2 (N.of_nat n) in
  let length_ := N.to_nat lengthN in
  let* temp_fft := mcl_fresh (mcl_log_2 lengthN) in
  let ft := match ft with Some x => x | None => temp_fft end in
  if max_width ft <? length_ then Err else
  let a_pad := mcl_pad a a_len length_ in
  let b_pad := mcl_pad b b_len length_ in
  let* a_fft := unwrap (mcl_fft ft a_pad false) in
  let* b_fft := unwrap (mcl_fft ft b_pad false) in
  let* ab_fft := for_range 0 length_ (fun i ab =>
      let* x := idx ab i in
      let* y := idx b_fft i in
      upd ab i (fmul x y)) a_fft in
  let* ab := unwrap (mcl_fft ft ab_fft true) in
  Ok (if length_ <? len then ab ++ repeat f0 (len - length_) else firstn len ab).

(** kzg10.rs:521-526: inner loop of [mul_direct] *)
Definition mcl_direct_inner (a b : list K) (len i : nat) (coeffs : list K) : res (list K) :=
  let* st := while_ (S (length b))
    (fun st : nat * list K => (fst st <? length b) && (i + fst st <? len))
    (fun st => let (j, coeffs) := st in
      let* x := idx a i in
      let* y := idx b j in
      let temp := fmul x y in
      let* z := idx coeffs (i + j) in
      let* coeffs := upd coeffs (i + j) (fadd z temp) in
      Ok (j + 1, coeffs)) (0, coeffs) in
  Ok (snd st).

(** kzg10.rs:513-529 [mul_direct] *)
Definition mcl_mul_direct (a b : list K) (len : nat) : res (list K) :=
  for_range 0 (length a) (mcl_direct_inner a b len) (repeat f0 len).

(** kzg10.rs:393-406 [mul_] *)
Definition mcl_mul_ (a b : list K) (ft : option (fft_settings K)) (len : nat) : res (list K) :=
  if (length a <? 64) || (length b <? 64) || (len <? 128)
  then mcl_mul_direct a b len
  else mcl_mul_fft a b ft len.

(** kzg10.rs:408-410 [mul] *)
Definition mcl_mul (a b : list K) (len : nat) : res (list K) := mcl_mul_ a b None len.

(** kzg10.rs:565-590: one round of the loop of [inverse] *)
Definition mcl_inverse_round (p : list K) (fs : fft_settings K) (maxd : nat) (st : nat * N * list K)
  : res (nat * N * list K) :=
  let '(d, mask, out) := st in
  let d := 2 * d + (if N.eqb (N.land (N.of_nat maxd) mask) 0 then 0 else 1) in
  let mask := N.shiftr mask 1 in
  let* l := usub (length p + length out) 1 in
  let temp_0_len := min_u64 (d + 1) l in
  let* t0 := unwrap (mcl_mul_ p out (Some fs) temp_0_len) in
  let* t0 := for_range 0 temp_0_len (fun i t =>
      let* c := idx t i in upd t i (fneg c)) t0 in
  let fr_two := mcl_from_int 2 in
  let* c := idx t0 0 in
  let* t0 := upd t0 0 (fadd c fr_two) in
  let* t1 := unwrap (mcl_mul_ out t0 (Some fs) (d + 1)) in
  Ok (d, mask, t1).

(** kzg10.rs:531-597 [inverse].  The mask loop runs once per bit of [maxd], at most 64
    times. *)
Definition mcl_inverse (p : list K) (new_length : nat) : res (list K) :=
  if (length p =? 0) || (new_length =? 0) then Ok [] else
  let* c0 := idx p 0 in
  if feqb c0 f0 then Err else
  if length p =? 1 then Ok (finv c0 :: repeat f0 (new_length - 1)) else
  let maxd := new_length - 1 in
  let* n := usub (2 * new_length) 1 in
  let* n := mcl_next_pow_of_2 (N.of_nat n) in
  let* fs := mcl_fresh (mcl_log_2 n) in
  let* st := while_ 65 (fun st : nat * N * list K => negb (N.eqb (snd (fst st)) 0))
               (mcl_inverse_round p fs maxd) (0, N.shiftl 1 (mcl_log_2 (N.of_nat maxd)), [finv c0]) in
  let '(d, _, out) := st in
  if d + 1 =? new_length then Ok out else Err.

(** kzg10.rs:294-324 [fast_div] *)
Definition mcl_fast_div (p divisor : list K) : res (list K) :=
  if length divisor =? 0 then Err else
  let* lead := idx divisor (length divisor - 1) in
  if feqb lead f0 then Err else
  let out_length := mcl_quotient_length p divisor in
  if out_length =? 0 then Ok [] else
  if length divisor =? 1 then
    for_range 0 (length p) (fun i out =>
      let* x := idx p i in
      let* y := idx divisor 0 in
      Ok (out ++ [mcl_div_fr x y])) []
  else
    let* a_flip := mcl_flip p in
    let* b_flip := mcl_flip divisor in
    let* inv_b_flip := unwrap (mcl_inverse b_flip out_length) in
    let* q_flip := unwrap (mcl_mul a_flip inv_b_flip out_length) in
    mcl_flip q_flip.

(** kzg10.rs:350-360 [div]: the thresholds look at the normalised dividend but the
    division is done on the dividend as given *)
Definition mcl_poly_div (p divisor : list K) : res (list K) :=
  let* dividend := mcl_normalise p in
  let* divisor := mcl_normalise divisor in
  if (length dividend <=? length divisor) || (length divisor <? 128)
  then mcl_long_division p divisor
  else mcl_fast_div p divisor.

End Model.
