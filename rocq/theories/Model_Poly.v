(** * Model_Poly: model of [types/poly.rs] and of [Fr::pow] / [Fr::div] ([types/fr.rs])

    Crate [blst-from-scratch], sequential build.  A polynomial [FsPoly] is the list of
    its coefficients.  [table] is the embedded table of roots of unity used by the
    [FsFFTSettings::new] calls inside the multiplication. *)
From Coq Require Import List Arith Bool NArith.
From Verif Require Import Base Fld Model_Utils Model_FFT.
Import ListNotations.

Section Model.
Context {K : fld}.
Variable table : list K.

(** types/fr.rs:149-167 [pow]; [sqr] is the square; the loop halves [n] *)
Fixpoint fr_pow_ (fuel n : nat) (out temp : K) : res K :=
  match fuel with
  | O => NoFuel
  | S fuel' =>
    let out := if Nat.odd n then fmul out temp else out in
    let n := n / 2 in
    if n =? 0 then Ok out else fr_pow_ fuel' n out (fmul temp temp)
  end.
Definition fr_pow (x : K) (n : nat) : res K := fr_pow_ (S n) n f1 x.

(** types/poly.rs:49-60: the Horner loop of [eval]; [i] counts down *)
Fixpoint eval_loop (coeffs : list K) (x : K) (i : nat) (ret : K) : res K :=
  let temp := fmul ret x in
  let* c := idx coeffs i in
  let ret := fadd temp c in
  match i with O => Ok ret | S i' => eval_loop coeffs x i' ret end.

(** types/poly.rs:42-62 [eval]; [len - 2] underflows for one coefficient *)
Definition poly_eval (p : list K) (x : K) : res K :=
  if length p =? 0 then Ok f0
  else if feqb x f0 then idx p 0
  else
    let* ret := idx p (length p - 1) in
    let* i := usub (length p) 2 in
    eval_loop p x i ret.

(** types/poly.rs:64-73 [scale] (SCALE_FACTOR = 5, consts.rs:12) *)
Definition poly_scale (p : list K) : res (list K) :=
  let inv_factor := finv (fnat 5) in
  let* st := for_range 0 (length p) (fun i (st : list K * K) =>
      let (coeffs, factor_power) := st in
      let factor_power := fmul factor_power inv_factor in
      let* c := idx coeffs i in
      let* coeffs := upd coeffs i (fmul c factor_power) in
      Ok (coeffs, factor_power)) (p, f1) in
  Ok (fst st).

(** types/poly.rs:75-83 [unscale] *)
Definition poly_unscale (p : list K) : res (list K) :=
  let scale_factor := fnat 5 in
  let* st := for_range 0 (length p) (fun i (st : list K * K) =>
      let (coeffs, factor_power) := st in
      let factor_power := fmul factor_power scale_factor in
      let* c := idx coeffs i in
      let* coeffs := upd coeffs i (fmul c factor_power) in
      Ok (coeffs, factor_power)) (p, f1) in
  Ok (fst st).

(** types/poly.rs:269-284 [_poly_norm] *)
Definition poly_norm (p : list K) : res (list K) :=
  let* temp_len := while_ (S (length p))
     (fun t => if 0 <? t then match nth_error p (t - 1) with Some c => feqb c f0 | None => true end else false)
     (fun t => let* _ := idx p (t - 1) in usub t 1) (length p) in
  if temp_len =? 0 then Ok [] else slice p 0 temp_len.

(** types/poly.rs:286-292 [poly_quotient_length] *)
Definition poly_quotient_length (a b : list K) : nat :=
  if length b <=? length a then length a - length b + 1 else 0.

(** types/poly.rs:294-304 [pad] *)
Definition poly_pad (p : list K) (out_length : nat) : res (list K) :=
  for_range 0 (min_u64 (length p) out_length) (fun i ret =>
    let* c := idx p i in upd ret i c) (repeat f0 out_length).

(** types/poly.rs:306-315 [flip] *)
Definition poly_flip (p : list K) : res (list K) :=
  for_range 0 (length p) (fun i ret =>
    let* a := usub (length p) i in
    let* b := usub a 1 in
    let* c := idx p b in upd ret i c) (repeat f0 (length p)).

(** types/poly.rs:248-255: inner loop of [mul_direct] *)
Definition mul_direct_inner (a b : list K) (output_len i : nat) (ret : list K) : res (list K) :=
  let b_degree := length b - 1 in
  let* st := while_ (S (S b_degree))
    (fun st : nat * list K => (fst st <=? b_degree) && (i + fst st <? output_len))
    (fun st => let (j, ret) := st in
      let* x := idx a i in
      let* y := idx b j in
      let tmp := fmul x y in
      let* z := idx ret (i + j) in
      let* ret := upd ret (i + j) (fadd z tmp) in
      Ok (j + 1, ret)) (0, ret) in
  Ok (snd st).

(** types/poly.rs:234-259 [mul_direct] *)
Definition mul_direct (a b : list K) (output_len : nat) : res (list K) :=
  if (length a =? 0) || (length b =? 0) then Ok []
  else
    let a_degree := length a - 1 in
    for_range 0 (a_degree + 1) (mul_direct_inner a b output_len) (repeat f0 output_len).

(** types/poly.rs:317-372 [mul_fft]; [self] is [a] *)
Definition mul_fft (a b : list K) (output_len : nat) : res (list K) :=
  let* n := usub (length a + length b) 1 in
  let* len := next_pow2 n in
  let scale := N.to_nat (log2_pow2 (N.of_nat len)) in
  let* fs := unwrap (fft_settings_new table scale) in
  let* a_pad := poly_pad a len in
  let* b_pad := poly_pad b len in
  let* a_fft := unwrap (fft_fr fs a_pad false) in
  let* b_fft := unwrap (fft_fr fs b_pad false) in
  let* ab_fft := for_range 0 len (fun i ab =>
      let* x := idx a_fft i in
      let* y := idx b_fft i in
      upd ab i (fmul x y)) (repeat f0 len) in
  let* ab := unwrap (fft_fr fs ab_fft true) in
  let ret := repeat f0 output_len in
  let range := min_u64 output_len len in
  let* src := slice ab 0 range in
  let* _ := slice ret 0 range in
  Ok (src ++ skipn range ret).

(** types/poly.rs:263-265 [poly_mul_fft]: the operands are swapped *)
Definition poly_mul_fft (a b : list K) (len : nat) : res (list K) := mul_fft b a len.

(** types/poly.rs:374-381 [mul] *)
Definition poly_mul (a b : list K) (output_len : nat) : res (list K) :=
  if (length a <? 64) || (length b <? 64) || (output_len <? 128)
  then mul_direct a b output_len
  else mul_fft a b output_len.

(** types/poly.rs:119-142: one round of the Newton iteration in [inverse] *)
Definition inverse_round (p : list K) (output_len maxd : nat) (st : nat * N * list K)
  : res (nat * N * list K) :=
  let '(d, mask, ret) := st in
  let d := 2 * d + (if N.eqb (N.land (N.of_nat maxd) mask) 0 then 0 else 1) in
  let mask := N.shiftr mask 1 in
  let* l := usub (length p + output_len) 1 in
  let len_temp := min_u64 (d + 1) l in
  let* tmp0 := unwrap (poly_mul p ret len_temp) in
  let* tmp0 := for_range 0 (length tmp0) (fun i t =>
      let* c := idx t i in upd t i (fneg c)) tmp0 in
  let fr_two := fnat 2 in
  let* c := idx tmp0 0 in
  let* tmp0 := upd tmp0 0 (fadd c fr_two) in
  let* tmp1 := unwrap (poly_mul ret tmp0 (d + 1)) in
  let* ret := for_range 0 (length tmp1) (fun i r =>
      let* c := idx tmp1 i in upd r i c) ret in
  Ok (d, mask, ret).

(** types/poly.rs:86-149 [inverse].  The mask loop runs once per bit of [maxd],
    at most 64 times. *)
Definition poly_inverse (p : list K) (output_len : nat) : res (list K) :=
  if output_len =? 0 then Err
  else if length p =? 0 then Err
  else
    let* c0 := idx p 0 in
    if feqb c0 f0 then Err
    else
      let ret := repeat f0 output_len in
      if length p =? 1 then upd ret 0 (finv c0)
      else
        let maxd := output_len - 1 in
        let* ret := upd ret 0 (finv c0) in
        let* lg := log2_u64 (N.of_nat maxd) in
        let* st := while_ 65 (fun st : nat * N * list K => negb (N.eqb (snd (fst st)) 0))
                     (inverse_round p output_len maxd) (0, N.shiftl 1 lg, ret) in
        let '(d, _, ret) := st in
        if d + 1 =? output_len then Ok ret else Err.

(** types/fr.rs:169-174 [div]: always [Ok] *)
Definition fr_div (a b : K) : res K := Ok (fmul a (finv b)).

(** types/poly.rs:181-185: inner loop of [long_div] *)
Definition long_div_inner (b : list K) (b_pos diff : nat) (q : K) (a : list K) : res (list K) :=
  for_range 0 (b_pos + 1) (fun i a =>
    let* bi := idx b i in
    let tmp := fmul q bi in
    let* ai := idx a (diff + i) in
    upd a (diff + i) (fsub ai tmp)) a.

(** types/poly.rs:178-190: outer loop of [long_div] *)
Definition long_div_step (b : list K) (b_pos : nat) (st : list K * list K * nat * nat)
  : res (list K * list K * nat * nat) :=
  let '(out, a, diff, a_pos) := st in
  let* x := idx a a_pos in
  let* y := idx b b_pos in
  let* q := unwrap (fr_div x y) in
  let* out := upd out diff q in
  let* q := idx out diff in
  let* a := long_div_inner b b_pos diff q a in
  let* diff := usub diff 1 in
  let* a_pos := usub a_pos 1 in
  Ok (out, a, diff, a_pos).

(** types/poly.rs:159-196 [long_div] *)
Definition long_div (a b : list K) : res (list K) :=
  if length b =? 0 then Err
  else
    let* lb := idx b (length b - 1) in
    if feqb lb f0 then Err
    else
      let out_length := poly_quotient_length a b in
      let out := repeat f0 out_length in
      if out_length =? 0 then Ok out
      else
        let* a_pos := usub (length a) 1 in
        let* b_pos := usub (length b) 1 in
        let* diff := usub a_pos b_pos in
        let* st := while_ (S diff) (fun st : list K * list K * nat * nat => 0 <? snd (fst st))
                     (long_div_step b b_pos) (out, a, diff, a_pos) in
        let '(out, a, _, a_pos) := st in
        let* x := idx a a_pos in
        let* y := idx b b_pos in
        let* q := unwrap (fr_div x y) in
        upd out 0 q.

(** types/poly.rs:198-232 [fast_div] *)
Definition fast_div (a b : list K) : res (list K) :=
  if length b =? 0 then Err
  else
    let* lb := idx b (length b - 1) in
    if feqb lb f0 then Err
    else
      let* m := usub (length a) 1 in
      let* n := usub (length b) 1 in
      if m <? n then Ok []
      else if length b =? 1 then
        for_range 0 (length a) (fun i out =>
          let* x := idx a i in
          let* y := idx b 0 in
          let* q := unwrap (fr_div x y) in
          upd out i q) (repeat f0 (length a))
      else
        let* a_flip := unwrap (poly_flip a) in
        let* b_flip := unwrap (poly_flip b) in
        let* inv_b_flip := unwrap (poly_inverse b_flip (m - n + 1)) in
        let* q_flip := unwrap (poly_mul a_flip inv_b_flip (m - n + 1)) in
        unwrap (poly_flip q_flip).

(** types/poly.rs:151-157 [div] *)
Definition poly_div (a b : list K) : res (list K) :=
  if (length a <=? length b) || (length b <? 128) then long_div a b
  else fast_div a b.

End Model.
