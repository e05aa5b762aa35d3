(** * Model_Ark: model of the scalar, transform, extension and polynomial code of the
    Arkworks backend ([Arkworks/src]: kzg_types.rs, kzg_proofs.rs, fft.rs, fft_g1.rs,
    das.rs, poly.rs), sequential build

    [K] is the scalar field.  The crate keeps its scalars in Montgomery limbs and hands them
    to the external arkworks libraries limb by limb (utils.rs:41-57), so every operation is
    modelled over the field.  The libraries ([ark-ff], [ark-poly], [ark-std],
    [merkle_light]) are not in the repository; what the crate uses of them is modelled by
    their documentation in the section [Library].  A definition [ark_f := f] means that the
    Rust function consists of the same statements as the function modelled by [f]. *)
From Coq Require Import List Arith Bool NArith.
From Verif Require Import Base Fld Poly Model_Utils Model_FFT Model_Das Model_Poly Model_Zk.
Import ListNotations.

Section Library.
Context {K : fld}.
(** ark-bls12-381: [FrParameters::TWO_ADIC_ROOT_OF_UNITY], an element of order 2^32.  It is
    a parameter of the model. *)
Variable W : K.

(** ark-ff [FftField::get_root_of_unity(2^m)]: the constant squared 32 - m times; ark-poly
    [Radix2EvaluationDomain::new(2^m)] takes it as [group_gen] *)
Definition dom_gen (m : nat) : K := Nat.iter (32 - m) (fun x => fmul x x) W.

(** ark-poly [Radix2EvaluationDomain::new(num_coeffs).unwrap()]: the logarithm of the
    domain's size, the next power of two; there is no domain beyond 2^32 *)
Definition dom_log (num_coeffs : nat) : res nat :=
  let m := N.to_nat (N.log2_up (N.of_nat num_coeffs)) in
  if 32 <? m then Panic else Ok m.

(** [Vec::resize] with zeros, the first step of the in-place transforms *)
Definition lib_resize (n : nat) (c : list K) : list K := firstn n c ++ repeat f0 (n - length c).

(** ark-poly [domain.fft(coeffs)]: the values at the powers of the generator *)
Definition lib_fft (m : nat) (c : list K) : list K :=
  let c := lib_resize (2 ^ m) c in
  let g := dom_gen m in
  map (fun i => peval c (fpow g i)) (seq 0 (2 ^ m)).

(** ark-poly [domain.ifft(evals)] *)
Definition lib_ifft (m : nat) (e : list K) : list K :=
  let e := lib_resize (2 ^ m) e in
  let g := finv (dom_gen m) in
  let n := finv (fnat (2 ^ m)) in
  map (fun i => fmul n (peval e (fpow g i))) (seq 0 (2 ^ m)).

(** ark-poly [DensePolynomial::from_coefficients_slice] and [.._vec]: zeros at the top are
    removed *)
Fixpoint dense (p : list K) : list K :=
  match p with
  | [] => []
  | c :: t => match dense t with
              | [] => if feqb c f0 then [] else [c]
              | t' => c :: t'
              end
  end.

(** ark-poly [DensePolynomial::is_zero] *)
Definition lib_is_zero (p : list K) : bool := forallb (fun c => feqb c f0) p.

(** ark-poly [&DensePolynomial / &DensePolynomial]: the quotient of the division with
    remainder; a zero dividend gives zero, a zero divisor panics.  Both operands are in
    normal form; the quotient is computed by the schoolbook loop [long_div]. *)
Definition lib_div (a b : list K) : res (list K) :=
  if lib_is_zero a then Ok []
  else if lib_is_zero b then Panic
  else if length a <? length b then Ok []
  else unwrap (long_div a b).

(** ark-ff [Field::inverse().unwrap()] and the operator [/] of [Fp256] *)
Definition ark_inverse (x : K) : res K := if feqb x f0 then Panic else Ok (finv x).
Definition lib_fdiv (a b : K) : res K := let* i := ark_inverse b in Ok (fmul a i).

(** ark-std [log2]: rounded up, 0 for 0 *)
Definition ark_log2 (n : nat) : nat := N.to_nat (N.log2_up (N.of_nat n)).
(** merkle_light [log2_pow2], used on powers of two only *)
Definition lib_log2_pow2 (n : nat) : nat := N.to_nat (N.log2 (N.of_nat n)).
End Library.

Section Model.
Context {K : fld}.
Variable W : K.

(** ** kzg_types.rs: scalars *)

(** kzg_types.rs:190-199 [div]: the limb array is never empty; 248-250 [inverse] is
    [ark_inverse] *)
Definition ark_fr_div (a b : K) : res K := lib_fdiv a b.

(** kzg_types.rs:234-242 [eucl_inverse]: [todo!()] *)
Definition ark_eucl_inverse (_ : K) : res K := Panic.

(** ** kzg_types.rs, kzg_proofs.rs: transform settings; the field [domain] is never read *)

(** kzg_proofs.rs:279-291 [expand_root_of_unity]: the same statements *)
(** kzg_types.rs:347-370 [FFTSettings::new]; the crate's own table of roots (fft.rs:12-205)
    contributes only its length, 32 *)
Definition ark_settings_new (scale : nat) : res (fft_settings K) :=
  if 32 <=? scale then Err else
  let max_width := 2 ^ scale in
  let* m := dom_log max_width in
  let g := dom_gen W m in
  let* roots := unwrap (expand_root_of_unity g (2 ^ m)) in
  Ok (mkFS max_width g roots (rev roots)).

(** kzg_proofs.rs:294-317 [from_scale]: the same statements *)
Definition ark_from_scale := ark_settings_new.

(** kzg_types.rs:391-399 [default] *)
Definition ark_settings_default : fft_settings K := mkFS 0 f0 [] [].

(** kzg_types.rs:402-411 [clone] *)
Definition ark_settings_clone (s : fft_settings K) : res (fft_settings K) :=
  let* _ := unwrap (ark_settings_new 0) in
  Ok (mkFS (max_width s) (root_of_unity s) (expanded_roots s) (reverse_roots s)).

(** ** fft.rs *)

(** fft.rs:208-252 [fft_fr] *)
Definition ark_fft_fr (s : fft_settings K) (data : list K) (inverse : bool) : res (list K) :=
  if max_width s <? length data then Err
  else if negb (std_is_pow2 (length data)) then Err
  else
    let width := if length data <? max_width s then length data else max_width s in
    let poly := dense data in
    let* m := dom_log width in
    if inverse then
      let* pad := usub (length data) (length poly) in
      let* poly := for_range 0 pad (fun _ p => Ok (p ++ [f0])) poly in
      Ok (lib_ifft W m poly)
    else Ok (lib_fft W m poly).

(** fft.rs:256-266 [fft_fr_fast]: strides and roots are ignored *)
Definition ark_fft_fr_fast (ret data : list K) (stride : nat) (roots : list K) (roots_stride : nat) : res (list K) :=
  let* s := unwrap (ark_from_scale (ark_log2 (length data))) in
  let* temp := unwrap (ark_fft_fr s data false) in
  slice temp 0 (length ret).

(** fft.rs:268-282 [fft_fr_slow]: the same statements *)
Definition ark_fft_fr_slow := @fft_fr_slow K.

(** ** fft_g1.rs *)
Section G1.
Context {M : gmod K}.

(** fft_g1.rs:50-57 [g1_linear_combination] *)
Definition ark_g1_lincomb (p : list M) (coeffs : list K) (len : nat) : res M :=
  for_range 0 len (fun i out =>
    let* a := idx p i in
    let* c := idx coeffs i in
    Ok (gadd out (smul c a))) g0.

(** fft_g1.rs:72-82 [make_data]; [g] is the generator *)
Definition ark_make_data (g : M) (n : nat) : res (list M) :=
  if n =? 0 then Ok []
  else for_range 1 n (fun i vec =>
    let* temp := idx vec (i - 1) in
    Ok (vec ++ [gadd temp g])) [g].

(** fft_g1.rs:159-214 [fft_g1_fast], sequential build: the last case copies as many points
    as [ret] has *)
Fixpoint ark_fft_g1_fast_ (fuel : nat) (ret data : list M) (stride : nat)
         (roots : list K) (roots_stride : nat) : res (list M) :=
  match fuel with
  | O => NoFuel
  | S fuel' =>
    let half := length ret / 2 in
    if 0 <? half then
      let* lo := ark_fft_g1_fast_ fuel' (firstn half ret) data (stride * 2) roots (roots_stride * 2) in
      let* data' := slice_from data stride in
      let* hi := ark_fft_g1_fast_ fuel' (skipn half ret) data' (stride * 2) roots (roots_stride * 2) in
      for_range 0 half (fun i ret =>
        let* y := idx ret (i + half) in
        let* r := idx roots (i * roots_stride) in
        let y_times_root := smul r y in
        let* x := idx ret i in
        let* ret := upd ret (i + half) (gsub x y_times_root) in
        let* x := idx ret i in
        upd ret i (gadd x y_times_root)) (lo ++ hi)
    else
      for_range 0 (length ret) (fun i ret => let* d := idx data i in upd ret i d) ret
  end.

Definition ark_fft_g1_fast (ret data : list M) (stride : nat) (roots : list K) (roots_stride : nat) :=
  ark_fft_g1_fast_ (S (length ret)) ret data stride roots roots_stride.

(** fft_g1.rs:85-128 [fft_g1] *)
Definition ark_fft_g1 (s : fft_settings K) (data : list M) (inverse : bool) : res (list M) :=
  if max_width s <? length data then Err
  else if negb (std_is_pow2 (length data)) then Err
  else
    let n := length data in
    let stride := max_width s / length data in
    let out := repeat g0 (length data) in
    if inverse then
      let* inv_len := ark_inverse (fnat (length data)) in
      let* out := ark_fft_g1_fast out data 1 (reverse_roots s) stride in
      Ok (map (fun i => smul inv_len i) (firstn n out) ++ skipn n out)
    else ark_fft_g1_fast out data 1 (expanded_roots s) stride.

(** fft_g1.rs:131-157 [fft_g1_slow]: [ret[i]] is written inside the inner loop only *)
Definition ark_fft_g1_slow (ret data : list M) (stride : nat) (roots : list K) (roots_stride : nat) : res (list M) :=
  for_range 0 (length data) (fun i ret =>
    let* d := idx data 0 in
    let* r := idx roots 0 in
    let last := smul r d in
    let* st := for_range 1 (length data) (fun j (st : M * list M) =>
        let (last, ret) := st in
        let* jv := idx data (j * stride) in
        let* r := idx roots (((i * j) mod length data) * roots_stride) in
        let v := smul r jv in
        let last := gadd last v in
        let* ret := upd ret i last in
        Ok (last, ret)) (last, ret) in
    Ok (snd st)) ret.
End G1.

(** ** das.rs *)

(** das.rs:7-52 [das_fft_extension_stride]: the same statements *)
(** das.rs:56-80 [das_fft_extension] *)
Definition ark_das_fft_extension (s : fft_settings K) (vals : list K) : res (list K) :=
  if length vals =? 0 then Err
  else if negb (std_is_pow2 (length vals)) then Err
  else if max_width s <? length vals * 2 then Err
  else
    let stride := max_width s / (length vals * 2) in
    let* vals := das_fft_extension_stride s vals stride in
    let* invlen := ark_inverse (fnat (length vals)) in
    Ok (map (fun v => fmul v invlen) vals).

(** ** poly.rs *)

(** kzg_proofs.rs:466-469 [eval_poly] *)
Definition ark_poly_eval (p : list K) (x : K) : res K := Ok (peval (dense p) x).

(** zero_poly.rs:11-23 [pad_poly] *)
Definition ark_pad (p : list K) (new_length : nat) : res (list K) :=
  if new_length <=? length p then Ok p
  else for_range (length p) new_length (fun _ out => Ok (out ++ [f0])) p.

(** poly.rs:238-244 [poly_flip] *)
Definition ark_flip (p : list K) : res (list K) :=
  for_range 0 (length p) (fun i out =>
    let* a := usub (length p) i in
    let* a := usub a 1 in
    let* c := idx p a in
    Ok (out ++ [c])) [].

(** poly.rs:87-106 [poly_mul_direct]; the inner loop with its [break] is
    [mul_direct_inner] *)
Definition ark_mul_direct (p1 p2 : list K) (len : nat) : res (list K) :=
  let p1 := dense p1 in
  let p2 := dense p2 in
  if lib_is_zero p1 || lib_is_zero p2 then Ok []
  else
    let* result := for_range 0 (length p1) (mul_direct_inner p1 p2 len) (repeat f0 len) in
    ark_pad (dense result) len.

(** poly.rs:108-112 [poly_long_div] *)
Definition ark_long_div (p1 p2 : list K) : res (list K) := lib_div (dense p1) (dense p2).

(** poly.rs:122-195 [poly_mul_fft], sequential build *)
Definition ark_mul_fft (a b : list K) (fs : option (fft_settings K)) (len : nat) : res (list K) :=
  let a_len := Nat.min (length a) len in
  let b_len := Nat.min (length b) len in
  let* n := usub (a_len + b_len) 1 in
  let* length_ := std_next_pow2 n in
  let* fs_p := match fs with
    | Some x => ark_settings_clone x
    | None => unwrap (ark_settings_new (lib_log2_pow2 length_))
    end in
  if max_width fs_p <? length_ then Err
  else
    let* a := slice a 0 a_len in
    let* b := slice b 0 b_len in
    let* a_pad := ark_pad a length_ in
    let* b_pad := ark_pad b length_ in
    let* a_fft := unwrap (ark_fft_fr fs_p a_pad false) in
    let* b_fft := unwrap (ark_fft_fr fs_p b_pad false) in
    let* ab_fft := for_range 0 length_ (fun i ab =>
        let* x := idx a_fft i in
        let* y := idx b_fft i in
        upd ab i (fmul x y)) a_pad in
    let* ab := unwrap (ark_fft_fr fs_p ab_fft true) in
    let data_len := Nat.min len length_ in
    let* out := for_range 0 data_len (fun i out => let* c := idx ab i in upd out i c) (repeat f0 len) in
    for_range data_len len (fun i out => upd out i f0) out.

(** poly.rs:114-120 [poly_mul] *)
Definition ark_poly_mul (a b : list K) (fs : option (fft_settings K)) (len : nat) : res (list K) :=
  if (length a <? 64) || (length b <? 64) || (len <? 128)
  then ark_mul_direct a b len
  else ark_mul_fft a b fs len.

(** poly.rs:55-79: one round of the loop in [poly_inverse] *)
Definition ark_inverse_round (fs : fft_settings K) (b : list K) (output_len maxd : nat) (st : nat * N * list K)
  : res (nat * N * list K) :=
  let '(d, mask, output) := st in
  let d := 2 * d + (if N.eqb (N.land (N.of_nat maxd) mask) 0 then 0 else 1) in
  let mask := N.shiftr mask 1 in
  let* l := usub (length b + length output) 1 in
  let len_temp := Nat.min (d + 1) l in
  let* tmp0 := unwrap (ark_poly_mul b output (Some fs) len_temp) in
  let* tmp0 := for_range 0 len_temp (fun i t => let* c := idx t i in upd t i (fneg c)) tmp0 in
  let* c := idx tmp0 0 in
  let* tmp0 := upd tmp0 0 (fadd c (fnat 2)) in
  let* tmp1 := unwrap (ark_poly_mul output tmp0 (Some fs) (d + 1)) in
  let* tmp1 := if output_len <? length tmp1 then slice tmp1 0 output_len else Ok tmp1 in
  let* output := for_range 0 (length tmp1) (fun i o => let* c := idx tmp1 i in upd o i c) output in
  Ok (d, mask, output).

(** poly.rs:23-84 [poly_inverse]; the mask has at most 64 bits *)
Definition ark_poly_inverse (b : list K) (output_len : nat) : res (list K) :=
  if length b =? 0 then Err
  else
    let* b0 := idx b 0 in
    if feqb b0 f0 then Err
    else
      let output := repeat f0 output_len in
      if length b =? 1 then
        let* v := ark_inverse b0 in
        let* output := upd output 0 v in
        for_range 1 output_len (fun i o => upd o i f0) output
      else
        let* maxd := usub output_len 1 in
        let* l := usub (2 * output_len) 1 in
        let* l := std_next_pow2 l in
        let* fs := unwrap (ark_settings_new (lib_log2_pow2 l)) in
        let* v := ark_inverse b0 in
        let* output := upd output 0 v in
        let* st := while_ 65 (fun st : nat * N * list K => negb (N.eqb (snd (fst st)) 0))
                     (ark_inverse_round fs b output_len maxd)
                     (0, N.shiftl 1 (N.log2_up (N.of_nat maxd)), output) in
        let '(d, _, output) := st in
        if d + 1 =? output_len then Ok output else Err.

(** poly.rs:197-236 [poly_fast_div] *)
Definition ark_fast_div (a b : list K) : res (list K) :=
  if length b =? 0 then Err
  else
    let* lb := idx b (length b - 1) in
    if feqb lb f0 then Err
    else
      let* m := usub (length a) 1 in
      let* n := usub (length b) 1 in
      if m <? n then Ok []
      else if length b =? 1 then
        for_range 0 (length a) (fun i out =>
          let* x := idx a i in
          let* y := idx b 0 in
          let* q := unwrap (ark_fr_div x y) in
          Ok (out ++ [q])) []
      else
        let* a_flip := unwrap (ark_flip a) in
        let* b_flip := unwrap (ark_flip b) in
        let* inv_b_flip := unwrap (ark_poly_inverse b_flip (m - n + 1)) in
        let* q_flip := unwrap (ark_poly_mul a_flip inv_b_flip None (m - n + 1)) in
        let* out := unwrap (ark_flip q_flip) in
        slice out 0 (m - n + 1).

(** kzg_types.rs:311-317 [div] *)
Definition ark_poly_div (a b : list K) : res (list K) :=
  if (length a <=? length b) || (length b <? 128) then ark_long_div a b
  else ark_fast_div a b.

(** recover.rs:13-50 and 53-80 [scale_poly], [unscale_poly] (also [Poly::scale] and
    [unscale], kzg_types.rs:299-305), sequential build *)
Definition ark_apply_powers (c : K) (p : list K) : res (list K) :=
  let* st := for_range 1 (length p) (fun i (st : list K * K) =>
      let (p, factor_power) := st in
      let factor_power := fmul factor_power c in
      let* x := idx p i in
      let* p := upd p i (fmul x factor_power) in
      Ok (p, factor_power)) (p, f1) in
  Ok (fst st).
Definition ark_scale_poly (p : list K) : res (list K) :=
  let* inv_factor := ark_inverse (fnat 5) in
  ark_apply_powers inv_factor p.
Definition ark_unscale_poly (p : list K) : res (list K) := ark_apply_powers (fnat 5) p.
End Model.
