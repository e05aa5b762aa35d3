(** * Model_Zk: model of the scalar, transform, extension and polynomial code of the
    zkcrypto backend ([zkcrypto/src]: utils.rs, zkfr.rs, consts.rs, fftsettings.rs,
    fft_fr.rs, fft_g1.rs, das.rs, poly.rs), sequential build

    [K] is the scalar field.  The limb representation of [blsScalar] and its arithmetic are
    modelled in [Model_Scalar] and refine arithmetic modulo r (C41-C44), so the code above
    them is modelled over the field.  A definition [zk_f := f] means that the Rust function
    consists of the same statements as the function of blst-from-scratch modelled by [f]. *)
From Coq Require Import List Arith Bool NArith.
From Verif Require Import Base Fld Model_Utils Model_FFT Model_Das Model_Poly.
Import ListNotations.

(** The integer methods of the Rust standard library that this crate uses.
    [usize::next_power_of_two]: the smallest power of two that is at least [n] (1 for 0);
    panics if it does not fit 64 bits. *)
Definition std_next_pow2 (n : nat) : res nat :=
  let v := N.log2_up (N.of_nat n) in
  if (64 <=? v)%N then Panic else Ok (N.to_nat (2 ^ v)).
(** [usize::is_power_of_two]: exactly one bit is set *)
Definition std_is_pow2 (n : nat) : bool :=
  if n =? 0 then false else N.eqb (2 ^ N.log2 (N.of_nat n)) (N.of_nat n).

(** utils.rs:109-162: [is_power_of_two], [next_power_of_two], [log_2_byte], [log2_pow2],
    [log2_u64], [min_u64]: the same statements as in blst-from-scratch *)
Definition zk_is_pow2 := is_pow2.
Definition zk_next_pow2 := next_pow2.
Definition zk_log2_pow2 := log2_pow2.
Definition zk_log2_u64 := log2_u64.
Definition zk_min_u64 := min_u64.

Section Model.
Context {K : fld}.
(** consts.rs: [SCALE2_ROOT_OF_UNITY]; the concrete table is [zk_table] in [ZrTables.v] *)
Variable table : list K.

(** ** zkfr.rs *)

(** zkfr.rs:110-118 [eucl_inverse] and 146-153 [inverse]: [invert().unwrap()] *)
Definition zkf_inverse (x : K) : res K := if feqb x f0 then Panic else Ok (finv x).

(** zkfr.rs:155-162 [div] and 171-178 [fr_div] *)
Definition zkf_div (a b : K) : res K :=
  if feqb b f0 then Ok f0
  else let* tmp := zkf_inverse b in Ok (fmul a tmp).

(** zkfr.rs:120-139 [pow] *)
Definition zkf_pow : K -> nat -> res K := fr_pow.

(** ** consts.rs and fftsettings.rs *)

(** consts.rs [expand_root_of_unity]; fftsettings.rs:185-207 [new] *)
Definition zk_fft_settings_new (scale : nat) : res (fft_settings K) := fft_settings_new table scale.

(** fftsettings.rs:159-169 [from_scale]: the width is set, everything else is left empty *)
Definition zk_from_scale (max_scale : nat) : res (fft_settings K) :=
  if length table <=? max_scale then Err
  else Ok (mkFS (2 ^ max_scale) f0 [] []).

(** fftsettings.rs:176-183 [default]; 231-233 [new_fft_settings] ignores its argument *)
Definition zk_fft_settings_default : fft_settings K := mkFS 0 f0 [] [].
Definition zk_new_fft_settings (_max_scale : nat) : fft_settings K := zk_fft_settings_default.

(** fft_fr.rs:43-108 [fft_fr_fast]: the same statements *)
(** fftsettings.rs:121-154 [fft_fr] (method) and fft_fr.rs:18-41 [fft_fr] (function): the
    division of [max_width] by an empty length cannot be reached *)
Definition zk_fft_fr (s : fft_settings K) (data : list K) (inverse : bool) : res (list K) :=
  if max_width s <? length data then Err
  else if negb (zk_is_pow2 (length data)) then Err
  else
    let stride := max_width s / length data in
    let ret := repeat f0 (length data) in
    let roots := if inverse then reverse_roots s else expanded_roots s in
    let* ret := fft_fr_fast ret data 1 roots stride in
    if inverse then
      let* inv_len := zkf_inverse (fnat (length data)) in
      Ok (map (fun f => fmul f inv_len) (firstn (length data) ret) ++ skipn (length data) ret)
    else Ok ret.

(** fft_fr.rs:6-16 [fft_fr_slow]: the same statements *)
Definition zk_fft_fr_slow := @fft_fr_slow K.

Section G1.
Context {M : gmod K}.
(** fft_g1.rs:58-91 [fft_g1_fast]: the same statements; [sub] adds the negated point and
    [add_or_dbl] is the group addition (kzg_types.rs:130-152) *)
(** fft_g1.rs:26-55 [fft_g1] *)
Definition zk_fft_g1 (s : fft_settings K) (data : list M) (inverse : bool) : res (list M) :=
  if max_width s <? length data then Err
  else if negb (zk_is_pow2 (length data)) then Err
  else
    let stride := max_width s / length data in
    let ret := repeat g0 (length data) in
    let roots := if inverse then reverse_roots s else expanded_roots s in
    let* ret := fft_g1_fast ret data 1 roots stride in
    if inverse then
      let* inv_len := zkf_inverse (fnat (length data)) in
      Ok (map (fun f => smul inv_len f) (firstn (length data) ret) ++ skipn (length data) ret)
    else Ok ret.

(** fft_g1.rs:7-22 [fft_g1_slow]: the same statements *)
Definition zk_fft_g1_slow := @fft_g1_slow K M.
End G1.

(** ** das.rs; fftsettings.rs:23-109 [das_fft_extension_stride]: the same statements *)

(** das.rs:6-49 [das_fft_extension] *)
Definition zk_das_fft_extension (s : fft_settings K) (val : list K) : res (list K) :=
  if length val =? 0 then Err
  else if negb (std_is_pow2 (length val)) then Err
  else if max_width s <? length val * 2 then Err
  else
    let vals := val in
    let stride := max_width s / (length vals * 2) in
    let* vals := das_fft_extension_stride s vals stride in
    let* invlen := zkf_inverse (fnat (length val)) in
    let* odds := das_fft_extension_stride s [] stride in
    for_range 0 (length vals) (fun i odds =>
      let* v := idx vals i in Ok (odds ++ [fmul v invlen])) odds.

(** ** poly.rs *)

(** poly.rs:24-27 [is_zero] *)
Definition zk_is_zero (p : list K) : bool :=
  (length p =? 0) || forallb (fun c => feqb c f0) p.

(** poly.rs:60-68 [truncate_leading_zeros] *)
Definition zk_truncate (p : list K) : res (list K) :=
  while_ (S (length p)) (fun l => match l with [] => false | _ => feqb (last l f0) f0 end)
    (fun l => Ok (removelast l)) p.

(** poly.rs:33-46 [from_coefficients_vec] *)
Definition zk_from_coefficients (p : list K) : res (list K) :=
  let* result := zk_truncate p in
  let* _ := assert (match result with [] => true | _ => negb (feqb (last result f0) f0) end) in
  Ok result.

(** poly.rs:49-58 [degree] *)
Definition zk_degree (p : list K) : res nat :=
  if zk_is_zero p then Ok 0
  else
    let* _ := assert (match p with [] => false | _ => negb (feqb (last p f0) f0) end) in
    usub (length p) 1.

(** poly.rs:71-93 [ruffini] *)
Definition zk_ruffini (p : list K) (z : K) : res (list K) :=
  let* _ := zk_degree p in
  let* st := for_range 0 (length p) (fun i (st : list K * K) =>
      let (quotient, k) := st in
      let* coeff := idx (rev p) i in
      let t := fadd coeff k in
      Ok (quotient ++ [t], fmul z t)) ([], f0) in
  let (quotient, _) := st in
  zk_from_coefficients (rev (removelast quotient)).

(** poly.rs:125-147 [eval]: the same statements *)
Definition zk_poly_eval : list K -> K -> res K := poly_eval.

(** poly.rs:149-158 [scale] (SCALE_FACTOR = 5, consts.rs) *)
Definition zk_poly_scale (p : list K) : res (list K) :=
  let* inv_factor := zkf_inverse (fnat 5) in
  let* st := for_range 0 (length p) (fun i (st : list K * K) =>
      let (coeffs, factor_power) := st in
      let factor_power := fmul factor_power inv_factor in
      let* c := idx coeffs i in
      let* coeffs := upd coeffs i (fmul c factor_power) in
      Ok (coeffs, factor_power)) (p, f1) in
  Ok (fst st).

(** poly.rs:160-168 [unscale]: the same statements *)
Definition zk_poly_unscale : list K -> res (list K) := poly_unscale.

(** poly.rs:325-333 [poly_flip] *)
Definition zk_poly_flip (p : list K) : res (list K) :=
  for_range 0 (length p) (fun i ret =>
    let* a := usub (length p) i in
    let* a := usub a 1 in
    let* c := idx p i in
    upd ret a c) (repeat f0 (length p)).

(** poly.rs:357-370 [poly_norm] and 372-379 [poly_quotient_length]: the same statements *)
Definition zk_poly_norm : list K -> res (list K) := poly_norm.
Definition zk_quotient_length : list K -> list K -> nat := poly_quotient_length.

(** poly.rs:381-399 [pad]: truncates when [length] is the smaller one *)
Definition zk_pad (p : list K) (length_ : nat) : res (list K) :=
  let out := repeat f0 length_ in
  let m := zk_min_u64 (length p) length_ in
  let* src := slice p 0 m in
  let* _ := slice out 0 m in
  Ok (src ++ skipn m out).

(** poly.rs:401-409 [pad_] *)
Definition zk_pad_ (p : list K) (length_ : nat) : res (list K) :=
  for_range 0 (zk_min_u64 (length p) length_) (fun i out =>
    let* c := idx p i in upd out i c) (repeat f0 length_).

(** poly.rs:410-426 [pad_poly] *)
Definition zk_pad_poly (p : list K) (length_ : nat) : res (list K) :=
  if length_ <? length p then Err else zk_pad p length_.

(** poly.rs:428-496 [poly_mul_fft], sequential build; the transform settings are made anew
    and the ones passed to the trait function (fftsettings.rs:113-115) are ignored *)
Definition zk_poly_mul_fft (out : nat) (a b : list K) : res (list K) :=
  let* n := usub (length a + length b) 1 in
  let* len := zk_next_pow2 n in
  let ft_size := N.to_nat (zk_log2_pow2 (N.of_nat len)) in
  let* fs := unwrap (zk_fft_settings_new ft_size) in
  let* a_pad := zk_pad a len in
  let* b_pad := zk_pad b len in
  let* a_fft := unwrap (zk_fft_fr fs a_pad false) in
  let* b_fft := unwrap (zk_fft_fr fs b_pad false) in
  let* ab_fft := for_range 0 len (fun i ab =>
      let* x := idx a_fft i in
      let* y := idx b_fft i in
      let* ab := upd ab i (fmul x y) in
      let* _ := assert (feqb (fmul x y) (fmul y x)) in
      Ok ab) (repeat f0 len) in
  let* ab := unwrap (zk_fft_fr fs ab_fft true) in
  let output := repeat f0 out in
  let data_len := zk_min_u64 out len in
  let* src := slice ab 0 data_len in
  let* _ := slice output 0 data_len in
  Ok (src ++ skipn data_len output).

(** poly.rs:498-520 [poly_mul_direct]: the same statements *)
Definition zk_mul_direct : list K -> list K -> nat -> res (list K) := mul_direct.

(** poly.rs:522-529 [poly_mul] *)
Definition zk_poly_mul (a b : list K) (output_len : nat) : res (list K) :=
  if (length a <? 64) || (length b <? 64) || (output_len <? 128)
  then zk_mul_direct a b output_len
  else zk_poly_mul_fft output_len a b.

(** poly.rs:190-211: one round of the loop in [inverse] *)
Definition zk_inverse_round (p : list K) (new_len maxd : nat) (st : nat * N * list K)
  : res (nat * N * list K) :=
  let '(d, mask, ret) := st in
  let d := 2 * d + (if N.eqb (N.land (N.of_nat maxd) mask) 0 then 0 else 1) in
  let mask := N.shiftr mask 1 in
  let* l := usub (length p + new_len) 1 in
  let len_temp := zk_min_u64 (d + 1) l in
  let* tmp0 := unwrap (zk_poly_mul p ret len_temp) in
  let* tmp0 := for_range 0 (length tmp0) (fun i t =>
      let* c := idx t i in upd t i (fneg c)) tmp0 in
  let fr_two := fnat 2 in
  let* c := idx tmp0 0 in
  let* tmp0 := upd tmp0 0 (fadd c fr_two) in
  let* tmp1 := unwrap (zk_poly_mul ret tmp0 (d + 1)) in
  let* ret := for_range 0 (length tmp1) (fun i r =>
      let* c := idx tmp1 i in upd r i c) ret in
  Ok (d, mask, ret).

(** poly.rs:170-219 [inverse]; no check of [new_len]: 0 indexes the empty result or
    underflows *)
Definition zk_poly_inverse (p : list K) (new_len : nat) : res (list K) :=
  if length p =? 0 then Err
  else
    let* c0 := idx p 0 in
    if feqb c0 f0 then Err
    else
      let ret := repeat f0 new_len in
      if length p =? 1 then
        let* v := zkf_inverse c0 in upd ret 0 v
      else
        let* maxd := usub new_len 1 in
        let* v := zkf_inverse c0 in
        let* ret := upd ret 0 v in
        let* lg := zk_log2_u64 (N.of_nat maxd) in
        let* st := while_ 65 (fun st : nat * N * list K => negb (N.eqb (snd (fst st)) 0))
                     (zk_inverse_round p new_len maxd) (0, N.shiftl 1 lg, ret) in
        let '(d, _, ret) := st in
        if d + 1 =? new_len then Ok ret else Err.

(** poly.rs:269-283: outer loop of [poly_long_div] *)
Definition zk_long_div_step (b : list K) (b_pos : nat) (st : list K * list K * nat * nat)
  : res (list K * list K * nat * nat) :=
  let '(out, a, diff, a_pos) := st in
  let* x := idx a a_pos in
  let* y := idx b b_pos in
  let* q := unwrap (zkf_div x y) in
  let* out := upd out diff q in
  let* q := idx out diff in
  let* a := long_div_inner b b_pos diff q a in
  let* diff := usub diff 1 in
  let* a_pos := usub a_pos 1 in
  Ok (out, a, diff, a_pos).

(** poly.rs:240-288 [poly_long_div].  [diff] is an [isize] that is negative only when the
    quotient is empty, in which case it is not used. *)
Definition zk_long_div (a b : list K) : res (list K) :=
  if length b =? 0 then Err
  else
    let* a_pos := usub (length a) 1 in
    let* b_pos := usub (length b) 1 in
    let diff := a_pos - b_pos in
    let out_length := zk_quotient_length a b in
    let out := repeat f0 out_length in
    if out_length =? 0 then Ok out
    else
      let* st := while_ (S diff) (fun st : list K * list K * nat * nat => 0 <? snd (fst st))
                   (zk_long_div_step b b_pos) (out, a, diff, a_pos) in
      let '(out, a, _, a_pos) := st in
      let* x := idx a a_pos in
      let* y := idx b b_pos in
      let* q := unwrap (zkf_div x y) in
      upd out 0 q.

(** poly.rs:290-323 [poly_fast_div] *)
Definition zk_fast_div (a b : list K) : res (list K) :=
  if length b =? 0 then Err
  else
    let* m := usub (length a) 1 in
    let* n := usub (length b) 1 in
    if m <? n then Ok []
    else if length b =? 1 then
      for_range 0 (length a) (fun i out =>
        let* x := idx a i in
        let* y := idx b 0 in
        let* q := unwrap (zkf_div x y) in
        upd out i q) (repeat f0 (length a))
    else
      let* a_flip := unwrap (zk_poly_flip a) in
      let* b_flip := unwrap (zk_poly_flip b) in
      let* inv_b_flip := unwrap (zk_poly_inverse b_flip (m - n + 1)) in
      let* q_flip := unwrap (zk_poly_mul a_flip inv_b_flip (m - n + 1)) in
      unwrap (zk_poly_flip q_flip).

(** poly.rs:335-355 [new_poly_div], the trait's [div] (poly.rs:221-225) *)
Definition zk_poly_div (a_ b_ : list K) : res (list K) :=
  let* a := unwrap (zk_poly_norm a_) in
  let* b := unwrap (zk_poly_norm b_) in
  if (length a <=? length b) || (length b <? 128) then zk_long_div a b
  else zk_fast_div a b.

End Model.
