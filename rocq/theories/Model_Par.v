(** * Model_Par: the code under [feature = "parallel"] (crate blst-from-scratch)

    Every function with a [rayon] path, written as a task of [Conc]: the closures given to
    [rayon::join] are separate tasks whose accesses to the shared vector interleave.
    Vectors borrowed immutably ([data], [roots]) are plain values. *)
From Coq Require Import List Arith Bool NArith.
From Verif Require Import Base Fld Model_Utils Model_FFT Model_Das Model_Poly Model_ZeroPoly Model_Recovery Conc.
Import ListNotations.

Section Model.
Context {K : fld}.

(** fft_fr.rs:48-52: the butterfly loop on the slice [off, off + len) *)
Definition fft_fr_butterflies (off len half : nat) (roots : list K) (roots_stride : nat) : proc K unit :=
  forc 0 half (fun i =>
    let^ y := rd_at off len (i + half) in
    let^ r := liftc (idx roots (i * roots_stride)) in
    let y_times_root := fmul y r in
    let^ x := rd_at off len i in
    let^ _ := wr_at off len (i + half) (fsub x y_times_root) in
    let^ x := rd_at off len i in
    wr_at off len i (fadd x y_times_root)).

(** fft_fr.rs:8-56 [fft_fr_fast]; [ret] is the slice [off, off + len) of the shared vector *)
Fixpoint fft_fr_fast_par (fuel off len : nat) (data : list K) (stride : nat)
         (roots : list K) (roots_stride : nat) : proc K unit :=
  match fuel with
  | O => Crash
  | S fuel' =>
    let half := len / 2 in
    if 0 <? half then
      let lo := fft_fr_fast_par fuel' off half data (stride * 2) roots (roots_stride * 2) in
      let hi := let^ data' := liftc (slice_from data stride) in
                fft_fr_fast_par fuel' (off + half) (len - half) data' (stride * 2) roots (roots_stride * 2) in
      let^ _ := (if 256 <? half then join lo hi else let^ _ := lo in hi) in
      fft_fr_butterflies off len half roots roots_stride
    else
      let^ d := liftc (idx data 0) in
      wr_at off len 0 d
  end.

(** fft_fr.rs:60-89 [fft_fr]: allocates the result vector and works on it *)
Definition fft_fr_par {V} (s : fft_settings K) (data : list K) (inverse : bool) : proc V (res (list K)) :=
  if max_width s <? length data then Ret Err
  else if negb (is_pow2 (length data)) then Ret Err
  else
    let n := length data in
    let stride := max_width s / n in
    let roots := if inverse then reverse_roots s else expanded_roots s in
    Own (repeat f0 n) (fft_fr_fast_par (S n) 0 n data 1 roots stride)
      (fun ret _ =>
        if inverse then
          let inv_fr_len := finv (fnat n) in
          let! _ := lift (slice ret 0 n) in
          Ret (Ok (map (fun f => fmul f inv_fr_len) ret))
        else Ret (Ok ret)).

Section G1.
Context {M : gmod K}.

(** fft_g1.rs:49-53: the butterfly loop *)
Definition fft_g1_butterflies (off len half : nat) (roots : list K) (roots_stride : nat) : proc M unit :=
  forc 0 half (fun i =>
    let^ y := rd_at off len (i + half) in
    let^ r := liftc (idx roots (i * roots_stride)) in
    let y_times_root := smul r y in
    let^ x := rd_at off len i in
    let^ _ := wr_at off len (i + half) (gsub x y_times_root) in
    let^ x := rd_at off len i in
    wr_at off len i (gadd x y_times_root)).

(** fft_g1.rs:8-57 [fft_g1_fast] *)
Fixpoint fft_g1_fast_par (fuel off len : nat) (data : list M) (stride : nat)
         (roots : list K) (roots_stride : nat) : proc M unit :=
  match fuel with
  | O => Crash
  | S fuel' =>
    let half := len / 2 in
    if 0 <? half then
      let lo := fft_g1_fast_par fuel' off half data (stride * 2) roots (roots_stride * 2) in
      let hi := let^ data' := liftc (slice_from data stride) in
                fft_g1_fast_par fuel' (off + half) (len - half) data' (stride * 2) roots (roots_stride * 2) in
      let^ _ := (if 8 <? len then join lo hi else let^ _ := lo in hi) in
      fft_g1_butterflies off len half roots roots_stride
    else
      let^ d := liftc (idx data 0) in
      wr_at off len 0 d
  end.

(** fft_g1.rs:60-86 [fft_g1] *)
Definition fft_g1_par {V} (s : fft_settings K) (data : list M) (inverse : bool) : proc V (res (list M)) :=
  if max_width s <? length data then Ret Err
  else if negb (is_pow2 (length data)) then Ret Err
  else
    let n := length data in
    let stride := max_width s / n in
    let roots := if inverse then reverse_roots s else expanded_roots s in
    Own (repeat g0 n) (fft_g1_fast_par (S n) 0 n data 1 roots stride)
      (fun ret _ =>
        if inverse then
          let inv_fr_len := finv (fnat n) in
          let! _ := lift (slice ret 0 n) in
          Ret (Ok (map (fun f => smul inv_fr_len f) ret))
        else Ret (Ok ret)).
End G1.

(** data_availability_sampling.rs:28-35 *)
Definition das_split_par (s : fft_settings K) (off len half stride : nat) : proc K unit :=
  forc 0 half (fun i =>
    let^ a := rd_at off len i in
    let^ b := rd_at off len (half + i) in
    let tmp1 := fadd a b in
    let tmp2 := fsub a b in
    let^ r := liftc (idx (reverse_roots s) (i * 2 * stride)) in
    let^ _ := wr_at off len (half + i) (fmul tmp2 r) in
    wr_at off len i tmp1).

(** data_availability_sampling.rs:59-66 *)
Definition das_join_par (s : fft_settings K) (off len half stride : nat) : proc K unit :=
  forc 0 half (fun i =>
    let^ x := rd_at off len i in
    let^ y := rd_at off len (half + i) in
    let^ r := liftc (idx (expanded_roots s) ((1 + 2 * i) * stride)) in
    let y_times_root := fmul y r in
    let^ _ := wr_at off len i (fadd x y_times_root) in
    wr_at off len (half + i) (fsub x y_times_root)).

(** data_availability_sampling.rs:10-67 [das_fft_extension_stride]; note that the upper
    half is the first closure of the join (lines 41-44) *)
Fixpoint das_stride_par (fuel : nat) (s : fft_settings K) (off len stride : nat) : proc K unit :=
  match fuel with
  | O => Crash
  | S fuel' =>
    match len ?= 2 with
    | Lt => Ret tt
    | Eq =>
      let^ e0 := rd_at off len 0 in
      let^ e1 := rd_at off len 1 in
      let x := fadd e0 e1 in
      let y := fsub e0 e1 in
      let^ r := liftc (idx (expanded_roots s) stride) in
      let y_times_root := fmul y r in
      let^ _ := wr_at off len 0 (fadd x y_times_root) in
      wr_at off len 1 (fsub x y_times_root)
    | Gt =>
      let half := len / 2 in
      let^ _ := das_split_par s off len half stride in
      let lo := das_stride_par fuel' s off half (stride * 2) in
      let hi := das_stride_par fuel' s (off + half) (len - half) (stride * 2) in
      let^ _ := (if 32 <? len then join hi lo else let^ _ := lo in hi) in
      das_join_par s off len half stride
    end
  end.

(** data_availability_sampling.rs:74-96 [das_fft_extension] *)
Definition das_fft_extension_par {V} (s : fft_settings K) (evens : list K) : proc V (res (list K)) :=
  if length evens =? 0 then Ret Err
  else if negb (is_pow2 (length evens)) then Ret Err
  else if max_width s <? length evens * 2 then Ret Err
  else
    let stride := max_width s / (length evens * 2) in
    Own evens (das_stride_par (S (length evens)) s 0 (length evens) stride)
      (fun odds _ =>
        let inv_len := finv (fnat (length odds)) in
        Ret (Ok (map (fun f => fmul f inv_len) odds))).

(** types/poly.rs:317-372 [mul_fft]; the joined closures each fill their own vector *)
Definition mul_fft_par {V} (table : list K) (a b : list K) (output_len : nat) : proc V (res (list K)) :=
  let! n := lift (usub (length a + length b) 1) in
  let! len := lift (next_pow2 n) in
  let scale := N.to_nat (log2_pow2 (N.of_nat len)) in
  let! fs := lift (unwrap (fft_settings_new table scale)) in
  let! a_pad := lift (poly_pad a len) in
  let! b_pad := lift (poly_pad b len) in
  let rest (a_fft b_fft : list K) : proc V (res (list K)) :=
    let! ab_fft := lift (for_range 0 len (fun i ab =>
        let* x := idx a_fft i in
        let* y := idx b_fft i in
        upd ab i (fmul x y)) (repeat f0 len)) in
    let^ ab := unwrapc (fft_fr_par fs ab_fft true) in
    let ret := repeat f0 output_len in
    let range := min_u64 output_len len in
    let! src := lift (slice ab 0 range) in
    let! _ := lift (slice ret 0 range) in
    Ret (Ok (src ++ skipn range ret)) in
  if 1024 <? len then
    Fork (unwrapc (fft_fr_par fs a_pad false)) (unwrapc (fft_fr_par fs b_pad false)) rest
  else
    let^ a_fft := unwrapc (fft_fr_par fs a_pad false) in
    let^ b_fft := unwrapc (fft_fr_par fs b_pad false) in
    rest a_fft b_fft.

(** zero_poly.rs:196-225: [(lo..lo + n).into_par_iter().map(f).collect_into_vec(out)].  The
    pool cuts the range as described by [t]; the result of index [i] goes to [out[i]]. *)
Fixpoint collect_par {A} (t : split) (f : nat -> res A) (lo n : nat) : proc (option A) unit :=
  match t with
  | Whole => forc lo (lo + n) (fun i => let^ v := liftc (f i) in Wr i (Some v) (Ret tt))
  | Cut k l r =>
      let h := Nat.min k n in
      join (collect_par l f lo h) (collect_par r f (lo + h) (n - h))
  end.

(** zero_poly.rs:201-222: the closure mapped over the indices.  An [Err] of
    [do_zero_poly_mul_partial] or [pad_poly] is ignored by the code. *)
Definition zp_partial_item (s : fft_settings K) (missing : list nat) (stride i : nat) : res (list K * nat * nat) :=
  let missing_offset := 63 * i in
  let work_offset := 64 * i in
  let e := Nat.min (missing_offset + 63) (length missing) in
  let* sl := slice missing missing_offset e in
  let* partial := match do_zero_poly_mul_partial s sl stride with Err => Ok [] | r => r end in
  let* partial := match pad_poly partial 64 with Err => Ok partial | r => r end in
  Ok (partial, 64, work_offset).

(** zero_poly.rs:195-236: construction of the partial polynomials *)
Definition zp_partials_par {V} (t : split) (s : fft_settings K) (missing : list nat) (stride count next_pow : nat)
  : proc V (res (list K * list nat * list nat)) :=
  Own (repeat None count) (collect_par t (zp_partial_item s missing stride) 0 count)
    (fun out _ =>
      let items := flat_map (fun o => match o with Some x => [x] | None => [] end) out in
      let work := flat_map (fun x => fst (fst x)) items in
      let work := work ++ repeat f0 (next_pow - length work) in
      Ret (Ok (work, map (fun x => snd (fst x)) items, map snd items))).

(** zero_poly.rs:82-119 [reduce_partials] *)
Definition reduce_partials_par {V} (s : fft_settings K) (domain_size : nat) (partials : list (list K)) : proc V (res (list K)) :=
  if negb (is_pow2 domain_size) then Ret Err
  else
    let! out_degree := lift (for_range 0 (length partials) (fun i d =>
        let* p := idx partials i in
        let* l := usub (length p) 1 in
        Ok (d + l)) 0) in
    if domain_size <? out_degree + 1 then Ret Err
    else
      let! p0 := lift (idx partials 0) in
      let! padded := lift (pad_poly p0 domain_size) in
      let! eval_result := fft_fr_par s padded false in
      let! eval_result := forr 1 (length partials) (fun i ev =>
          let! p := lift (idx partials i) in
          let! padded := lift (pad_poly p domain_size) in
          let! e := fft_fr_par s padded false in
          lift (for_range 0 domain_size (fun j ev =>
            let* x := idx ev j in
            let* y := idx e j in
            upd ev j (fmul x y)) ev)) eval_result in
      let! coeffs := fft_fr_par s eval_result true in
      lift (slice coeffs 0 (out_degree + 1)).

(** zero_poly.rs:249-281 *)
Definition zp_group_par {V} (s : fft_settings K) (domain ceiling count size i : nat)
  (st : list K * list nat * list nat) : proc V (res (list K * list nat * list nat)) :=
  let '(work, lens, offsets) := st in
  let start := i * 4 in
  let out_end := Nat.min ((start + 4) * size) ceiling in
  let! d := lift (usub out_end (start * size)) in
  let reduced_len := Nat.min d domain in
  let! rest := lift (usub count start) in
  let num := Nat.min 4 rest in
  let! offsets := lift (upd offsets i (start * size)) in
  let! ov := lift (zp_views work lens size i start num offsets) in
  let (offsets, pv) := ov in
  if 1 <? num then
    let! red := reduce_partials_par s reduced_len pv in
    lift (let* lens := upd lens i (length red) in
          let* red := pad_poly red (size * num) in
          let* o := idx offsets i in
          let* work := Model_ZeroPoly.splice work o (o + length red) red in
          Ok (work, lens, offsets))
  else
    lift (let* l := idx lens start in
          let* lens := upd lens i l in
          Ok (work, lens, offsets)).

(** zero_poly.rs:244-285 *)
Definition zp_level_par {V} (s : fft_settings K) (domain ceiling : nat)
  (st : nat * (list K * list nat * list nat)) : proc V (res (nat * (list K * list nat * list nat))) :=
  let (count, wlo) := st in
  let reduced_count := 1 + (count - 1) / 4 in
  let '(_, lens, _) := wlo in
  let! l0 := lift (idx lens 0) in
  let! size := lift (next_pow2 l0) in
  let! wlo := forr 0 reduced_count (zp_group_par s domain ceiling count size) wlo in
  Ret (Ok (reduced_count, wlo)).

(** zero_poly.rs:161-287 *)
Definition zp_tree_par {V} (t : split) (s : fft_settings K) (domain ceiling count stride next_pow : nat) (missing : list nat)
  : proc V (res (list K)) :=
  let! wlo := zp_partials_par t s missing stride count next_pow in
  let '(work, lens, offsets) := wlo in
  let! l := lift (usub (1 + length missing) ((count - 1) * 63)) in
  let! c1 := lift (usub count 1) in
  let! lens := lift (upd lens c1 l) in
  let! st := whiler (S count) (fun st => 1 <? fst st) (zp_level_par s domain ceiling) (count, (work, lens, offsets)) in
  let '(_, (work, _, _)) := st in
  Ret (Ok work).

(** zero_poly.rs:121-305 [zero_poly_via_multiplication] *)
Definition zero_poly_via_multiplication_par {V} (t : split) (s : fft_settings K) (domain : nat) (missing : list nat)
  : proc V (res (list K * list K)) :=
  if length missing =? 0 then Ret (Ok ([], []))
  else if domain <=? length missing then Ret Err
  else if max_width s <? domain then Ret Err
  else if negb (is_pow2 domain) then Ret Err
  else
    let stride := max_width s / domain in
    let count := 1 + (length missing - 1) / 63 in
    let! next_pow := lift (next_pow2 (count * 64)) in
    let ceiling := Nat.min next_pow domain in
    let! zero_poly :=
      if length missing <=? 63 then lift (do_zero_poly_mul_partial s missing stride)
      else zp_tree_par t s domain ceiling count stride next_pow missing in
    let! zero_poly := lift
      match Nat.compare (length zero_poly) domain with
      | Lt => pad_poly zero_poly domain
      | Eq => Ok zero_poly
      | Gt => slice zero_poly 0 domain
      end in
    let! zero_eval := fft_fr_par s zero_poly false in
    Ret (Ok (zero_eval, zero_poly)).

(** recovery.rs:25-27: the loop of [scale_poly] on a vector that starts at [off] of the
    shared memory.  The table of factors behind the [OnceCell] is the same value whichever
    task initialises it; it is computed by the sequential [factor_table]. *)
Definition scale_poly_par (tl off len_v : nat) (len_p : nat) : proc K unit :=
  let^ factors := liftc (factor_table tl (finv (fnat 5))) in
  forc 1 len_p (fun i =>
    let^ x := rd_at off len_v i in
    let^ f := liftc (idx factors i) in
    wr_at off len_v i (fmul x f)).

(** recovery.rs:86-164 with the joins of lines 95-106 and 126-137; the two vectors of the
    first join lie one after the other in the shared memory *)
Definition recover_core_par {V} (tl : nat) (s : fft_settings K) (n zero_poly_scale : nat) (evals zero_poly : list K)
  : proc V (res (list K)) :=
  let^ poly_with_zero := unwrapc (fft_fr_par s evals true) in
  let np := length poly_with_zero in
  let len_zero_poly := length zero_poly in
  let sc1 := scale_poly_par tl 0 np n in
  let sc2 := scale_poly_par tl np len_zero_poly len_zero_poly in
  Own (poly_with_zero ++ zero_poly)
    (if 1024 <? zero_poly_scale then join sc1 sc2 else let^ _ := sc1 in sc2)
    (fun mem _ =>
      let scaled_poly_with_zero := firstn np mem in
      let scaled_zero_poly := skipn np mem in
      let rest (ev1 ev2 : list K) : proc V (res (list K)) :=
        let! evr := lift (for_range 0 n (fun i l =>
            let* a := idx ev1 i in
            let* b := idx ev2 i in
            let* q := unwrap (fr_div a b) in
            upd l i q) ev1) in
        let^ scaled := unwrapc (fft_fr_par s evr true) in
        let! poly := lift (unscale_poly tl scaled n) in
        let^ data := unwrapc (fft_fr_par s poly false) in
        Ret (Ok data) in
      if 1024 <? zero_poly_scale then
        Fork (unwrapc (fft_fr_par s scaled_poly_with_zero false))
             (unwrapc (fft_fr_par s scaled_zero_poly false)) rest
      else
        let^ ev1 := unwrapc (fft_fr_par s scaled_poly_with_zero false) in
        let^ ev2 := unwrapc (fft_fr_par s scaled_zero_poly false) in
        rest ev1 ev2).

(** recovery.rs:46-176 [recover_poly_from_samples] *)
Definition recover_null_par {V} (t : split) (null : K) (tl : nat) (s : fft_settings K) (samples : list K) (n : nat)
  : proc V (res (list K)) :=
  if negb (is_pow2 n) then Ret Err
  else
    let missing := missing_positions (fun v => feqb v null) samples in
    let^ z := unwrapc (zero_poly_via_multiplication_par t s n missing) in
    let (zero_eval, zero_poly) := z in
    let! _ := lift (for_range 0 n (fun i _ =>
        let* v := idx samples i in
        let* ze := idx zero_eval i in
        if negb (Bool.eqb (feqb v null) (feqb ze f0)) then Err else Ok tt) tt) in
    let! evals := lift (for_range 0 n (fun i l =>
        let* v := idx samples i in
        if feqb v null then Ok (l ++ [f0])
        else let* ze := idx zero_eval i in Ok (l ++ [fmul v ze])) []) in
    let! l1 := lift (usub (length zero_poly) 1) in
    let! zero_poly_scale := lift (next_pow2 l1) in
    let! data := recover_core_par tl s n zero_poly_scale evals zero_poly in
    let! _ := lift (for_range 0 n (fun i _ =>
        let* v := idx samples i in
        if feqb v null then Ok tt
        else let* d := idx data i in if feqb d v then Ok tt else Err) tt) in
    Ret (Ok data).

(** types/poly.rs:393-479 [recover_poly_from_samples] on optional samples: no join of its
    own, but the transforms and the vanishing polynomial run in parallel *)
Definition recover_opt_par {V} (t : split) (tl : nat) (s : fft_settings K) (samples : list (option K))
  : proc V (res (list K)) :=
  let n := length samples in
  if negb (is_pow2 n) then Ret Err
  else
    let missing := missing_positions (fun o => match o with None => true | Some _ => false end) samples in
    let^ z := unwrapc (zero_poly_via_multiplication_par t s n missing) in
    let (zero_eval, zero_poly) := z in
    let! _ := lift (for_range 0 n (fun i _ =>
        let* sm := idx samples i in
        let* ze := idx zero_eval i in
        assert (Bool.eqb (match sm with None => true | Some _ => false end) (feqb ze f0))) tt) in
    let! evals := lift (for_range 0 n (fun i l =>
        let* sm := idx samples i in
        match sm with
        | None => Ok (l ++ [f0])
        | Some v => let* ze := idx zero_eval i in Ok (l ++ [fmul v ze])
        end) []) in
    (* no join here: the threshold is never passed *)
    let! data := recover_core_par tl s n 0 evals zero_poly in
    let! _ := lift (for_range 0 n (fun i _ =>
        let* sm := idx samples i in
        match sm with
        | None => Ok tt
        | Some v => let* d := idx data i in assert (feqb d v)
        end) tt) in
    Ret (Ok data).
End Model.
