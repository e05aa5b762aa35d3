(** * Model_ParBackends: the code under [feature = "parallel"] of the zkcrypto, Arkworks and
    mcl backends

    As in [Model_Par], functions are tasks of [Conc]: the closures given to [rayon::join]
    interleave.  Definitions of [Model_Par] are used where the Rust functions consist of
    the same statements with the same thresholds. *)
From Coq Require Import List Arith Bool NArith ZArith.
From Verif Require Import Base Fld Model_Utils Model_FFT Model_Das Model_Poly Model_ZeroPoly Model_Recovery Conc Model_Par
  Model_Zk Model_ZkZero Model_ZkMsm Model_Ark Model_ArkZero Model_Mcl Model_MclPoly Model_MclZero.
Import ListNotations.

(** ** zkcrypto: the sum of scalar multiples *)

(** zkcrypto/src/curve/multiscalar_mul.rs:189-272 [msm_variable_base]: the windows are an
    [into_par_iter().map(..).collect()] (205-206, 213-256); [t] is the way the pool cuts
    it *)
Definition msm_variable_base_par {V M Sc : Type} (t : split) (zero : M) (add : M -> M -> M) (dbl : M -> M)
  (is_zero is_one : Sc -> bool) (digit : Sc -> nat -> nat -> res nat) (points : list M) (scalars : list Sc)
  : proc V (res M) :=
  let c := if length scalars <? 32 then 3 else ln_without_floats (length scalars) + 2 in
  let window_starts := step_by 255 c in
  let pairs := combine scalars points in
  Own (repeat None (length window_starts))
    (collect_par t (fun i => let* w_start := idx window_starts i in
                             msm_window zero add is_zero is_one digit c pairs w_start)
                 0 (length window_starts))
    (fun out _ =>
      let window_sums := flat_map (fun o => match o with Some x => [x] | None => [] end) out in
      lift (
        let* lowest := idx window_sums 0 in
        let* rest := slice_from window_sums 1 in
        let* total := for_each (rev rest) (fun sum_i total =>
            for_range 0 c (fun _ total => Ok (dbl total)) (add total sum_i)) zero in
        Ok (add total lowest))).

Section Model.
Context {K : fld}.

(** ** zkcrypto: transforms, extension, multiplication *)

(** zkcrypto/src/fft_fr.rs:43-108 [fft_fr_fast] joins under the condition of
    [fft_fr_fast_par]; fftsettings.rs:121-154 [fft_fr] *)
Definition zk_fft_fr_par {V} (s : fft_settings K) (data : list K) (inverse : bool) : proc V (res (list K)) :=
  if max_width s <? length data then Ret Err
  else if negb (zk_is_pow2 (length data)) then Ret Err
  else
    let n := length data in
    let stride := max_width s / n in
    let roots := if inverse then reverse_roots s else expanded_roots s in
    Own (repeat f0 n) (fft_fr_fast_par (S n) 0 n data 1 roots stride)
      (fun ret _ =>
        if inverse then
          let! inv_len := lift (zkf_inverse (fnat n)) in
          Ret (Ok (map (fun f => fmul f inv_len) (firstn n ret) ++ skipn n ret))
        else Ret (Ok ret)).

(** zkcrypto/src/fftsettings.rs:23-74 [das_fft_extension_stride]: the upper half is the
    first closure, as in [das_stride_par]; das.rs:6-49 [das_fft_extension] *)
Definition zk_das_par {V} (s : fft_settings K) (val : list K) : proc V (res (list K)) :=
  if length val =? 0 then Ret Err
  else if negb (std_is_pow2 (length val)) then Ret Err
  else if max_width s <? length val * 2 then Ret Err
  else
    let stride := max_width s / (length val * 2) in
    Own val (das_stride_par (S (length val)) s 0 (length val) stride)
      (fun vals _ =>
        let! invlen := lift (zkf_inverse (fnat (length val))) in
        Own [] (das_stride_par 1 s 0 0 stride)
          (fun odds _ =>
            lift (for_range 0 (length vals) (fun i odds =>
              let* v := idx vals i in Ok (odds ++ [fmul v invlen])) odds))).

(** zkcrypto/src/poly.rs:428-471 [poly_mul_fft] *)
Definition zk_mul_fft_par {V} (table : list K) (out : nat) (a b : list K) : proc V (res (list K)) :=
  let! n := lift (usub (length a + length b) 1) in
  let! len := lift (zk_next_pow2 n) in
  let ft_size := N.to_nat (zk_log2_pow2 (N.of_nat len)) in
  let! fs := lift (unwrap (zk_fft_settings_new table ft_size)) in
  let! a_pad := lift (zk_pad a len) in
  let! b_pad := lift (zk_pad b len) in
  let rest (a_fft b_fft : list K) : proc V (res (list K)) :=
    let! ab_fft := lift (for_range 0 len (fun i ab =>
        let* x := idx a_fft i in
        let* y := idx b_fft i in
        let* ab := upd ab i (fmul x y) in
        let* _ := assert (feqb (fmul x y) (fmul y x)) in
        Ok ab) (repeat f0 len)) in
    let^ ab := unwrapc (zk_fft_fr_par fs ab_fft true) in
    let output := repeat f0 out in
    let data_len := zk_min_u64 out len in
    let! src := lift (slice ab 0 data_len) in
    let! _ := lift (slice output 0 data_len) in
    Ret (Ok (src ++ skipn data_len output)) in
  if 1024 <? len then
    Fork (unwrapc (zk_fft_fr_par fs a_pad false)) (unwrapc (zk_fft_fr_par fs b_pad false)) rest
  else
    let^ a_fft := unwrapc (zk_fft_fr_par fs a_pad false) in
    let^ b_fft := unwrapc (zk_fft_fr_par fs b_pad false) in
    rest a_fft b_fft.

(** ** zkcrypto: vanishing polynomials; zero_poly.rs has no parallel path of its own but its
    transforms do *)

(** zkcrypto/src/zero_poly.rs:51-86 [reduce_partials] *)
Definition zk_reduce_partials_par {V} (s : fft_settings K) (length_ : nat) (partials : list (list K))
  : proc V (res (list K)) :=
  let! out_degree := lift (for_range 0 (length partials) (fun i d =>
      let* p := idx partials i in
      let* l := usub (length p) 1 in
      Ok (d + l)) 0) in
  if negb (zk_is_pow2 length_) then Ret Err
  else if length_ <? out_degree + 1 then Ret Err
  else
    let! p0 := lift (idx partials 0) in
    let! p_padded := lift (zk_pad p0 length_) in
    let^ ev := unwrapc (zk_fft_fr_par s p_padded false) in
    let! ev := forr 1 (length partials) (fun i ev =>
        let! p := lift (idx partials i) in
        let! p_padded := lift (zk_pad p length_) in
        let^ e := unwrapc (zk_fft_fr_par s p_padded false) in
        lift (for_range 0 length_ (fun j ev =>
          let* x := idx ev j in
          let* y := idx e j in
          upd ev j (fmul x y)) ev)) ev in
    let^ coeffs := unwrapc (zk_fft_fr_par s ev true) in
    lift (slice coeffs 0 (out_degree + 1)).

(** zkcrypto/src/zero_poly.rs:152-179 *)
Definition zk_zp_group_par {V} (s : fft_settings K) (domain ceiling count size i : nat)
  (st : list K * list nat * list nat) : proc V (res (list K * list nat * list nat)) :=
  let '(work, lens, offsets) := st in
  let start := i * 4 in
  let out_end := Nat.min ((start + 4) * size) ceiling in
  let! d := lift (usub out_end (start * size)) in
  let reduced_len := Nat.min d domain in
  let! rest := lift (usub count start) in
  let num := Nat.min 4 rest in
  let! offsets := lift (upd offsets i (start * size)) in
  let! ov := lift (zp_views work lens size i start num offsets) in
  let (offsets, pv) := ov in
  if 1 <? num then
    let! red := zk_reduce_partials_par s reduced_len pv in
    lift (let* lens := upd lens i (length red) in
          let* red := zk_pad red (size * num) in
          let* o := idx offsets i in
          let* work := splice work o (o + length red) red in
          Ok (work, lens, offsets))
  else
    lift (let* l := idx lens start in
          let* lens := upd lens i l in
          Ok (work, lens, offsets)).

(** zkcrypto/src/zero_poly.rs:148-182 *)
Definition zk_zp_level_par {V} (s : fft_settings K) (domain ceiling : nat)
  (st : nat * (list K * list nat * list nat)) : proc V (res (nat * (list K * list nat * list nat))) :=
  let (count, wlo) := st in
  let reduced_count := 1 + (count - 1) / 4 in
  let '(_, lens, _) := wlo in
  let! l0 := lift (idx lens 0) in
  let! size := lift (std_next_pow2 l0) in
  let! wlo := forr 0 reduced_count (zk_zp_group_par s domain ceiling count size) wlo in
  Ret (Ok (reduced_count, wlo)).

(** zkcrypto/src/zero_poly.rs:117-185 *)
Definition zk_zp_tree_par {V} (s : fft_settings K) (domain ceiling count stride : nat) (missing : list nat)
  : proc V (res (list K)) :=
  let! wlen := lift (std_next_pow2 (count * 64)) in
  let! wlo := lift (zk_zp_partials s missing stride count (repeat f0 wlen)) in
  let '(work, lens, offsets) := wlo in
  let! l := lift (usub (1 + length missing) ((count - 1) * 63)) in
  let! c1 := lift (usub count 1) in
  let! lens := lift (upd lens c1 l) in
  let! st := whiler (S count) (fun st => 1 <? fst st) (zk_zp_level_par s domain ceiling) (count, (work, lens, offsets)) in
  let '(_, (work, _, _)) := st in
  Ret (Ok work).

(** zkcrypto/src/zero_poly.rs:88-194 [zero_poly_via_multiplication] *)
Definition zk_zero_poly_par {V} (s : fft_settings K) (length_ : nat) (missing : list nat)
  : proc V (res (list K * list K)) :=
  if length missing =? 0 then Ret (Ok ([], []))
  else if length_ <=? length missing then Ret Err
  else if max_width s <? length_ then Ret Err
  else if negb (std_is_pow2 length_) then Ret Err
  else
    let stride := max_width s / length_ in
    let count := (63 + length missing - 1) / 63 in
    let! next_pow := lift (std_next_pow2 (count * 64)) in
    let ceiling := Nat.min next_pow length_ in
    let! zero_poly :=
      if length missing <=? 63 then lift (unwrap (zk_zero_partial s missing stride))
      else zk_zp_tree_par s length_ ceiling count stride missing in
    let! zero_poly := lift (
      if length zero_poly <? length_ then zk_pad zero_poly length_
      else if length_ <? length zero_poly then slice zero_poly 0 length_
      else Ok zero_poly) in
    let! zero_eval := zk_fft_fr_par s zero_poly false in
    Ret (Ok (zero_eval, zero_poly)).

(** ** zkcrypto and Arkworks: scaling with tables kept in [static mut] vectors

    The shared memory is a list of vectors: cell 0 is INVERSE_FACTORS, cell 1 is
    UNSCALE_FACTOR_POWERS (zkcrypto/src/recover.rs:9-12, Arkworks/src/recover.rs:7-10); the
    other cells hold vectors of the calls.  A [push] reads the vector and writes it back.
    An unsynchronised [Vec] may do worse than this interleaving of whole accesses. *)
Definition inverse_factors := 0.
Definition unscale_factor_powers := 1.

Definition push (a : nat) (x : K) : proc (list K) unit := Rd a (fun t => Wr a (t ++ [x]) (Ret tt)).

(** recover.rs:24-31 and 64-71: make the table at least [len] long *)
Definition extend_table (a : nat) (c : K) (len : nat) : proc (list K) unit :=
  let^ t := Rd a Ret in
  if length t <? len then
    let^ t := Rd a Ret in
    let^ _ := (if length t =? 0 then push a f1 else Ret tt) in
    let^ t := Rd a Ret in
    forc (length t) len (fun i =>
      let^ t := Rd a Ret in
      let^ j := liftc (usub i 1) in
      let^ x := liftc (idx t j) in
      push a (fmul x c))
  else Ret tt.

(** recover.rs:33-35 and 73-75 *)
Definition apply_table (a cell len : nat) : proc (list K) unit :=
  forc 1 len (fun i =>
    let^ p := Rd cell Ret in
    let^ x := liftc (idx p i) in
    let^ t := Rd a Ret in
    let^ f := liftc (idx t i) in
    let^ p := liftc (upd p i (fmul x f)) in
    Wr cell p (Ret tt)).

(** zkcrypto/src/recover.rs:15-46 [scale_poly] on the vector [p], which is in [cell] while
    the call runs.  Only this call has access to [cell], so the loop of 40-43 is one
    step. *)
Definition scale_par (cell : nat) (p : list K) : proc (list K) (list K) :=
  let^ inv_factor := liftc (zkf_inverse (fnat 5)) in
  let^ l := liftc (usub (length p) 1) in
  let^ optim := liftc (std_next_pow2 l) in
  Wr cell p (
    let^ _ := (
      if optim <=? 1024 then
        let^ _ := extend_table inverse_factors inv_factor (length p) in
        apply_table inverse_factors cell (length p)
      else
        let^ q := liftc (zk_apply_powers inv_factor p) in
        Wr cell q (Ret tt)) in
    Rd cell Ret).

(** zkcrypto/src/recover.rs:58-77 [unscale_poly] *)
Definition unscale_par (cell : nat) (p : list K) : proc (list K) (list K) :=
  Wr cell p (
    let^ _ := extend_table unscale_factor_powers (fnat 5) (length p) in
    let^ _ := apply_table unscale_factor_powers cell (length p) in
    Rd cell Ret).

(** zkcrypto/src/recover.rs:117-160: [c] and [S c] are the cells of this call *)
Definition zk_recover_core_par (c : nat) (s : fft_settings K) (n : nat) (evals zero_poly : list K)
  : proc (list K) (res (list K)) :=
  let^ poly_with_zero := unwrapc (zk_fft_fr_par s evals true) in
  let! l := lift (usub (length poly_with_zero) 1) in
  let! optim := lift (zk_next_pow2 l) in
  let rest (ev1 ev2 : list K) : proc (list K) (res (list K)) :=
    let! evr := lift (for_range 0 n (fun i l =>
        let* a := idx ev1 i in
        let* b := idx ev2 i in
        let* q := unwrap (zkf_div a b) in
        upd l i q) ev1) in
    let^ scaled := unwrapc (zk_fft_fr_par s evr true) in
    let^ poly := unscale_par c scaled in
    let^ out := unwrapc (zk_fft_fr_par s poly false) in
    Ret (Ok out) in
  let transforms (p z : list K) : proc (list K) (res (list K)) :=
    if 1024 <? optim then
      Fork (unwrapc (zk_fft_fr_par s p false)) (unwrapc (zk_fft_fr_par s z false)) rest
    else
      let^ ev1 := unwrapc (zk_fft_fr_par s p false) in
      let^ ev2 := unwrapc (zk_fft_fr_par s z false) in
      rest ev1 ev2 in
  if 1024 <? optim then
    Fork (scale_par c poly_with_zero) (scale_par (S c) zero_poly) transforms
  else
    let^ p := scale_par c poly_with_zero in
    let^ z := scale_par (S c) zero_poly in
    transforms p z.

(** zkcrypto/src/recover.rs:90-165 [recover_poly_from_samples] *)
Definition zk_recover_par (c : nat) (s : fft_settings K) (samples : list (option K)) : proc (list K) (res (list K)) :=
  let n := length samples in
  let! _ := lift (assert (std_is_pow2 n)) in
  let missing := missing_positions zk_is_none samples in
  let^ z := unwrapc (zk_zero_poly_par s n missing) in
  let (zero_eval, zero_poly) := z in
  let! _ := lift (for_range 0 (Nat.min (length zero_eval) n) (fun i _ =>
      let* item := idx zero_eval i in
      let* sm := idx samples i in
      assert (Bool.eqb (zk_is_none sm) (feqb item f0))) tt) in
  let! evals := lift (for_range 0 n (fun i l =>
      let* sm := idx samples i in
      match sm with
      | None => upd l i f0
      | Some v => let* ze := idx zero_eval i in upd l i (fmul v ze)
      end) (repeat f0 n)) in
  let! out := zk_recover_core_par c s n evals zero_poly in
  let! _ := lift (for_range 0 n (fun i _ =>
      let* sm := idx samples i in
      match sm with
      | None => Ok tt
      | Some v => let* d := idx out i in assert (feqb d v)
      end) tt) in
  Ret (Ok out).

(** ** Arkworks *)

Section G1.
Context {M : gmod K}.
(** Arkworks/src/fft_g1.rs:208-212: the last case of [fft_g1_fast] *)
Definition ark_copy_par (off len : nat) (data : list M) : proc M unit :=
  forc 0 len (fun i => let^ d := liftc (idx data i) in wr_at off len i d).

(** Arkworks/src/fft_g1.rs:159-214 [fft_g1_fast]: the upper half is the first closure; the
    loop of 202-206 is the same as in blst-from-scratch *)
Fixpoint ark_fft_g1_fast_par (fuel off len : nat) (data : list M) (stride : nat)
         (roots : list K) (roots_stride : nat) : proc M unit :=
  match fuel with
  | O => Crash
  | S fuel' =>
    let half := len / 2 in
    if 0 <? half then
      let lo := ark_fft_g1_fast_par fuel' off half data (stride * 2) roots (roots_stride * 2) in
      let hi := let^ data' := liftc (slice_from data stride) in
                ark_fft_g1_fast_par fuel' (off + half) (len - half) data' (stride * 2) roots (roots_stride * 2) in
      let^ _ := (if 8 <? len then join hi lo else let^ _ := lo in hi) in
      fft_g1_butterflies off len half roots roots_stride
    else ark_copy_par off len data
  end.

(** Arkworks/src/fft_g1.rs:85-128 [fft_g1] *)
Definition ark_fft_g1_par {V} (s : fft_settings K) (data : list M) (inverse : bool) : proc V (res (list M)) :=
  if max_width s <? length data then Ret Err
  else if negb (std_is_pow2 (length data)) then Ret Err
  else
    let n := length data in
    let stride := max_width s / n in
    if inverse then
      let! inv_len := lift (ark_inverse (fnat n)) in
      Own (repeat g0 n) (ark_fft_g1_fast_par (S n) 0 n data 1 (reverse_roots s) stride)
        (fun out _ => Ret (Ok (map (fun i => smul inv_len i) (firstn n out) ++ skipn n out)))
    else
      Own (repeat g0 n) (ark_fft_g1_fast_par (S n) 0 n data 1 (expanded_roots s) stride)
        (fun out _ => Ret (Ok out)).
End G1.

(** Arkworks/src/das.rs:7-52 [das_fft_extension_stride] is [das_stride_par]; 56-80
    [das_fft_extension] *)
Definition ark_das_par {V} (s : fft_settings K) (vals : list K) : proc V (res (list K)) :=
  if length vals =? 0 then Ret Err
  else if negb (std_is_pow2 (length vals)) then Ret Err
  else if max_width s <? length vals * 2 then Ret Err
  else
    let stride := max_width s / (length vals * 2) in
    Own vals (das_stride_par (S (length vals)) s 0 (length vals) stride)
      (fun vals _ =>
        let! invlen := lift (ark_inverse (fnat (length vals))) in
        Ret (Ok (map (fun v => fmul v invlen) vals))).

Section Ark.
Variable W : K.

(** Arkworks/src/poly.rs:122-195 [poly_mul_fft]; the transforms are calls of the library *)
Definition ark_mul_fft_par {V} (a b : list K) (fs : option (fft_settings K)) (len : nat) : proc V (res (list K)) :=
  let a_len := Nat.min (length a) len in
  let b_len := Nat.min (length b) len in
  let! n := lift (usub (a_len + b_len) 1) in
  let! length_ := lift (std_next_pow2 n) in
  let! fs_p := lift (match fs with
    | Some x => ark_settings_clone W x
    | None => unwrap (ark_settings_new W (lib_log2_pow2 length_))
    end) in
  if max_width fs_p <? length_ then Ret Err
  else
    let! a := lift (slice a 0 a_len) in
    let! b := lift (slice b 0 b_len) in
    let! a_pad := lift (ark_pad a length_) in
    let! b_pad := lift (ark_pad b length_) in
    let rest (a_fft b_fft : list K) : proc V (res (list K)) :=
      lift (
        let* ab_fft := for_range 0 length_ (fun i ab =>
            let* x := idx a_fft i in
            let* y := idx b_fft i in
            upd ab i (fmul x y)) a_pad in
        let* ab := unwrap (ark_fft_fr W fs_p ab_fft true) in
        let data_len := Nat.min len length_ in
        let* out := for_range 0 data_len (fun i out => let* c := idx ab i in upd out i c) (repeat f0 len) in
        for_range data_len len (fun i out => upd out i f0) out) in
    if 1024 <? length_ then
      Fork (liftc (ark_fft_fr W fs_p a_pad false)) (liftc (ark_fft_fr W fs_p b_pad false)) rest
    else
      let^ a_fft := liftc (ark_fft_fr W fs_p a_pad false) in
      let^ b_fft := liftc (ark_fft_fr W fs_p b_pad false) in
      rest a_fft b_fft.

(** Arkworks/src/recover.rs:122-200; [scale_poly] (14-42) and [unscale_poly] (53-72) consist
    of the same statements as in zkcrypto ([ark_inverse] is [zkf_inverse]) *)
Definition ark_recover_core_par (c : nat) (s : fft_settings K) (n : nat) (evals zero_poly : list K)
  : proc (list K) (res (list K)) :=
  let! poly_with_zero := lift (unwrap (ark_fft_fr W s evals true)) in
  let! l := lift (usub (length poly_with_zero) 1) in
  let! optim := lift (std_next_pow2 l) in
  let rest (ev1 ev2 : list K) : proc (list K) (res (list K)) :=
    let! evr := lift (for_range 0 n (fun i l =>
        let* a := idx ev1 i in
        let* b := idx ev2 i in
        let* q := unwrap (ark_fr_div a b) in
        upd l i q) ev1) in
    let! scaled := lift (unwrap (ark_fft_fr W s evr true)) in
    let^ poly := unscale_par c scaled in
    lift (unwrap (ark_fft_fr W s poly false)) in
  let transforms (p z : list K) : proc (list K) (res (list K)) :=
    if 1024 <? optim then
      Fork (liftc (ark_fft_fr W s p false)) (liftc (ark_fft_fr W s z false)) rest
    else
      let^ ev1 := liftc (ark_fft_fr W s p false) in
      let^ ev2 := liftc (ark_fft_fr W s z false) in
      rest ev1 ev2 in
  if 1024 <? optim then
    Fork (scale_par c poly_with_zero) (scale_par (S c) zero_poly) transforms
  else
    let^ p := scale_par c poly_with_zero in
    let^ z := scale_par (S c) zero_poly in
    transforms p z.

(** Arkworks/src/recover.rs:82-211 [recover_poly_from_samples] *)
Definition ark_recover_par (c : nat) (s : fft_settings K) (samples : list (option K)) : proc (list K) (res (list K)) :=
  let n := length samples in
  if negb (std_is_pow2 n) then Ret Err
  else
    let missing := missing_positions zk_is_none samples in
    let! z := lift (unwrap (ark_zero_poly W s n missing)) in
    let (zero_eval, zero_poly) := z in
    let! _ := lift (for_range 0 (Nat.min (length zero_eval) n) (fun i _ =>
        let* item := idx zero_eval i in
        let* sm := idx samples i in
        if negb (Bool.eqb (zk_is_none sm) (feqb item f0)) then Err else Ok tt) tt) in
    let! evals := lift (for_range 0 n (fun i l =>
        let* sm := idx samples i in
        match sm with
        | None => upd l i f0
        | Some v => let* ze := idx zero_eval i in upd l i (fmul v ze)
        end) (repeat f0 n)) in
    let! out := ark_recover_core_par c s n evals zero_poly in
    let! _ := lift (for_range 0 n (fun i _ =>
        let* sm := idx samples i in
        match sm with
        | None => Ok tt
        | Some v => let* d := idx out i in if feqb d v then Ok tt else Err
        end) tt) in
    Ret (Ok out).
End Ark.

(** ** Calls one after the other in one thread, each starting with the tables left by the
    one before; a panic ends the thread *)
Fixpoint zk_session_par (c : nat) (calls : list (fft_settings K * list (option K))) : proc (list K) (res (list (list K))) :=
  match calls with
  | [] => Ret (Ok [])
  | (s, samples) :: calls =>
      let! d := zk_recover_par c s samples in
      let! ds := zk_session_par c calls in
      Ret (Ok (d :: ds))
  end.
Fixpoint zk_session (calls : list (fft_settings K * list (option K))) : res (list (list K)) :=
  match calls with
  | [] => Ok []
  | (s, samples) :: calls =>
      let* d := zk_recover s samples in
      let* ds := zk_session calls in
      Ok (d :: ds)
  end.

(** two calls of [scale_poly] in two threads *)
Definition two_scales (c1 c2 : nat) (p q : list K) : proc (list K) (list K * list K) :=
  Fork (scale_par c1 p) (scale_par c2 q) (fun p q => Ret (p, q)).

(** ** mcl *)

(** mcl-kzg/kzg/src/fk20_fft.rs:242-256 [_simple_ftt] on the slice [off, off + len) *)
Definition mcl_simple_fft_par (off len : nat) (values : list K) (offset stride : nat) (roots : list K) (root_stride : nat)
  : proc K unit :=
  let^ v0 := liftc (idx values offset) in
  let^ r0 := liftc (idx roots 0) in
  let init_last := fmul v0 r0 in
  forc 0 len (fun i =>
    let^ last := liftc (for_range 1 len (fun j last =>
      let* jv := idx values (offset + j * stride) in
      let* r := idx roots (((i * j) mod len) * root_stride) in
      Ok (fadd last (fmul jv r))) init_last) in
    wr_at off len i last).

(** fk20_fft.rs:234-239 *)
Definition mcl_butterfly_par (off len : nat) (roots : list K) (root_stride half : nat) : proc K unit :=
  forc 0 half (fun i =>
    let^ root := liftc (idx roots (i * root_stride)) in
    let^ y := rd_at off len (i + half) in
    let y_times_root := fmul y root in
    let^ x := rd_at off len i in
    let^ _ := wr_at off len (i + half) (fsub x y_times_root) in
    let^ x := rd_at off len i in
    wr_at off len i (fadd x y_times_root)).

(** fk20_fft.rs:204-240 [_fft] *)
Fixpoint mcl_fft_rec_par (fuel off len : nat) (values : list K) (offset stride : nat) (roots : list K) (root_stride : nat)
  : proc K unit :=
  match fuel with
  | O => Crash
  | S fuel' =>
    if len <=? 4 then mcl_simple_fft_par off len values offset stride roots root_stride else
    let half := len / 2 in
    let lo := mcl_fft_rec_par fuel' off half values offset (stride * 2) roots (root_stride * 2) in
    let hi := mcl_fft_rec_par fuel' (off + half) (len - half) values (offset + stride) (stride * 2) roots (root_stride * 2) in
    let^ _ := (if 256 <? half then join lo hi else let^ _ := lo in hi) in
    mcl_butterfly_par off len roots root_stride half
  end.

(** fk20_fft.rs:258-280 [inplace_fft] *)
Definition mcl_inplace_fft_par {V} (s : fft_settings K) (values : list K) (inv : bool) : proc V (res (list K)) :=
  let root_z := firstn (max_width s) (if inv then reverse_roots s else expanded_roots s) in
  if length values =? 0 then Crash else
  let n := length values in
  let stride := max_width s / n in
  Own (repeat f0 n) (mcl_fft_rec_par (S n) 0 n values 0 1 root_z stride)
    (fun out _ =>
      if inv then
        let inv_len := finv (mcl_from_int (as_i32 (N.of_nat n))) in
        Ret (Ok (map (fun item => fmul item inv_len) out))
      else Ret (Ok out)).

(** fk20_fft.rs:282-295 [fft] *)
Definition mcl_fft_par {V} (s : fft_settings K) (values : list K) (inv : bool) : proc V (res (list K)) :=
  if max_width s <? length values then Ret Err else
  let! n := lift (mcl_next_pow_of_2 (N.of_nat (length values))) in
  let! diff := lift (usub (N.to_nat n) (length values)) in
  mcl_inplace_fft_par s (values ++ repeat f0 diff) inv.

Section MclG1.
Context {M : gmod K}.

(** fk20_fft.rs:393-406 [_fft_g1_simple] *)
Definition mcl_simple_fft_g1_par (off len : nat) (values : list M) (offset stride : nat) (roots : list K) (root_stride : nat)
  : proc M unit :=
  forc 0 len (fun i =>
    let^ last := liftc (
      let* v0 := idx values offset in
      let* r0 := idx roots 0 in
      for_range 1 len (fun j last =>
        let* jv := idx values (offset + j * stride) in
        let* r := idx roots (((i * j) mod len) * root_stride) in
        Ok (gadd last (smul r jv))) (smul r0 v0)) in
    wr_at off len i last).

(** fk20_fft.rs:382-390 *)
Definition mcl_butterfly_g1_par (off len : nat) (roots : list K) (root_stride half : nat) : proc M unit :=
  forc 0 half (fun i =>
    let^ x := rd_at off len i in
    let^ y := rd_at off len (i + half) in
    let^ root := liftc (idx roots (i * root_stride)) in
    let y_times_root := smul root y in
    let^ _ := wr_at off len i (gadd x y_times_root) in
    wr_at off len (i + half) (gsub x y_times_root)).

(** fk20_fft.rs:357-391 [_fft_g1]: there is no threshold *)
Fixpoint mcl_fft_g1_rec_par (fuel off len : nat) (values : list M) (offset stride : nat) (roots : list K) (root_stride : nat)
  : proc M unit :=
  match fuel with
  | O => Crash
  | S fuel' =>
    if len <=? 4 then mcl_simple_fft_g1_par off len values offset stride roots root_stride else
    let half := len / 2 in
    let lo := mcl_fft_g1_rec_par fuel' off half values offset (stride * 2) roots (root_stride * 2) in
    let hi := mcl_fft_g1_rec_par fuel' (off + half) (len - half) values (offset + stride) (stride * 2) roots (root_stride * 2) in
    let^ _ := join lo hi in
    mcl_butterfly_g1_par off len roots root_stride half
  end.

(** fk20_fft.rs:305-325 [fft_g1] and 328-354 [fft_g1_inv] *)
Definition mcl_fft_g1_par {V} (s : fft_settings K) (values : list M) (inverse : bool) : proc V (res (list M)) :=
  if max_width s <? length values then Ret Err else
  let! p := lift (mcl_is_power_of_2 (N.of_nat (length values))) in
  if negb p then Ret Err else
  let root_z := firstn (max_width s) (if inverse then reverse_roots s else expanded_roots s) in
  if length values =? 0 then Crash else
  let n := length values in
  let stride := max_width s / n in
  Own (repeat g0 n) (mcl_fft_g1_rec_par (S n) 0 n values 0 1 root_z stride)
    (fun out _ =>
      if inverse then
        let inv_len := finv (mcl_from_int (as_i32 (N.of_nat n))) in
        Ret (Ok (map (fun item => smul inv_len item) out))
      else Ret (Ok out)).
End MclG1.

(** mcl-kzg/kzg/src/das.rs:45-49 *)
Definition mcl_das_split_par (s : fft_settings K) (off len half stride : nat) : proc K unit :=
  forc 0 half (fun i =>
    let^ a := rd_at off len i in
    let^ b := rd_at off len (half + i) in
    let add := fadd a b in
    let sub := fsub a b in
    let^ r := liftc (idx (reverse_roots s) ((i * 2) * stride)) in
    let^ _ := wr_at off len (half + i) (fmul sub r) in
    wr_at off len i add).

(** das.rs:73-80 *)
Definition mcl_das_join_par (s : fft_settings K) (off len half stride : nat) : proc K unit :=
  forc 0 half (fun i =>
    let^ root := liftc (idx (expanded_roots s) ((i * 2 + 1) * stride)) in
    let^ y := rd_at off len (half + i) in
    let y_times_root := fmul y root in
    let^ x := rd_at off len i in
    let add := fadd x y_times_root in
    let sub := fsub x y_times_root in
    let^ _ := wr_at off len i add in
    wr_at off len (i + half) sub).

(** das.rs:30-81 [_das_fft_extension]: the upper half is the first closure *)
Fixpoint mcl_das_rec_par (fuel : nat) (s : fft_settings K) (off len stride : nat) : proc K unit :=
  match fuel with
  | O => Crash
  | S fuel' =>
    if len <? 2 then Ret tt
    else if len =? 2 then
      let^ v0 := rd_at off len 0 in
      let^ v1 := rd_at off len 1 in
      let x := fadd v0 v1 in
      let y := fsub v0 v1 in
      let^ r := liftc (idx (expanded_roots s) stride) in
      let temp := fmul y r in
      let^ _ := wr_at off len 0 (fadd x temp) in
      wr_at off len 1 (fsub x temp)
    else
      let half := len / 2 in
      let^ _ := mcl_das_split_par s off len half stride in
      let lo := mcl_das_rec_par fuel' s off half (stride * 2) in
      let hi := mcl_das_rec_par fuel' s (off + half) (len - half) (stride * 2) in
      let^ _ := (if 32 <? len then join hi lo else let^ _ := lo in hi) in
      mcl_das_join_par s off len half stride
  end.

(** das.rs:6-27 [das_fft_extension] *)
Definition mcl_das_par {V} (s : fft_settings K) (values : list K) : proc V (res (list K)) :=
  if length values =? 0 then Ret Err else
  let! p := lift (mcl_is_power_of_2 (N.of_nat (length values))) in
  if negb p then Ret Err
  else if max_width s <? length values * 2 then Ret Err
  else
    let stride := max_width s / (length values * 2) in
    Own values (mcl_das_rec_par (S (length values)) s 0 (length values) stride)
      (fun values _ =>
        let inv_length := finv (mcl_from_int (as_i32 (N.of_nat (length values)))) in
        Ret (Ok (map (fun item => fmul item inv_length) values))).

(** mcl-kzg/kzg/src/kzg10.rs:443-515 [mul_fft]; [pr5] is the table of roots *)
Definition mcl_mul_fft_par {V} (pr5 : list K) (a b : list K) (ft : option (fft_settings K)) (len : nat)
  : proc V (res (list K)) :=
  let a_len := min_u64 (length a) len in
  let b_len := min_u64 (length b) len in
  let! n := lift (usub (a_len + b_len) 1) in
  let! lengthN := lift (mcl_next_pow_of_2 (N.of_nat n)) in
  let length_ := N.to_nat lengthN in
  let! temp_fft := lift (mcl_fresh pr5 (mcl_log_2 lengthN)) in
  let ft := match ft with Some x => x | None => temp_fft end in
  if max_width ft <? length_ then Ret Err else
  let a_pad := mcl_pad a a_len length_ in
  let b_pad := mcl_pad b b_len length_ in
  let rest (a_fft b_fft : list K) : proc V (res (list K)) :=
    let! ab_fft := lift (for_range 0 length_ (fun i ab =>
        let* x := idx ab i in
        let* y := idx b_fft i in
        upd ab i (fmul x y)) a_fft) in
    let^ ab := unwrapc (mcl_fft_par ft ab_fft true) in
    Ret (Ok (if length_ <? len then ab ++ repeat f0 (len - length_) else firstn len ab)) in
  if 1024 <? length_ then
    Fork (unwrapc (mcl_fft_par ft a_pad false)) (unwrapc (mcl_fft_par ft b_pad false)) rest
  else
    let^ a_fft := unwrapc (mcl_fft_par ft a_pad false) in
    let^ b_fft := unwrapc (mcl_fft_par ft b_pad false) in
    rest a_fft b_fft.

(** mcl-kzg/kzg/src/zero_poly.rs:56-92 [reduce_partials] *)
Definition mcl_reduce_partials_par {V} (s : fft_settings K) (len_out : nat) (partials : list (list K))
  : proc V (res (list K)) :=
  let! p2 := lift (mcl_is_pow len_out) in
  if negb p2 then Ret Err else
  let! out_degree := lift (for_range 0 (length partials) (fun i d =>
      let* p := idx partials i in
      let* l := usub (length p) 1 in
      Ok (d + l)) 0) in
  if len_out <? out_degree + 1 then Ret Err else
  let! last := lift (usub (length partials) 1) in
  let! p := lift (idx partials last) in
  let! padded := lift (unwrap (mcl_pad_poly len_out p)) in
  let^ eval_result := unwrapc (mcl_fft_par s padded false) in
  let! n1 := lift (usub (length partials) 1) in
  let! eval_result := forr 0 n1 (fun i ev =>
      let! p := lift (idx partials i) in
      let! padded := lift (unwrap (mcl_pad_poly len_out p)) in
      let^ e := unwrapc (mcl_fft_par s padded false) in
      lift (for_range 0 len_out (fun j ev =>
        let* x := idx ev j in
        let* y := idx e j in
        upd ev j (fmul x y)) ev)) eval_result in
  let^ coeffs := unwrapc (mcl_fft_par s eval_result true) in
  lift (slice coeffs 0 (out_degree + 1)).

(** zero_poly.rs:171-201 *)
Definition mcl_zp_group_par {V} (s : fft_settings K) (length_ ceiling count size i : nat)
  (st : list K * list nat * list nat) : proc V (res (list K * list nat * list nat)) :=
  let '(work, lens, offsets) := st in
  let start := i * 4 in
  let out_end := Nat.min ((start + 4) * size) ceiling in
  let! d := lift (usub out_end (start * size)) in
  let reduced_len := Nat.min d length_ in
  let! rest := lift (usub count start) in
  let num := Nat.min 4 rest in
  let! offsets := lift (upd offsets i (start * size)) in
  let! ov := lift (mcl_zp_views work lens size i start num offsets) in
  let (offsets, pv) := ov in
  if 1 <? num then
    let^ red := unwrapc (mcl_reduce_partials_par s reduced_len pv) in
    lift (let* lens := upd lens i (length red) in
          let* red := unwrap (mcl_pad_poly (size * num) red) in
          let* o := idx offsets i in
          let* work := splice work o (o + length red) red in
          Ok (work, lens, offsets))
  else
    lift (let* l := idx lens start in
          let* lens := upd lens i l in
          Ok (work, lens, offsets)).

(** zero_poly.rs:167-204 *)
Definition mcl_zp_level_par {V} (s : fft_settings K) (length_ ceiling : nat)
  (st : nat * (list K * list nat * list nat)) : proc V (res (nat * (list K * list nat * list nat))) :=
  let (count, wlo) := st in
  let reduced_count := 1 + (count - 1) / 4 in
  let '(_, lens, _) := wlo in
  let! l0 := lift (idx lens 0) in
  let! size := lift (mcl_next_pow l0) in
  let! wlo := forr 0 reduced_count (mcl_zp_group_par s length_ ceiling count size) wlo in
  Ret (Ok (reduced_count, wlo)).

(** zero_poly.rs:131-206 *)
Definition mcl_zp_tree_par {V} (s : fft_settings K) (length_ ceiling count stride : nat) (missing : list nat)
  : proc V (res (list K)) :=
  let! wlen := lift (mcl_next_pow (count * 64)) in
  let! wlo := lift (mcl_zp_partials s missing stride count (repeat f0 wlen)) in
  let '(work, lens, offsets) := wlo in
  let! l := lift (usub (1 + length missing) ((count - 1) * 63)) in
  let! c1 := lift (usub count 1) in
  let! lens := lift (upd lens c1 l) in
  let! st := whiler (S count) (fun st => 1 <? fst st) (mcl_zp_level_par s length_ ceiling) (count, (work, lens, offsets)) in
  let '(_, (work, _, _)) := st in
  Ret (Ok work).

(** zero_poly.rs:97-213 [zero_poly_via_multiplication] *)
Definition mcl_zero_poly_par {V} (s : fft_settings K) (length_ : nat) (missing : list nat)
  : proc V (res (list K * list K)) :=
  if length missing =? 0 then Ret (Ok (repeat f0 length_, repeat f0 length_))
  else if length_ <=? length missing then Ret Err
  else if max_width s <? length_ then Ret Err
  else
    let! p2 := lift (mcl_is_pow length_) in
    if negb p2 then Ret Err else
    let stride := max_width s / length_ in
    let count := 1 + (length missing - 1) / 63 in
    let! np := lift (mcl_next_pow (count * 64)) in
    let ceiling := Nat.min np length_ in
    let! zero_poly :=
      if length missing <=? 63 then lift (unwrap (mcl_do_zero s missing stride))
      else mcl_zp_tree_par s length_ ceiling count stride missing in
    let zero_poly := mcl_pad zero_poly (length zero_poly) length_ in
    let^ zero_eval := unwrapc (mcl_fft_par s zero_poly false) in
    Ret (Ok (zero_eval, zero_poly)).

(** mcl-kzg/kzg/src/data_recovery.rs:80-171 [recover_from_samples] with the joins of 112-122
    and 137-152.  The two closures of the first join own their polynomials; the table behind
    the [OnceCell] is the same value whichever of them initialises it. *)
Definition mcl_recover_conc {V} (tl : nat) (s : fft_settings K) (samples : list (option K)) : proc V (res (list K)) :=
  let! p2 := lift (mcl_is_pow (length samples)) in
  if negb p2 then Ret Err else
  let missing := missing_positions (fun o => match o with None => true | Some _ => false end) samples in
  let^ z := unwrapc (mcl_zero_poly_par s (length samples) missing) in
  let (zero_eval, zero_poly) := z in
  let evals := map (fun p : option K * K => match fst p with None => f0 | Some v => fmul v (snd p) end)
                   (combine samples zero_eval) in
  let^ poly_with_zero := unwrapc (mcl_fft_par s evals true) in
  let! l := lift (usub (length poly_with_zero) 1) in
  let! optim := lift (mcl_next_pow l) in
  let rest (e1 e2 : list K) : proc V (res (list K)) :=
    let reconstructed := map (fun p : K * K => mcl_div_fr (fst p) (snd p)) (combine e1 e2) in
    let^ shifted := unwrapc (mcl_fft_par s reconstructed true) in
    let! poly := lift (mcl_unshift_in_place_par tl shifted) in
    let^ data := unwrapc (mcl_fft_par s poly false) in
    Ret (Ok data) in
  let transforms (p z : list K) : proc V (res (list K)) :=
    if 1024 <? optim then
      Fork (unwrapc (mcl_fft_par s p false)) (unwrapc (mcl_fft_par s z false)) rest
    else
      let^ e1 := unwrapc (mcl_fft_par s p false) in
      let^ e2 := unwrapc (mcl_fft_par s z false) in
      rest e1 e2 in
  if 1024 <? optim then
    Fork (liftc (mcl_shift_in_place_par tl poly_with_zero)) (liftc (mcl_shift_in_place_par tl zero_poly)) transforms
  else
    let^ p := liftc (mcl_shift_in_place_par tl poly_with_zero) in
    let^ z := liftc (mcl_shift_in_place_par tl zero_poly) in
    transforms p z.
End Model.
