(** * Model_Mcl: model of the mcl backend: settings, transforms, extension

    Crate [mcl-kzg/kzg]: [src/fk20_fft.rs], [src/das.rs], [src/utilities.rs] and
    their trait wrappers.  The settings record of [Model_FFT] is reused (same four
    fields: [max_width], [root_of_unity], [exp_roots_of_unity],
    [exp_roots_of_unity_rev]).  Field and group operations of the mcl library are
    the operations of [K] and [M].  Sequential build; the [parallel] build is in
    [Model_ParBackends]. *)
From Coq Require Import List Arith Bool NArith ZArith.
From Verif Require Import Base Fld Model_Utils Model_FFT.
Import ListNotations.

(** utilities.rs:25-30 [log_2] *)
Definition mcl_log_2 (x : N) : N :=
  (if x =? 0 then 0 else 64 - leading_zeros x - 1)%N.

(** utilities.rs:32-40 [next_pow_of_2]; the shift panics when it reaches 64 *)
Definition mcl_next_pow_of_2 (x : N) : res N :=
  if (x =? 0)%N then Ok 1%N else
  let* p := mcl_is_power_of_2 x in
  if p then Ok x else
  if (64 <=? mcl_log_2 x + 1)%N then Panic else Ok (N.shiftl 1 (mcl_log_2 x + 1)).

(** utilities.rs:42-45 [reverse_bits_limited] *)
Definition mcl_reverse_bits_limited (length value : N) : res N :=
  shr (reverse_bits value) (leading_zeros length).

(** [n as i32] *)
Definition as_i32 (n : N) : Z :=
  let m := Z.of_N (n mod 2 ^ 32) in
  if (m <? 2 ^ 31)%Z then m else (m - 2 ^ 32)%Z.

(** [x as u8] on a [usize] *)
Definition as_u8 (n : N) : nat := N.to_nat (n mod 256).

Section Model.
Context {K : fld}.

(** data_types/fr.rs [Fr::from_int] = [mclBnFr_setInt32] *)
Definition mcl_from_int (z : Z) : K :=
  if (z <? 0)%Z then fneg (fnat (Z.to_nat (- z))) else fnat (Z.to_nat z).

(** data_types/fr.rs:55-62 and trait_implementations/fr.rs:69-76 [pow] *)
Definition mcl_fr_pow (x : K) (n : nat) : res K :=
  for_range 1 n (fun _ res => Ok (fmul res x)) x.

(** ** Settings and the global table *)

(** fk20_fft.rs:87-89: the three mutable statics *)
Record globals := mkG {
  g_table : list K;
  g_init : bool;
  g_default : bool
}.

(** initial values of the statics *)
Definition globals0 : globals := mkG [] false false.

(** fk20_fft.rs:109-119 [init_globals]; [pr5] is the parsed PR5 table *)
Definition init_globals (pr5 : list K) (g : globals) : globals :=
  if g_init g && g_default g then g else mkG pr5 true true.

(** [iter().map(|x| from_str(x).unwrap()).collect()]: a string is represented by its
    parse result *)
Fixpoint parse_all (strings : list (option K)) : res (list K) :=
  match strings with
  | [] => Ok []
  | None :: _ => Panic
  | Some x :: t => let* l := parse_all t in Ok (x :: l)
  end.

(** fk20_fft.rs:133-142 [expand_root_of_unity]: the loop has no bound of its own, so
    the number of iterations allowed is a parameter *)
Definition mcl_expand (fuel : nat) (root : K) : res (list K) :=
  let* s := while_ fuel
    (fun s : list K * nat => match nth_error (fst s) (snd s) with
                             | Some x => negb (feqb x f1) | None => true end)
    (fun s => let* x := idx (fst s) (snd s) in
              Ok (fst s ++ [fmul x root], S (snd s)))
    ([f1; root], 1) in
  Ok (fst s).

(** common tail of fk20_fft.rs:166-175 and 191-200 *)
Definition mcl_build (fuel : nat) (max_scale : nat) (root : K) : res (fft_settings K) :=
  let* root_z := mcl_expand fuel root in
  let root_z_rev := rev root_z in
  Ok (mkFS (2 ^ max_scale) root root_z root_z_rev).

(** fk20_fft.rs:160-176 [FFTSettings::new] together with its effect on the statics *)
Definition mcl_new (fuel : nat) (pr5 : list K) (max_scale : nat) (g : globals)
  : res (fft_settings K) * globals :=
  let g := init_globals pr5 g in
  (let* root := idx (g_table g) max_scale in mcl_build fuel max_scale root, g).

(** fk20_fft.rs:124-131, 181-201 [init_globals_custom], [new_custom_primitive_roots].
    A string that does not parse panics before any static is written. *)
Definition mcl_new_custom (fuel : nat) (strings : list (option K)) (max_scale : nat) (g : globals)
  : res (fft_settings K) * globals :=
  match parse_all strings with
  | Ok table =>
    let g := mkG table true false in
    (if length (g_table g) <=? max_scale then Err else
     let* root := idx (g_table g) max_scale in mcl_build fuel max_scale root, g)
  | _ => (Panic, g)
  end.

(** trait_implementations/fft_settings.rs:10-13 [FFTSettings::new(scale: usize)]:
    always the PR7 strings, and the scale is cut down to eight bits *)
Definition mcl_trait_new (fuel : nat) (pr7 : list K) (scale : N) (g : globals) :=
  mcl_new_custom fuel (map Some pr7) (as_u8 scale) g.

(** a history of constructor calls; a call that fails or panics is part of it *)
Inductive call :=
| CNew (scale : nat)
| CCustom (strings : list (option K)) (scale : nat).

Definition run_call fuel pr5 (c : call) (g : globals) : res (fft_settings K) * globals :=
  match c with
  | CNew k => mcl_new fuel pr5 k g
  | CCustom strings k => mcl_new_custom fuel strings k g
  end.

Fixpoint run_calls fuel pr5 (h : list call) (g : globals) : globals :=
  match h with [] => g | c :: h' => run_calls fuel pr5 h' (snd (run_call fuel pr5 c g)) end.

(** ** Transforms over the field *)

(** fk20_fft.rs:242-256 [_simple_ftt] *)
Definition mcl_simple_fft (values : list K) (offset stride : nat) (roots : list K) (root_stride : nat)
           (out : list K) : res (list K) :=
  let out_len := length out in
  let* v0 := idx values offset in
  let* r0 := idx roots 0 in
  let init_last := fmul v0 r0 in
  for_range 0 out_len (fun i out =>
    let* last := for_range 1 out_len (fun j last =>
      let* jv := idx values (offset + j * stride) in
      let* r := idx roots (((i * j) mod out_len) * root_stride) in
      Ok (fadd last (fmul jv r))) init_last in
    upd out i last) out.

(** fk20_fft.rs:234-239: the last loop of [_fft] *)
Definition mcl_butterfly (roots : list K) (root_stride half : nat) (out : list K) : res (list K) :=
  for_range 0 half (fun i out =>
    let* root := idx roots (i * root_stride) in
    let* y := idx out (i + half) in
    let y_times_root := fmul y root in
    let* x := idx out i in
    let* out := upd out (i + half) (fsub x y_times_root) in
    let* x := idx out i in
    upd out i (fadd x y_times_root)) out.

(** fk20_fft.rs:204-240 [_fft] *)
Fixpoint mcl_fft_ (fuel : nat) (values : list K) (offset stride : nat) (roots : list K) (root_stride : nat)
         (out : list K) : res (list K) :=
  match fuel with
  | O => NoFuel
  | S fuel' =>
    if length out <=? 4 then mcl_simple_fft values offset stride roots root_stride out else
    let half := length out / 2 in
    let* lo := mcl_fft_ fuel' values offset (stride * 2) roots (root_stride * 2) (firstn half out) in
    let* hi := mcl_fft_ fuel' values (offset + stride) (stride * 2) roots (root_stride * 2) (skipn half out) in
    mcl_butterfly roots root_stride half (lo ++ hi)
  end.

(** fk20_fft.rs:258-280 [inplace_fft]; the division by [values.len()] panics at 0 *)
Definition mcl_inplace_fft (s : fft_settings K) (values : list K) (inv : bool) : res (list K) :=
  let root_z := firstn (max_width s) (if inv then reverse_roots s else expanded_roots s) in
  if length values =? 0 then Panic else
  let stride := max_width s / length values in
  let out := repeat f0 (length values) in
  let* out := mcl_fft_ (S (length out)) values 0 1 root_z stride out in
  if inv then
    let inv_len := finv (mcl_from_int (as_i32 (N.of_nat (length values)))) in
    Ok (map (fun item => fmul item inv_len) out)
  else Ok out.

(** fk20_fft.rs:282-295 [fft], also trait_implementations/fft_fr.rs [fft_fr] *)
Definition mcl_fft (s : fft_settings K) (values : list K) (inv : bool) : res (list K) :=
  if max_width s <? length values then Err else
  let* n := mcl_next_pow_of_2 (N.of_nat (length values)) in
  let* diff := usub (N.to_nat n) (length values) in
  mcl_inplace_fft s (values ++ repeat f0 diff) inv.

(** fk20_fft.rs:297-303 [fft_fr_slow], [fft_fr_fast] *)
Definition mcl_fft_fr_slow (result values : list K) stride roots root_stride :=
  mcl_simple_fft values 0 stride roots root_stride result.
Definition mcl_fft_fr_fast (result values : list K) stride roots root_stride :=
  mcl_fft_ (S (length result)) values 0 stride roots root_stride result.

(** ** Transforms over the group *)
Section G1.
Context {M : gmod K}.

(** fk20_fft.rs:393-406 [_fft_g1_simple] *)
Definition mcl_simple_fft_g1 (values : list M) (offset stride : nat) (roots : list K) (root_stride : nat)
           (out : list M) : res (list M) :=
  let l := length out in
  for_range 0 l (fun i out =>
    let* v0 := idx values offset in
    let* r0 := idx roots 0 in
    let v := smul r0 v0 in
    let* last := for_range 1 l (fun j last =>
      let* jv := idx values (offset + j * stride) in
      let* r := idx roots (((i * j) mod l) * root_stride) in
      let v := smul r jv in
      let temp := last in
      Ok (gadd temp v)) v in
    upd out i last) out.

(** fk20_fft.rs:382-390: the last loop of [_fft_g1] *)
Definition mcl_butterfly_g1 (roots : list K) (root_stride half : nat) (out : list M) : res (list M) :=
  for_range 0 half (fun i out =>
    let* x := idx out i in
    let* y := idx out (i + half) in
    let* root := idx roots (i * root_stride) in
    let y_times_root := smul root y in
    let* out := upd out i (gadd x y_times_root) in
    upd out (i + half) (gsub x y_times_root)) out.

(** fk20_fft.rs:357-391 [_fft_g1] *)
Fixpoint mcl_fft_g1_ (fuel : nat) (values : list M) (offset stride : nat) (roots : list K) (root_stride : nat)
         (out : list M) : res (list M) :=
  match fuel with
  | O => NoFuel
  | S fuel' =>
    if length out <=? 4 then mcl_simple_fft_g1 values offset stride roots root_stride out else
    let half := length out / 2 in
    let* lo := mcl_fft_g1_ fuel' values offset (stride * 2) roots (root_stride * 2) (firstn half out) in
    let* hi := mcl_fft_g1_ fuel' values (offset + stride) (stride * 2) roots (root_stride * 2) (skipn half out) in
    mcl_butterfly_g1 roots root_stride half (lo ++ hi)
  end.

(** fk20_fft.rs:305-325 [fft_g1] and 328-354 [fft_g1_inv], selected by the flag as in
    trait_implementations/fft_g1.rs:6-12 *)
Definition mcl_fft_g1 (s : fft_settings K) (values : list M) (inverse : bool) : res (list M) :=
  if max_width s <? length values then Err else
  let* p := mcl_is_power_of_2 (N.of_nat (length values)) in
  if negb p then Err else
  let root_z := firstn (max_width s) (if inverse then reverse_roots s else expanded_roots s) in
  if length values =? 0 then Panic else
  let stride := max_width s / length values in
  let out := repeat g0 (length values) in
  let* out := mcl_fft_g1_ (S (length out)) values 0 1 root_z stride out in
  if inverse then
    let inv_len := finv (mcl_from_int (as_i32 (N.of_nat (length values)))) in
    Ok (map (fun item => smul inv_len item) out)
  else Ok out.
End G1.

(** ** Data-availability extension *)

(** das.rs:45-49 *)
Definition mcl_das_split (s : fft_settings K) (half stride : nat) (values : list K) : res (list K) :=
  for_range 0 half (fun i values =>
    let* a := idx values i in
    let* b := idx values (half + i) in
    let add := fadd a b in
    let sub := fsub a b in
    let* r := idx (reverse_roots s) ((i * 2) * stride) in
    let* values := upd values (half + i) (fmul sub r) in
    upd values i add) values.

(** das.rs:73-80 *)
Definition mcl_das_join (s : fft_settings K) (half stride : nat) (values : list K) : res (list K) :=
  for_range 0 half (fun i values =>
    let* root := idx (expanded_roots s) ((i * 2 + 1) * stride) in
    let* y := idx values (half + i) in
    let y_times_root := fmul y root in
    let* x := idx values i in
    let add := fadd x y_times_root in
    let sub := fsub x y_times_root in
    let* values := upd values i add in
    upd values (i + half) sub) values.

(** das.rs:30-81 [_das_fft_extension], sequential build *)
Fixpoint mcl_das_ (fuel : nat) (s : fft_settings K) (values : list K) (stride : nat) : res (list K) :=
  match fuel with
  | O => NoFuel
  | S fuel' =>
    if length values <? 2 then Ok values
    else if length values =? 2 then
      let* v0 := idx values 0 in
      let* v1 := idx values 1 in
      let x := fadd v0 v1 in
      let y := fsub v0 v1 in
      let* r := idx (expanded_roots s) stride in
      let temp := fmul y r in
      let* values := upd values 0 (fadd x temp) in
      upd values 1 (fsub x temp)
    else
      let half := length values / 2 in
      let* values := mcl_das_split s half stride values in
      let* lo := mcl_das_ fuel' s (firstn half values) (stride * 2) in
      let* hi := mcl_das_ fuel' s (skipn half values) (stride * 2) in
      mcl_das_join s half stride (lo ++ hi)
  end.

(** das.rs:6-27 [FFTSettings::das_fft_extension] *)
Definition mcl_das_fft_extension (s : fft_settings K) (values : list K) : res (list K) :=
  if length values =? 0 then Err else
  let* p := mcl_is_power_of_2 (N.of_nat (length values)) in
  if negb p then Err
  else if max_width s <? length values * 2 then Err
  else
    let stride := max_width s / (length values * 2) in
    let* values := mcl_das_ (S (length values)) s values stride in
    let inv_length := finv (mcl_from_int (as_i32 (N.of_nat (length values)))) in
    Ok (map (fun item => fmul item inv_length) values).

(** trait_implementations/das.rs:6-10: the trait method unwraps *)
Definition mcl_trait_das (s : fft_settings K) (evens : list K) : res (list K) :=
  unwrap (mcl_das_fft_extension s evens).

(** ** The constructors as concurrent threads

    [static mut] accesses are individual steps; statements between them are local.
    [NCheck] is the test of fk20_fft.rs:110, [NTable]/[NInit]/[NDefault] the three
    assignments of 113-118, [NRead] the read of line 164; [KTable]/[KInit]/[KDefault]
    the assignments of 125-130 and [KRead] the reads of 185 and 188 (the length of the
    table is 32 whenever it is assigned, so the two reads are one step).  The value
    produced is the root handed to [expand_root_of_unity].  Real hardware may do worse
    (unsynchronised accesses are undefined behaviour); this is the interleaving
    semantics. *)
Inductive thread :=
| NCheck (scale : nat) | NTable (scale : nat) | NInit (scale : nat) | NDefault (scale : nat) | NRead (scale : nat)
| KTable (table : list K) (scale : nat) | KInit (scale : nat) | KDefault (scale : nat) | KRead (scale : nat)
| Finished (root : res K).

Definition thread_step (pr5 : list K) (t : thread) (g : globals) : thread * globals :=
  match t with
  | NCheck k => (if g_init g && g_default g then NRead k else NTable k, g)
  | NTable k => (NInit k, mkG pr5 (g_init g) (g_default g))
  | NInit k => (NDefault k, mkG (g_table g) true (g_default g))
  | NDefault k => (NRead k, mkG (g_table g) (g_init g) true)
  | NRead k => (Finished (idx (g_table g) k), g)
  | KTable table k => (KInit k, mkG table (g_init g) (g_default g))
  | KInit k => (KDefault k, mkG (g_table g) true (g_default g))
  | KDefault k => (KRead k, mkG (g_table g) (g_init g) false)
  | KRead k => (Finished (if length (g_table g) <=? k then Err else idx (g_table g) k), g)
  | Finished r => (Finished r, g)
  end.

(** run the threads in the order given by the schedule (a list of thread numbers) *)
Fixpoint run_threads (pr5 : list K) (schedule : list nat) (ts : list thread) (g : globals)
  : list thread * globals :=
  match schedule with
  | [] => (ts, g)
  | i :: schedule' =>
    match nth_error ts i with
    | Some t => let (t', g') := thread_step pr5 t g in run_threads pr5 schedule' (set ts i t') g'
    | None => run_threads pr5 schedule' ts g
    end
  end.

(** a call of [FFTSettings::new(scale)] / [new_custom_primitive_roots(scale, table)] *)
Definition new_thread (scale : nat) : thread := NCheck scale.
Definition custom_thread (table : list K) (scale : nat) : thread := KTable table scale.

End Model.
Arguments globals : clear implicits.
Arguments thread : clear implicits.
Arguments call : clear implicits.
