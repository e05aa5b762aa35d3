(** * Model_CkzgCalls: the functions of the ckzg crate around its calls into C, and mcl's [make_data]

    The buffers that a method makes, the sizes it states and the buffers it returns.  What the C
    function computes is a parameter: [kzg_ret * list A] is its return value with the entries it
    writes at the beginning of the output buffer.  A read or write outside a buffer is a [Fault]. *)
From Coq Require Import List Arith Bool ZArith NArith.
From Verif Require Import Base Model_Utils Model_Mcl Model_Scalar Model_ZkConv Model_Points Model_Ckzg.
Import ListNotations.

(** ** test data: multiples of the generator *)
(** ckzg/src/fftsettings.rs:205-216 [make_data]; [g] is what [blst_p1_generator] points to.
    [add_or_dbl] takes its receiver mutably and returns the sum, which the loop discards *)
Definition ckzg_make_data (L : point_lib blst_p1) (g : blst_p1) (n : nat) : res (list blst_p1) :=
  let out_val := repeat g n in
  if n =? 0 then Ok [] else
  for_range 1 n (fun i out_val =>
    let* x := idx out_val i in
    let* y := idx out_val (i - 1) in
    let '(_, x) := ckzg_g1_add_or_dbl L x y in
    upd out_val i x) out_val.
(** mcl-kzg/kzg/src/fk20_fft.rs:93-104 [make_data] *)
Definition mcl_make_data (L : point_lib blst_p1) (n : nat) : res (list blst_p1) :=
  if n =? 0 then Ok [] else
  for_range 1 n (fun _ data =>
    match rev data with
    | [] => Panic
    | last :: _ => Ok (data ++ [pl_add L last mcl_g1_generator])
    end) [mcl_g1_generator].

(** ** the trusted setup *)
(** scalars: [fr_from_uint64], [blst_fr_mul] and [fr_from_scalar] of the library *)
Record fr_lib := FrLib { fl_from_u64 : Z -> scalar; fl_mul : scalar -> scalar -> scalar; fl_from_scalar : list Z -> scalar }.
(** ckzg/src/kzgsettings.rs:123-145 [generate_trusted_setup]; [g1], [g2] are the library's generators *)
Definition ckzg_trusted_setup (L1 : point_lib blst_p1) (L2 : point_lib blst_p2) (F : fr_lib) (g1 : blst_p1) (g2 : blst_p2)
  (len : nat) (secret : list Z) : res (list blst_p1 * list blst_p2) :=
  let s := fl_from_scalar F secret in
  let* st := for_range 0 len (fun _ st =>
    let '(s_pow, s1, s2) := st in
    let g1_mul := ckzg_mul L1 g1 s_pow in
    let g2_mul := ckzg_mul L2 g2 s_pow in
    Ok (fl_mul F s_pow s, s1 ++ [g1_mul], s2 ++ [g2_mul])) (fl_from_u64 F 1%Z, [], []) in
  let '(_, s1, s2) := st in Ok (s1, s2).

(** ** sizes of a product by transforms *)
(** [a + b - 1] on words: overflow panics in a checked build, and wraps in others *)
Definition minus_one (checked : bool) (n : N) : res N :=
  if (n =? 0)%N then (if checked then Panic else Ok (2 ^ 64 - 1)%N) else Ok (n - 1)%N.
(** ckzg/src/utils.rs:12-14 [is_power_of_2], reached with n > 0 only; :5-10 [log_2] and :16-24 [next_pow_of_2]
    have the statements of mcl's, [1 << 64] is [1 << 0] when not checked *)
Definition ckzg_next_pow_of_2 (checked : bool) (x : N) : res N :=
  if (x =? 0)%N then Ok 1%N else
  if (N.land x (x - 1) =? 0)%N then Ok x else
  if (64 <=? mcl_log_2 x + 1)%N then (if checked then Panic else Ok 1%N) else Ok (N.shiftl 1 (mcl_log_2 x + 1)).
(** ckzg/src/fftsettings.rs:133-151 [poly_mul_fft]: the scale of the settings it makes, and the size of its result *)
Definition ckzg_poly_mul_scale (checked : bool) (a b len : N) : res (N * N) :=
  let a_len := N.min a len in
  let b_len := N.min b len in
  let* m := minus_one checked (a_len + b_len) in
  let* length := ckzg_next_pow_of_2 checked m in
  Ok (mcl_log_2 length, len).

(** ** buffers *)
Section Buffers.
Context {A : Type}.
(** the library writes [w] at the beginning of the buffer *)
Definition c_write (buf w : list A) : out (list A) :=
  if length w <=? length buf then Done (w ++ skipn (length w) buf) else Fault BadAccess.
(** the library reads [n] entries *)
Definition c_read (buf : list A) (n : nat) : out (list A) :=
  if n <=? length buf then Done (firstn n buf) else Fault BadAccess.
(** a result in a fresh buffer of [n] default entries; [None] is an [Err] *)
Definition fresh_result (d : A) (n : nat) (r : kzg_ret * list A) : out (option (list A)) :=
  do buf <- c_write (repeat d n) (snd r); Done (match fst r with KzgOk => Some buf | _ => None end).
(** fftsettings.rs:95-130 [fft_fr], [fft_g1] with [_fft_fr], [_fft_g1] *)
Definition ckzg_fft (C : list A -> bool -> kzg_ret * list A) (d : A) (data : list A) (inverse : bool) : out (option (list A)) :=
  do input <- c_read data (length data); fresh_result d (length data) (C input inverse).
(** fftsettings.rs:193-203 [das_fft_extension]: on a copy of the argument, in place *)
Definition ckzg_das (C : list A -> kzg_ret * list A) (evens : list A) : out (option (list A)) :=
  let values := evens in
  do input <- c_read values (length values);
  do values <- c_write values (snd (C input)); Done (match fst (C input) with KzgOk => Some values | _ => None end).
(** fk20settings.rs:59-77, 110-128: both methods of both types, on a polynomial with [len] coefficients *)
Definition ckzg_data_availability (r : kzg_ret * list A) (d : A) (len : nat) : out (option (list A)) := fresh_result d (2 * len) r.
(** kzgsettings.rs:96-104 [check_proof_multi]: the library reads [n] values *)
Definition ckzg_check_proof_multi (C : list A -> kzg_ret * bool) (values : list A) (n : nat) : out (option bool) :=
  do v <- c_read values n; Done (match C v with (KzgOk, b) => Some b | _ => None end).
(** fftsettings.rs:243-269 [bound_fft_g1_fast], [bound_fft_g1_slow]: [n] entries, of the data one in [stride];
    the roots that are read are not counted *)
Definition ckzg_bound_fft_g1 (C : list A -> list A) (ret data : list A) (stride n : nat) : out (list A) :=
  do d <- c_read data ((n - 1) * stride + 1); c_write ret (C d).
(** fftsettings.rs:216-241 [bound_fft_fr_fast], [bound_fft_fr_slow]: always 4096 entries *)
Definition ckzg_bound_fft_fr (C : list A -> list A) (ret data : list A) (stride : nat) : out (list A) :=
  ckzg_bound_fft_g1 C ret data stride 4096.
(** poly.rs:142-168 [recover_poly_from_samples]: missing samples become [null]; the result is copied into a polynomial *)
Definition ckzg_recover (C : list A -> kzg_ret * list A) (null d : A) (samples : list (option A)) : out (option (list A)) :=
  let optionless := map (fun s => match s with Some v => v | None => null end) samples in
  do input <- c_read optionless (length samples); fresh_result d (length samples) (C input).
End Buffers.
