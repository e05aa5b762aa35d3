(** * Properties_Mcl: the mcl backend (C46, C50-C56) *)
From Coq Require Import List Arith Bool NArith ZArith Lia.
From Verif Require Import Base Fld Poly Model_FFT Spec Tables Zr ZrTables Proof_FFTFr
  Model_Mcl Spec_Mcl Proof_Mcl Proof_MclFr.
Import ListNotations.

(** ** C46: constructors and the shared table *)
Theorem C46_new_after_any_history : forall fuel (h : list (call Fr)) k,
  (k < 32 -> 2 ^ k <= fuel ->
   fst (run_call fuel mcl_pr5_table (CNew k) (run_calls fuel mcl_pr5_table h globals0)) = fft_settings_new mcl_pr5_table k) /\
  (32 <= k -> fst (run_call fuel mcl_pr5_table (CNew k) (run_calls fuel mcl_pr5_table h globals0)) = Panic).
Proof. exact mcl_new_history. Qed.
Print Assumptions C46_new_after_any_history.

Theorem C46_custom_after_any_history : forall fuel (h : list (call Fr)) (table : list Fr) k,
  table_ok table -> (k < length table -> 2 ^ k <= fuel) ->
  fst (run_call fuel mcl_pr5_table (CCustom (map Some table) k) (run_calls fuel mcl_pr5_table h globals0)) =
  fft_settings_new table k.
Proof. exact mcl_custom_history. Qed.
Print Assumptions C46_custom_after_any_history.

(** a history with a call that fails, one that panics and one that replaces the table *)
Example C46_history_ex : forall fuel, 2 ^ 2 <= fuel ->
  fst (run_call fuel mcl_pr5_table (CNew 2) (run_calls fuel mcl_pr5_table
    [CNew 40; CCustom [None] 1; CCustom (map Some mcl_pr7_table) 33; CCustom (map Some mcl_pr7_table) 3] globals0)) =
  fft_settings_new mcl_pr5_table 2.
Proof. exact (fun fuel H => proj1 (mcl_new_history fuel _ 2) ltac:(lia) H). Qed.

Theorem C46_concurrent_new : forall (pr5 : list Fr) scales sched ts g,
  run_threads pr5 sched (map new_thread scales) globals0 = (ts, g) ->
  forall i k, nth_error scales i = Some k ->
    (forall r, nth_error ts i = Some (Finished r) -> r = idx pr5 k) /\
    (5 <= count_occ Nat.eq_dec sched i -> nth_error ts i = Some (Finished (idx pr5 k))).
Proof. exact threads_new. Qed.
Print Assumptions C46_concurrent_new.

Theorem C46_concurrent_custom : forall (pr5 table : list Fr) scales sched ts g0 g,
  run_threads pr5 sched (map (custom_thread table) scales) g0 = (ts, g) ->
  forall i k, nth_error scales i = Some k ->
    (forall r, nth_error ts i = Some (Finished r) -> r = if length table <=? k then Err else idx table k) /\
    (4 <= count_occ Nat.eq_dec sched i ->
       nth_error ts i = Some (Finished (if length table <=? k then Err else idx table k))).
Proof. exact threads_custom. Qed.
Print Assumptions C46_concurrent_custom.

(** Two threads interleaved in the middle of the initialisation. *)
Example C46_concurrent_ex : forall pr5 : list Fr,
  fst (run_threads pr5 [0; 1; 0; 1; 0; 1; 0; 1; 1; 0] (map new_thread [4; 9]) globals0) =
  [Finished (idx pr5 4); Finished (idx pr5 9)].
Proof. exact (fun pr5 => eq_refl). Qed.

(** With both constructors running at once a caller of [new] can be given the other
    table, and then every later [new] is given it too. *)
Theorem C46_concurrent_refuted :
  exists (k : nat) (table : list Fr) (sched : list nat) root g,
    run_threads mcl_pr5_table sched [new_thread k; custom_thread table k] globals0 = ([Finished (Ok root); Finished (Ok root)], g) /\
    idx mcl_pr5_table k <> Ok root /\
    (forall fuel h, fst (mcl_new fuel mcl_pr5_table k (run_calls fuel mcl_pr5_table (map CNew h) g)) = mcl_build fuel k root).
Proof. exact C46_concurrent_refuted_proof. Qed.
Print Assumptions C46_concurrent_refuted.

(** ** C50: the trait constructor *)
Theorem C50_trait_settings : forall fuel scale g,
  let k := as_u8 scale in
  (k < 32 -> 2 ^ k <= fuel ->
   exists s w, fst (mcl_trait_new fuel mcl_pr7_table scale g) = Ok s /\
     max_width s = 2 ^ k /\ primitive w (2 ^ k) /\ root_of_unity s = w /\
     length (expanded_roots s) = 2 ^ k + 1 /\ length (reverse_roots s) = 2 ^ k + 1 /\
     forall i, i <= 2 ^ k -> nth_error (expanded_roots s) i = Some (fpow w i) /\
       nth_error (reverse_roots s) i = Some (fpow w (2 ^ k - i))) /\
  (32 <= k -> fst (mcl_trait_new fuel mcl_pr7_table scale g) = Err).
Proof. exact C50_proof. Qed.
Print Assumptions C50_trait_settings.

Theorem C50_scale_truncated : forall fuel scale g,
  fst (mcl_trait_new fuel mcl_pr7_table (scale + 256) g) = fst (mcl_trait_new fuel mcl_pr7_table scale g).
Proof. exact C50_trunc_proof. Qed.
Print Assumptions C50_scale_truncated.

(** the other backends reject every scale from 32 on *)
Theorem C50_rejects_large_refuted : forall j, 1 <= j -> exists scale s, (N.of_nat (256 * j) <= scale)%N /\
  fst (mcl_trait_new 8 mcl_pr7_table scale globals0) = Ok s.
Proof. exact C50_large_proof. Qed.
Print Assumptions C50_rejects_large_refuted.

(** scale 259 is accepted and gives the settings of scale 3; scale 200 is rejected *)
Example C50_ex : (exists s, fst (mcl_trait_new 8 mcl_pr7_table 259 globals0) = Ok s /\ max_width s = 8) /\
  fst (mcl_trait_new 8 mcl_pr7_table 200 globals0) = Err.
Proof. exact C50_ex_proof. Qed.

(** ** C51: transforms over the scalar field *)
Theorem C51_fft_evaluates : forall s k w (data : list Fr), mcl_made s k w ->
  (length data <= max_width s ->
   exists m out, m <= k /\ length data <= 2 ^ m /\ (m = 0 \/ 2 ^ (m - 1) < length data) /\
     primitive (fpow w (2 ^ (k - m))) (2 ^ m) /\
     mcl_fft s data false = Ok out /\ length out = 2 ^ m /\
     forall i, i < 2 ^ m -> nth_error out i = Some (peval data (fpow (fpow w (2 ^ (k - m))) i))) /\
  (max_width s < length data -> forall inv, mcl_fft s data inv = Err).
Proof. exact C51_forward_proof. Qed.
Print Assumptions C51_fft_evaluates.

Theorem C51_fft_inverse : forall s k w m (data : list Fr), mcl_made s k w -> m <= k -> m < 31 -> length data = 2 ^ m ->
  (let* f := mcl_fft s data false in mcl_fft s f true) = Ok data /\
  (let* f := mcl_fft s data true in mcl_fft s f false) = Ok data.
Proof. exact C51_inverse_proof. Qed.
Print Assumptions C51_fft_inverse.

(** at the largest size the length does not fit the [i32] it is cast to *)
Theorem C51_fft_inverse_largest_refuted : exists s w n (data out : list Fr), mcl_made s 31 w /\ length data = n /\ n = max_width s /\
  (let* f := mcl_fft s data false in mcl_fft s f true) = Ok out /\ out <> data.
Proof. exact C51_refuted_proof. Qed.
Print Assumptions C51_fft_inverse_largest_refuted.

Theorem C51_fast_is_slow : forall (K : fld) (w : K) m (ret1 ret2 data roots : list K) rs,
  primitive w (2 ^ m) -> length data = 2 ^ m -> length ret1 = 2 ^ m -> length ret2 = 2 ^ m ->
  (forall i, i < 2 ^ m -> nth_error roots (i * rs) = Some (fpow w i)) ->
  exists out, mcl_fft_fr_fast ret1 data 1 roots rs = Ok out /\ mcl_fft_fr_slow ret2 data 1 roots rs = Ok out /\
    length out = 2 ^ m /\ forall i, i < 2 ^ m -> nth_error out i = Some (peval data (fpow w i)).
Proof. exact (@mcl_slow_fast). Qed.
Print Assumptions C51_fast_is_slow.

(** three coefficients on settings of scale 3: four values, at the fourth roots of unity *)
Example C51_ex : forall s w (a b c : Fr), mcl_made s 3 w ->
  exists (u : Fr) out, primitive u 4 /\ mcl_fft s [a; b; c] false = Ok out /\
    nth_error out 0 = Some (fadd a (fadd b c)) /\ length out = 4.
Proof. exact C51_ex_proof. Qed.
Example C51_made_ex : exists s w, mcl_made s 3 w.
Proof. exact (ex_intro2_made 3 ltac:(lia)). Qed.

(** ** C52: transforms over the group *)
Theorem C52_fft_g1 : forall (M : gmod Fr) s k w (data : list M), mcl_made s k w ->
  (forall m, m <= k -> length data = 2 ^ m ->
   exists out, mcl_fft_g1 s data false = Ok out /\ length out = 2 ^ m /\
     (forall i, i < 2 ^ m -> nth_error out i =
        Some (gsum (2 ^ m) (fun j => smul (fpow (fpow w (2 ^ (k - m))) (i * j)) (nth j data g0)))) /\
     (m < 31 -> mcl_fft_g1 s out true = Ok data)) /\
  (max_width s < length data \/ (data <> [] /\ forall m, length data <> 2 ^ m) ->
   forall inv, mcl_fft_g1 s data inv = Err) /\
  (data = [] -> forall inv, mcl_fft_g1 s data inv = Panic).
Proof. exact C52_proof. Qed.
Print Assumptions C52_fft_g1.

(** the empty input is not rejected with an error *)
Theorem C52_empty_refuted : exists (s : fft_settings Fr) w, mcl_made s 0 w /\
  forall (M : gmod Fr) inv, mcl_fft_g1 (M := M) s [] inv = Panic.
Proof. exact C52_empty_proof. Qed.
Print Assumptions C52_empty_refuted.

Example C52_ex : forall (M : gmod Fr) s w (a b c : M), mcl_made s 2 w ->
  mcl_fft_g1 s [a; b; c] false = Err /\ exists out, mcl_fft_g1 s [a; b; c; a] false = Ok out /\ length out = 4.
Proof. exact C52_ex_proof. Qed.

(** ** C53: the result of a transform does not depend on the size of the settings *)
Theorem C53_scale_independent : forall k k' s s' (data : list Fr) inv,
  fft_settings_new blst_table k = Ok s -> fft_settings_new blst_table k' = Ok s' ->
  acceptable s (length data) -> acceptable s' (length data) -> fft_fr s data inv = fft_fr s' data inv.
Proof. exact C53_blst_proof. Qed.
Print Assumptions C53_scale_independent.

Theorem C53_scale_independent_mcl_new : forall fuel h k s fuel' h' k' s' m (data : list Fr),
  fst (mcl_new fuel mcl_pr5_table k (run_calls fuel mcl_pr5_table h globals0)) = Ok s ->
  fst (mcl_new fuel' mcl_pr5_table k' (run_calls fuel' mcl_pr5_table h' globals0)) = Ok s' ->
  m <= k -> m <= k' -> length data = 2 ^ m -> forall inv, mcl_fft s data inv = mcl_fft s' data inv.
Proof. exact C53_mcl_new_proof. Qed.
Print Assumptions C53_scale_independent_mcl_new.

(** It does for the trait constructor of mcl: its table changes generator between
    entries 6 and 7.  Every pair of settings on the two sides of that line disagrees
    on every size from 8 that both accept, already on the polynomial X. *)
Theorem C53_scale_independent_mcl_trait_refuted : forall fuel g k s fuel' g' k' s' m,
  fst (mcl_trait_new fuel mcl_pr7_table (N.of_nat k) g) = Ok s ->
  fst (mcl_trait_new fuel' mcl_pr7_table (N.of_nat k') g') = Ok s' ->
  3 <= m -> m <= k -> k < 7 -> 7 <= k' -> k' < 32 ->
  mcl_fft s (poly_X (2 ^ m)) false <> mcl_fft s' (poly_X (2 ^ m)) false.
Proof. exact C53_mcl_proof. Qed.
Print Assumptions C53_scale_independent_mcl_trait_refuted.
Example C53_ex : exists s s', fst (mcl_trait_new 128 mcl_pr7_table 6 globals0) = Ok s /\
  fst (mcl_trait_new 128 mcl_pr7_table 7 globals0) = Ok s' /\
  mcl_fft s (poly_X 8) false <> mcl_fft s' (poly_X 8) false.
Proof. exact C53_ex_proof. Qed.

(** ** C54: data-availability extension *)
Theorem C54_das_extension : forall s k w (evens : list Fr), mcl_made s k w ->
  (forall m, m < k -> length evens = 2 ^ m ->
   exists odds p, mcl_trait_das s evens = Ok odds /\ length odds = 2 ^ m /\ length p = 2 ^ m /\
     let u := fpow w (2 ^ (k - S m)) in primitive u (2 ^ S m) /\
     forall i, i < 2 ^ m ->
       nth_error evens i = Some (peval p (fpow u (2 * i))) /\
       nth_error odds i = Some (peval p (fpow u (2 * i + 1)))) /\
  (~ ((exists m, length evens = 2 ^ m) /\ 2 * length evens <= max_width s) ->
     mcl_das_fft_extension s evens = Err /\ mcl_trait_das s evens = Panic).
Proof. exact C54_proof. Qed.
Print Assumptions C54_das_extension.

(** the trait method never returns an error: it aborts *)
Theorem C54_trait_error_refuted : forall s k w (evens : list Fr), mcl_made s k w ->
  mcl_trait_das s evens <> Err.
Proof. exact C54_never_err_proof. Qed.
Print Assumptions C54_trait_error_refuted.
Example C54_ex : forall s w (a b c : Fr), mcl_made s 3 w ->
  mcl_trait_das s [a; b; c] = Panic /\ exists o1 o2, mcl_trait_das s [a; b] = Ok [o1; o2].
Proof. exact C54_ex_proof. Qed.

(** ** C55: exponentiation *)
Theorem C55_pow : forall (K : fld) (x : K) n, 1 <= n -> mcl_fr_pow x n = Ok (fpow x n).
Proof. exact C55_proof. Qed.
Print Assumptions C55_pow.
Example C55_ex : forall x : Fr, mcl_fr_pow x 2 = Ok (fmul x x).
Proof. exact (fun x => eq_refl). Qed.

Theorem C55_pow_zero_refuted : exists x : Fr, mcl_fr_pow x 0 <> Ok (fpow x 0).
Proof. exact C55_refuted_proof. Qed.
Print Assumptions C55_pow_zero_refuted.

(** ** C56: agreement of backends *)
Theorem C56_small_scales_agree : forall fuel g k, k < 7 -> 2 ^ k <= fuel ->
  fst (mcl_trait_new fuel mcl_pr7_table (N.of_nat k) g) = fft_settings_new blst_table k.
Proof. exact C56_agree_proof. Qed.
Print Assumptions C56_small_scales_agree.

Theorem C56_transforms_agree : forall k s m (data : list Fr) inv, fft_settings_new blst_table k = Ok s ->
  m <= k -> m < 31 -> length data = 2 ^ m -> mcl_fft s data inv = fft_fr s data inv.
Proof. exact C56_transforms_proof. Qed.
Print Assumptions C56_transforms_agree.

(** From scale 7 on the two backends use different generators; every size from 8 on
    is affected. *)
Theorem C56_large_scales_refuted : forall fuel g k s t m,
  fst (mcl_trait_new fuel mcl_pr7_table (N.of_nat k) g) = Ok s -> fft_settings_new blst_table k = Ok t ->
  7 <= k -> 3 <= m -> m < 31 -> m <= k ->
  mcl_fft s (poly_X (2 ^ m)) false <> fft_fr t (poly_X (2 ^ m)) false.
Proof. exact C56_differ_proof. Qed.
Print Assumptions C56_large_scales_refuted.
Example C56_ex : exists s t, fst (mcl_trait_new 128 mcl_pr7_table 7 globals0) = Ok s /\
  fft_settings_new blst_table 7 = Ok t /\ mcl_fft s (poly_X 8) false <> fft_fr t (poly_X 8) false.
Proof. exact C56_ex_proof. Qed.
