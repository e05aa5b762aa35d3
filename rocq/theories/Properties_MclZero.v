(** * Properties C60 and C61: vanishing polynomials and erasure recovery of the mcl backend

    [mcl_made s k w] (Spec_Mcl.v): the settings [s] come out of a constructor, after any
    history of calls, with scale [k] and root [w]; the domain of 2^m points is the powers
    of [w ^ (2 ^ (k - m))].  [vanish rs x] (Poly.v) is the product of (x - r) over r in rs
    and [vanish_poly rs] its coefficients; [missing_count] (Spec_More.v) counts the absent
    samples; [factor_table_len] = 65536. *)
From Coq Require Import List Arith Lia ZArith NArith.
From Verif Require Import Base Fld Poly Zr ZrTables Spec Spec_More Model_FFT Model_ZeroPoly Model_Recovery Model_Mcl Spec_Mcl Model_MclZero Proof_MclZeroFr.
Import ListNotations.

(** ** C60: vanishing polynomials *)
Theorem C60_small_vanishing_polynomial : forall s k w m (idxs : list nat),
  mcl_made s k w -> m <= k -> Forall (fun i => i < 2 ^ m) idxs ->
  let z := fpow w (2 ^ (k - m)) in
  (idxs <> [] -> exists p, mcl_do_zero s idxs (2 ^ (k - m)) = Ok p /\ length p = length idxs + 1 /\
     (forall j, coef p j = coef (vanish_poly (map (fpow z) idxs)) j) /\
     (forall x, peval p x = vanish (map (fpow z) idxs) x) /\
     coef p (length idxs) = f1 /\
     (forall i, i < 2 ^ m -> (peval p (fpow z i) = f0 <-> In i idxs))) /\
  (idxs = [] -> mcl_do_zero s idxs (2 ^ (k - m)) = Err).
Proof. exact C60_partial_proof. Qed.
Print Assumptions C60_small_vanishing_polynomial.
Example C60_small_ex :
  match fst (mcl_new 100 mcl_pr5_table 3 globals0) with
  | Ok s => match mcl_do_zero s [0; 2] 2 with
            | Ok p => map val p = [r - 1; 0; 1]%Z | _ => False end
  | _ => False end.
Proof. vm_compute. reflexivity. Qed.

Theorem C60_reduce_partials : forall s k w dom (ps : list (list Fr)),
  mcl_made s k w -> ps <> [] -> Forall (fun p => p <> []) ps -> dom <> 0 -> (N.of_nat dom < 2 ^ 31)%N ->
  let len := 1 + list_sum (map (fun p => length p - 1) ps) in
  ((exists m, dom = 2 ^ m) /\ len <= dom <= max_width s ->
     exists c, mcl_reduce_partials s dom ps = Ok c /\ length c = len /\
       (forall j, coef c j = coef (fold_right pmul [f1] ps) j) /\
       (forall x, peval c x = fold_right fmul f1 (map (fun p => peval p x) ps))) /\
  ((forall m, dom <> 2 ^ m) \/ dom < len -> mcl_reduce_partials s dom ps = Err) /\
  ((exists m, dom = 2 ^ m) -> len <= dom -> max_width s < dom -> mcl_reduce_partials s dom ps = Panic).
Proof. exact C60_reduce_proof. Qed.
Print Assumptions C60_reduce_partials.
Example C60_reduce_ex :
  match fst (mcl_new 100 mcl_pr5_table 2 globals0) with
  | Ok s => match mcl_reduce_partials s 4 [[fr_of 1; fr_of 2]; [fr_of 3; fr_of 1]; [fr_of 5]],
                  mcl_reduce_partials s 2 [[fr_of 1; fr_of 2]; [fr_of 3; fr_of 1]],
                  mcl_reduce_partials s 8 [[fr_of 1; fr_of 2]; [fr_of 3; fr_of 1]] with
            | Ok p, Err, Panic => map val p = [15; 35; 10]%Z | _, _, _ => False end
  | _ => False end.
Proof. vm_compute. reflexivity. Qed.

Theorem C60_zero_poly : forall s k w m (missing : list nat),
  mcl_made s k w -> m <= k -> m <= 30 ->
  0 < length missing < 2 ^ m -> length missing <= 63 * (2 ^ m / 64 + 1) ->
  Forall (fun i => i < 2 ^ m) missing ->
  let z := fpow w (2 ^ (k - m)) in
  exists ev zp, mcl_zero_poly s (2 ^ m) missing = Ok (ev, zp) /\
    length ev = 2 ^ m /\ length zp = 2 ^ m /\
    (forall j, coef zp j = coef (vanish_poly (map (fpow z) missing)) j) /\
    (forall x, peval zp x = vanish (map (fpow z) missing) x) /\
    coef zp (length missing) = f1 /\
    (forall i, i < 2 ^ m -> nth_error ev i = Some (peval zp (fpow z i))) /\
    (forall i, i < 2 ^ m -> (nth_error ev i = Some f0 <-> In i missing)).
Proof. exact C60_proof. Qed.
Print Assumptions C60_zero_poly.
Example C60_zero_poly_ex :
  match fst (mcl_new 100 mcl_pr5_table 2 globals0) with
  | Ok s => match mcl_zero_poly s 4 [0; 2] with
            | Ok (ev, zp) => map val zp = [r - 1; 0; 1; 0]%Z /\ map val ev = [0; r - 2; 0; r - 2]%Z
            | _ => False end
  | _ => False end.
Proof. vm_compute. split; reflexivity. Qed.

(** degenerate and rejected arguments; nothing missing gives two vectors of zeros *)
Theorem C60_arguments : forall (s : fft_settings Fr) d (missing : list nat),
  (missing = [] -> mcl_zero_poly s d missing = Ok (repeat f0 d, repeat f0 d)) /\
  (missing <> [] -> d <= length missing \/ max_width s < d \/ (forall m, d <> 2 ^ m) -> mcl_zero_poly s d missing = Err).
Proof. exact C60_args_proof. Qed.
Print Assumptions C60_arguments.

(** beyond the bound the call panics instead of returning the polynomial or an error *)
Theorem C60_near_total_loss_refuted : forall s k w m (missing : list nat), mcl_made s k w -> m <= k -> m <= 30 ->
  63 * (2 ^ m / 64 + 1) < length missing < 2 ^ m -> Forall (fun i => i < 2 ^ m) missing ->
  mcl_zero_poly s (2 ^ m) missing = Panic.
Proof. exact C60_refuted_proof. Qed.
Print Assumptions C60_near_total_loss_refuted.
Example C60_near_total_loss_ex : exists missing : list nat, NoDup missing /\ length missing = 2 ^ 13 - 64 /\
  Forall (fun i => i < 2 ^ 13) missing /\
  forall s k w, mcl_made s k w -> 13 <= k -> mcl_zero_poly s (2 ^ 13) missing = Panic.
Proof. exact C60_instance_proof. Qed.

(** on settings of the blst backend the two backends return the same, an error of one
    being a panic of the other *)
Theorem C60_agrees : forall k s m (missing : list nat), fft_settings_new blst_table k = Ok s -> m <= k -> m <= 30 ->
  0 < length missing < 2 ^ m ->
  mcl_zero_poly s (2 ^ m) missing = unwrap (zero_poly_via_multiplication s (2 ^ m) missing).
Proof. exact C60_agrees_proof. Qed.
Print Assumptions C60_agrees.

(** ** C61: recovery *)
Theorem C61_shift : forall (p : list Fr),
  exists q u, mcl_shift_in_place p = Ok q /\ mcl_unshift_in_place p = Ok u /\
    length q = length p /\ length u = length p /\
    mcl_unshift_in_place q = Ok p /\ mcl_shift_in_place u = Ok p /\
    forall x : Fr, peval q x = peval p (fdiv x (fr_of 5)) /\ peval u x = peval p (fmul (fr_of 5) x).
Proof. exact C61_shift_proof. Qed.
Print Assumptions C61_shift.
Example C61_shift_ex :
  match mcl_unshift_in_place [fr_of 1; fr_of 2; fr_of 3] with Ok q => map val q = [1; 10; 75]%Z | _ => False end.
Proof. vm_compute. reflexivity. Qed.

(** at most half of the samples missing: the codeword comes back, whatever the pattern *)
Theorem C61_recovery : forall s k w m (p : list Fr) (samples : list (option Fr)),
  mcl_made s k w -> m <= k -> m <= 30 -> length samples = 2 ^ m -> 2 * length p <= 2 ^ m ->
  let z := fpow w (2 ^ (k - m)) in
  (forall i v, nth_error samples i = Some (Some v) -> v = peval p (fpow z i)) ->
  0 < missing_count samples -> 2 * missing_count samples <= 2 ^ m ->
  mcl_recover s samples = Ok (map (fun i => peval p (fpow z i)) (seq 0 (2 ^ m))).
Proof. exact C61_proof. Qed.
Print Assumptions C61_recovery.
(** the codeword of 3 + x with two of four values missing *)
Example C61_recovery_ex :
  match fst (mcl_new 100 mcl_pr5_table 2 globals0) with
  | Ok s => match mcl_recover s [Some (fr_of 4); None; Some (fr_of 2); None] with
            | Ok d => map val d = [4; (3 + val (nth 2 mcl_pr5_table f0)) mod r; 2; (3 - val (nth 2 mcl_pr5_table f0)) mod r]%Z
            | _ => False end
  | _ => False end.
Proof. vm_compute. reflexivity. Qed.

(** in general the result is the unique codeword of degree below the number of present
    samples that passes through them *)
Theorem C61_unique_codeword : forall s k w m (samples : list (option Fr)),
  mcl_made s k w -> m <= k -> m <= 30 -> length samples = 2 ^ m ->
  0 < missing_count samples < 2 ^ m -> missing_count samples <= 63 * (2 ^ m / 64 + 1) ->
  let z := fpow w (2 ^ (k - m)) in
  exists p data, length p = 2 ^ m - missing_count samples /\ mcl_recover s samples = Ok data /\
    length data = 2 ^ m /\
    (forall i, i < 2 ^ m -> nth_error data i = Some (peval p (fpow z i))) /\
    (forall i v, nth_error samples i = Some (Some v) -> peval p (fpow z i) = v) /\
    (forall q, length q <= 2 ^ m - missing_count samples ->
       (forall i v, nth_error samples i = Some (Some v) -> peval q (fpow z i) = v) -> forall j, coef q j = coef p j).
Proof. exact C61_unique_proof. Qed.
Print Assumptions C61_unique_codeword.

(** nothing missing: the samples are discarded and zeros come back *)
Theorem C61_complete_refuted : forall s k w m (vs : list Fr), mcl_made s k w -> m <= k -> m <= 30 -> length vs = 2 ^ m ->
  mcl_recover s (map Some vs) = Ok (repeat f0 (2 ^ m)).
Proof. exact C61_complete_proof. Qed.
Print Assumptions C61_complete_refuted.
Example C61_complete_ex :
  match fst (mcl_new 100 mcl_pr5_table 1 globals0) with
  | Ok s => match mcl_recover s [Some (fr_of 4); Some (fr_of 7)] with
            | Ok d => map val d = [0; 0]%Z | _ => False end
  | _ => False end.
Proof. vm_compute. reflexivity. Qed.

(** too much missing: a panic instead of an error *)
Theorem C61_total_loss_refuted : forall s k w m (samples : list (option Fr)),
  mcl_made s k w -> m <= k -> m <= 30 -> length samples = 2 ^ m ->
  63 * (2 ^ m / 64 + 1) < missing_count samples \/ missing_count samples = 2 ^ m ->
  mcl_recover s samples = Panic.
Proof. exact C61_lost_proof. Qed.
Print Assumptions C61_total_loss_refuted.

(** rejected lengths *)
Theorem C61_lengths : forall (s : fft_settings Fr) (samples : list (option Fr)),
  (samples = [] -> mcl_recover s samples = Panic) /\
  (samples <> [] -> (forall m, length samples <> 2 ^ m) -> mcl_recover s samples = Err) /\
  (forall m, length samples = 2 ^ m -> max_width s < 2 ^ m -> mcl_recover s samples = Panic).
Proof. exact C61_lengths_proof. Qed.
Print Assumptions C61_lengths.
Example C61_lengths_ex :
  match fst (mcl_new 100 mcl_pr5_table 1 globals0) with
  | Ok s => match mcl_recover s [None; Some (fr_of 4); None], mcl_recover s [None; Some (fr_of 4); None; Some (fr_of 7)] with
            | Err, Panic => True | _, _ => False end
  | _ => False end.
Proof. vm_compute. exact I. Qed.

(** the tables of the parallel build give the same result up to 65536 samples and a panic
    above *)
Theorem C61_parallel_tables : forall s k w m (samples : list (option Fr)),
  mcl_made s k w -> m <= k -> length samples = 2 ^ m ->
  (m <= 16 -> mcl_recover_par factor_table_len s samples = mcl_recover s samples) /\
  (16 < m <= 30 -> mcl_recover_par factor_table_len s samples = Panic).
Proof. exact C61_par_proof. Qed.
Print Assumptions C61_parallel_tables.
Example C61_parallel_ex :
  match fst (mcl_new 100 mcl_pr5_table 1 globals0) with
  | Ok s => match mcl_recover_par 2 s [Some (fr_of 4); None], mcl_recover_par 1 s [Some (fr_of 4); None] with
            | Ok d, Panic => map val d = [4; 4]%Z | _, _ => False end
  | _ => False end.
Proof. vm_compute. reflexivity. Qed.
