(** * Properties C76-C77: vanishing polynomials and recovery of the Arkworks backend

    [vanish], [vanish_poly], [pmul] as in [Properties_Zero.v]; [missing_count] (Spec_More.v)
    counts the absent samples. *)
From Coq Require Import List Arith Lia ZArith.
From Verif Require Import Base Fld Poly Zr ZrTables Model_FFT Spec Spec_More Proof_FFTFr Spec_Ark Model_Ark Model_ArkZero Proof_ZkFr Proof_ArkFr.
Import ListNotations.

Theorem C76_ark_small_vanishing_polynomial : forall W, lib_root W -> forall k s m (idxs : list nat),
  ark_settings_new W k = Ok s -> m <= k -> Forall (fun i => i < 2 ^ m) idxs ->
  (idxs <> [] -> exists p, ark_zero_partial s idxs (2 ^ (k - m)) = Ok p /\ length p = length idxs + 1 /\
     (forall j, coef p j = coef (vanish_poly (map (fpow (root m)) idxs)) j) /\
     (forall x, peval p x = vanish (map (fpow (root m)) idxs) x) /\
     coef p (length idxs) = f1 /\
     (forall i, i < 2 ^ m -> (peval p (fpow (root m) i) = f0 <-> In i idxs))) /\
  (idxs = [] -> ark_zero_partial s idxs (2 ^ (k - m)) = Err).
Proof. exact C76_partial_proof. Qed.
Print Assumptions C76_ark_small_vanishing_polynomial.
Example C76_ark_small_ex :
  match ark_settings_new ark_W 3 with
  | Ok s => match ark_zero_partial s [0; 2] 2 with Ok p => map val p = [r - 1; 0; 1]%Z | _ => False end
  | _ => False end.
Proof. rewrite !(anew ark_W ark_W_root). vm_compute. reflexivity. Qed.

Theorem C76_ark_reduce_partials : forall W, lib_root W -> forall k s dom (ps : list (list Fr)),
  ark_settings_new W k = Ok s -> ps <> [] -> Forall (fun p => p <> []) ps ->
  let len := 1 + list_sum (map (fun p => length p - 1) ps) in
  ((exists m, dom = 2 ^ m) /\ len <= dom <= max_width s ->
     exists c, ark_reduce_partials W s dom ps = Ok c /\ length c = len /\
       (forall j, coef c j = coef (fold_right pmul [f1] ps) j) /\
       (forall x, peval c x = fold_right fmul f1 (map (fun p => peval p x) ps))) /\
  (dom < len -> ark_reduce_partials W s dom ps = Err) /\
  (len <= dom -> (forall m, dom <> 2 ^ m) \/ max_width s < dom -> ark_reduce_partials W s dom ps = Panic).
Proof. exact C76_reduce_proof. Qed.
Print Assumptions C76_ark_reduce_partials.
Example C76_ark_reduce_ex :
  match ark_settings_new ark_W 1 with
  | Ok s => match ark_reduce_partials ark_W s 2 [[fr_of 3; fr_of 1]; [fr_of 5]],
                  ark_reduce_partials ark_W s 2 [[fr_of 1; fr_of 2]; [fr_of 3; fr_of 1]],
                  ark_reduce_partials ark_W s 3 [[fr_of 1; fr_of 2]; [fr_of 3; fr_of 1]] with
            | Ok p, Err, Panic => map val p = [15; 5]%Z | _, _, _ => False end
  | _ => False end.
Proof. rewrite !(anew ark_W ark_W_root). vm_compute. reflexivity. Qed.

Theorem C76_ark_zero_poly : forall W, lib_root W -> forall k s m (missing : list nat),
  ark_settings_new W k = Ok s -> m <= k ->
  0 < length missing < 2 ^ m -> length missing <= 63 * (2 ^ m / 64 + 1) ->
  Forall (fun i => i < 2 ^ m) missing ->
  exists ev zp, ark_zero_poly W s (2 ^ m) missing = Ok (ev, zp) /\
    length ev = 2 ^ m /\ length zp = 2 ^ m /\
    (forall j, coef zp j = coef (vanish_poly (map (fpow (root m)) missing)) j) /\
    (forall x, peval zp x = vanish (map (fpow (root m)) missing) x) /\
    coef zp (length missing) = f1 /\
    (forall i, i < 2 ^ m -> nth_error ev i = Some (peval zp (fpow (root m) i))) /\
    (forall i, i < 2 ^ m -> (nth_error ev i = Some f0 <-> In i missing)).
Proof. exact C76_zero_poly_proof. Qed.
Print Assumptions C76_ark_zero_poly.
Theorem C76_ark_zero_poly_arguments : forall W (s : fft_settings Fr) d (missing : list nat),
  (missing = [] -> ark_zero_poly W s d missing = Ok ([], [])) /\
  (missing <> [] -> d <= length missing \/ max_width s < d \/ (forall m, d <> 2 ^ m) -> ark_zero_poly W s d missing = Err).
Proof. exact C76_args_proof. Qed.
Print Assumptions C76_ark_zero_poly_arguments.
Example C76_ark_zero_poly_ex :
  match ark_settings_new ark_W 2 with
  | Ok s => match ark_zero_poly ark_W s 4 [0; 2] with
            | Ok (ev, zp) => map val zp = [r - 1; 0; 1; 0]%Z /\ map val ev = [0; r - 2; 0; r - 2]%Z
            | _ => False end
  | _ => False end.
Proof. rewrite !(anew ark_W ark_W_root). vm_compute. split; reflexivity. Qed.

(** beyond that bound the function returns an error instead of the polynomial *)
Theorem C76_ark_near_total_loss_refuted : forall W, lib_root W -> forall k s m (missing : list nat),
  ark_settings_new W k = Ok s -> m <= k ->
  63 * (2 ^ m / 64 + 1) < length missing < 2 ^ m -> Forall (fun i => i < 2 ^ m) missing ->
  ark_zero_poly W s (2 ^ m) missing = Err.
Proof. exact C76_fails_proof. Qed.
Print Assumptions C76_ark_near_total_loss_refuted.
Example C76_ark_near_total_loss_refuted_ex : exists missing : list nat, NoDup missing /\ Forall (fun i => i < 2 ^ 13) missing /\
  63 * (2 ^ 13 / 64 + 1) < length missing < 2 ^ 13.
Proof. exact near_total_proof. Qed.

(** at most half of the samples missing: the codeword comes back, whatever the pattern and however many samples there are *)
Theorem C77_ark_recovery : forall W, lib_root W -> forall k s m (p : list Fr) (samples : list (option Fr)),
  ark_settings_new W k = Ok s -> m <= k -> length samples = 2 ^ m -> 2 * length p <= 2 ^ m ->
  (forall i v, nth_error samples i = Some (Some v) -> v = peval p (fpow (root m) i)) ->
  0 < missing_count samples -> 2 * missing_count samples <= 2 ^ m ->
  ark_recover W s samples = Ok (map (fun i => peval p (fpow (root m) i)) (seq 0 (2 ^ m))).
Proof. exact C77_proof. Qed.
Print Assumptions C77_ark_recovery.
(** in general the result is the unique codeword of degree below the number of present samples that passes through them *)
Theorem C77_ark_unique_codeword : forall W, lib_root W -> forall k s m (samples : list (option Fr)),
  ark_settings_new W k = Ok s -> m <= k -> length samples = 2 ^ m ->
  0 < missing_count samples < 2 ^ m -> missing_count samples <= 63 * (2 ^ m / 64 + 1) ->
  exists p data, length p = 2 ^ m - missing_count samples /\ ark_recover W s samples = Ok data /\
    length data = 2 ^ m /\
    (forall i, i < 2 ^ m -> nth_error data i = Some (peval p (fpow (root m) i))) /\
    (forall i v, nth_error samples i = Some (Some v) -> peval p (fpow (root m) i) = v) /\
    (forall q, length q <= 2 ^ m - missing_count samples ->
       (forall i v, nth_error samples i = Some (Some v) -> peval q (fpow (root m) i) = v) -> forall j, coef q j = coef p j).
Proof. exact C77_gen_proof. Qed.
Print Assumptions C77_ark_unique_codeword.
Theorem C77_ark_agrees_with_samples : forall W, lib_root W -> forall k s m (samples : list (option Fr)) data,
  ark_settings_new W k = Ok s -> m <= k -> length samples = 2 ^ m -> ark_recover W s samples = Ok data ->
  forall i v, nth_error samples i = Some (Some v) -> nth_error data i = Some v.
Proof. exact C77_agrees_proof. Qed.
Print Assumptions C77_ark_agrees_with_samples.
Example C77_ark_recovery_ex :
  match ark_settings_new ark_W 1 with
  | Ok s => match ark_recover ark_W s [Some (fr_of 4); None] with Ok d => map val d = [4; 4]%Z | _ => False end
  | _ => False end.
Proof. rewrite !(anew ark_W ark_W_root). vm_compute. reflexivity. Qed.

(** a complete sample vector makes the call panic *)
Theorem C77_ark_complete_refuted : forall W, lib_root W -> forall k s m (vs : list Fr),
  ark_settings_new W k = Ok s -> m <= k -> length vs = 2 ^ m ->
  ark_recover W s (map Some vs) = Panic.
Proof. exact C77_complete_proof. Qed.
Print Assumptions C77_ark_complete_refuted.
Example C77_ark_complete_refuted_ex :
  match ark_settings_new ark_W 1 with
  | Ok s => match ark_recover ark_W s (map Some [fr_of 4; fr_of 9]) with Panic => True | _ => False end
  | _ => False end.
Proof. rewrite !(anew ark_W ark_W_root). vm_compute. exact I. Qed.

(** a sample count that is not a power of two is an error; one that exceeds the settings panics *)
Theorem C77_ark_lengths_refuted : forall W (s : fft_settings Fr) (samples : list (option Fr)),
  ((forall m, length samples <> 2 ^ m) -> ark_recover W s samples = Err) /\
  (forall m, length samples = 2 ^ m -> max_width s < 2 ^ m -> ark_recover W s samples = Panic).
Proof. exact C77_lengths_proof. Qed.
Print Assumptions C77_ark_lengths_refuted.
Example C77_ark_lengths_refuted_ex :
  match ark_settings_new ark_W 1 with
  | Ok s => match ark_recover ark_W s [Some (fr_of 4); None; None], ark_recover ark_W s [Some (fr_of 4); None; None; None] with Err, Panic => True | _, _ => False end
  | _ => False end.
Proof. rewrite !(anew ark_W ark_W_root). vm_compute. exact I. Qed.
