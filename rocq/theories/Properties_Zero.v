(** * Properties C20-C23: vanishing polynomials of sets of domain positions

    [root m] (Proof_FFTFr.v) is the primitive 2^m-th root of unity of the embedded table;
    [vanish rs x] (Poly.v) is the product of (x - r) over r in rs, [vanish_poly rs] its
    coefficient list, [pmul] the product of coefficient lists. *)
From Coq Require Import List Arith Lia ZArith.
From Verif Require Import Base Fld Poly Model_Utils Model_FFT Zr ZrTables Spec Proof_FFTFr Model_ZeroPoly Proof_Zero4.
Import ListNotations.

Theorem C20_small_vanishing_polynomial : forall k s m (idxs : list nat),
  fft_settings_new blst_table k = Ok s -> m <= k -> Forall (fun i => i < 2 ^ m) idxs ->
  (idxs <> [] -> exists p, do_zero_poly_mul_partial s idxs (2 ^ (k - m)) = Ok p /\ length p = length idxs + 1 /\
     (forall j, coef p j = coef (vanish_poly (map (fpow (root m)) idxs)) j) /\
     (forall x, peval p x = vanish (map (fpow (root m)) idxs) x) /\
     coef p (length idxs) = f1 /\
     (forall i, i < 2 ^ m -> (peval p (fpow (root m) i) = f0 <-> In i idxs))) /\
  (idxs = [] -> do_zero_poly_mul_partial s idxs (2 ^ (k - m)) = Err).
Proof. exact C20_proof. Qed.
Print Assumptions C20_small_vanishing_polynomial.
Example C20_ex :
  match fft_settings_new blst_table 3 with
  | Ok s => match do_zero_poly_mul_partial s [0; 2] 2 with
            | Ok p => map val p = [r - 1; 0; 1]%Z | _ => False end
  | _ => False end.
Proof. vm_compute. reflexivity. Qed.

Theorem C21_reduce_partials : forall k s dom (ps : list (list Fr)),
  fft_settings_new blst_table k = Ok s -> ps <> [] -> Forall (fun p => p <> []) ps ->
  let len := 1 + list_sum (map (fun p => length p - 1) ps) in
  ((exists m, dom = 2 ^ m) /\ len <= dom <= max_width s ->
     exists c, reduce_partials s dom ps = Ok c /\ length c = len /\
       (forall j, coef c j = coef (fold_right pmul [f1] ps) j) /\
       (forall x, peval c x = fold_right fmul f1 (map (fun p => peval p x) ps))) /\
  (~ ((exists m, dom = 2 ^ m) /\ len <= dom <= max_width s) -> reduce_partials s dom ps = Err).
Proof. exact C21_proof. Qed.
Print Assumptions C21_reduce_partials.
Example C21_ex :
  match fft_settings_new blst_table 3 with
  | Ok s => match reduce_partials s 4 [[fr_of 1; fr_of 2]; [fr_of 3; fr_of 1]; [fr_of 5]], reduce_partials s 2 [[fr_of 1; fr_of 2]; [fr_of 3; fr_of 1]] with
            | Ok p, Err => map val p = [15; 35; 10]%Z | _, _ => False end
  | _ => False end.
Proof. vm_compute. reflexivity. Qed.

Theorem C22_zero_poly_via_multiplication : forall k s m (missing : list nat),
  fft_settings_new blst_table k = Ok s -> m <= k ->
  0 < length missing < 2 ^ m -> length missing <= 63 * (2 ^ m / 64 + 1) ->
  Forall (fun i => i < 2 ^ m) missing ->
  exists ev zp, zero_poly_via_multiplication s (2 ^ m) missing = Ok (ev, zp) /\
    length ev = 2 ^ m /\ length zp = 2 ^ m /\
    (forall j, coef zp j = coef (vanish_poly (map (fpow (root m)) missing)) j) /\
    (forall x, peval zp x = vanish (map (fpow (root m)) missing) x) /\
    coef zp (length missing) = f1 /\
    (forall i, i < 2 ^ m -> nth_error ev i = Some (peval zp (fpow (root m) i))) /\
    (forall i, i < 2 ^ m -> (nth_error ev i = Some f0 <-> In i missing)).
Proof. exact C22_proof. Qed.
Print Assumptions C22_zero_poly_via_multiplication.

(** the size hypothesis covers every loss of up to half of the samples ... *)
Theorem C22_covers_half : forall m (missing : list nat),
  2 * length missing <= 2 ^ m -> length missing <= 63 * (2 ^ m / 64 + 1).
Proof. exact C22_half_proof. Qed.
Print Assumptions C22_covers_half.

(** ... and every loss at all for domains of up to 4096 samples *)
Theorem C22_covers_small : forall k s m (missing : list nat),
  fft_settings_new blst_table k = Ok s -> m <= k -> m <= 12 ->
  0 < length missing < 2 ^ m -> length missing <= 63 * (2 ^ m / 64 + 1).
Proof. exact C22_small_proof. Qed.
Print Assumptions C22_covers_small.

(** degenerate and rejected arguments *)
Theorem C22_arguments : forall k s d (missing : list nat),
  fft_settings_new blst_table k = Ok s ->
  (missing = [] -> zero_poly_via_multiplication s d missing = Ok ([], [])) /\
  (missing <> [] -> d <= length missing \/ max_width s < d \/ (forall m, d <> 2 ^ m) ->
     zero_poly_via_multiplication s d missing = Err).
Proof. exact C22_args_proof. Qed.
Print Assumptions C22_arguments.
Example C22_ex :
  match fft_settings_new blst_table 2 with
  | Ok s => match zero_poly_via_multiplication s 4 [0; 2] with
            | Ok (ev, zp) => map val zp = [r - 1; 0; 1; 0]%Z /\ map val ev = [0; r - 2; 0; r - 2]%Z
            | _ => False end
  | _ => False end.
Proof. vm_compute. split; reflexivity. Qed.
(** the hypotheses hold for 70 missing indices of 128, where the tree combines two partials *)
Example C22_ex_tree : 0 < length (seq 30 70) < 2 ^ 7 /\ 63 < length (seq 30 70) <= 63 * (2 ^ 7 / 64 + 1) /\
  Forall (fun i => i < 2 ^ 7) (seq 30 70) /\ exists s, fft_settings_new blst_table 7 = Ok s.
Proof.
  split; [vm_compute; lia|]. split; [vm_compute; lia|].
  split; [apply Forall_forall; intros i Hi; apply in_seq in Hi; change (2 ^ 7) with 128; lia|]. destruct (new_ok 7 ltac:(lia)) as (s & E & _). exists s. exact E.
Qed.

(** beyond that bound the function returns an error instead of the polynomial *)
Theorem C23_near_total_loss_refuted : forall k s m (missing : list nat),
  fft_settings_new blst_table k = Ok s -> m <= k ->
  63 * (2 ^ m / 64 + 1) < length missing < 2 ^ m -> Forall (fun i => i < 2 ^ m) missing ->
  zero_poly_via_multiplication s (2 ^ m) missing = Err.
Proof. exact C23_proof. Qed.
Print Assumptions C23_near_total_loss_refuted.
Example C23_ex : exists missing : list nat, NoDup missing /\ length missing = 2 ^ 13 - 64 /\
  Forall (fun i => i < 2 ^ 13) missing /\
  forall k s, fft_settings_new blst_table k = Ok s -> 13 <= k -> zero_poly_via_multiplication s (2 ^ 13) missing = Err.
Proof. exact C23_instance_proof. Qed.
