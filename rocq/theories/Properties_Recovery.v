(** * Properties C19 (table variant), C24-C27 and C47: erasure recovery

    [root m] is the embedded primitive 2^m-th root of unity; [missing_count] (Spec_More.v)
    counts the absent samples; [factor_table_len] = 65536 is the length of the two tables
    of powers of 5 used by the code, and [fr_null] the marker value of the null-based
    entry point. *)
From Coq Require Import List Arith Lia ZArith.
From Verif Require Import Base Fld Poly Model_Utils Model_FFT Zr ZrTables Spec Spec_More Proof_FFTFr.
From Verif Require Import Model_Recovery Proof_RecoveryFr.
Import ListNotations.

Theorem C19_table_scale_unscale : forall tl (p : list Fr), 0 < tl -> length p <= tl ->
  (let* q := scale_poly tl p (length p) in unscale_poly tl q (length q)) = Ok p /\
  (let* q := unscale_poly tl p (length p) in scale_poly tl q (length q)) = Ok p.
Proof. exact C19_table_proof. Qed.
Print Assumptions C19_table_scale_unscale.
Theorem C19_table_scale_effect : forall tl (p : list Fr), 0 < tl -> length p <= tl ->
  exists q u, scale_poly tl p (length p) = Ok q /\ unscale_poly tl p (length p) = Ok u /\
    forall x : Fr, peval q x = peval p (fdiv x (fr_of 5)) /\ peval u x = peval p (fmul (fr_of 5) x).
Proof. exact C19_table_effect_proof. Qed.
Print Assumptions C19_table_scale_effect.
Example C19_table_ex :
  match unscale_poly 4 [fr_of 1; fr_of 2; fr_of 3] 3 with Ok q => map val q = [1; 10; 75]%Z | _ => False end.
Proof. vm_compute. reflexivity. Qed.

(** at most half of the samples missing: the codeword comes back, whatever the pattern *)
Theorem C24_recovery : forall k s m (p : list Fr) (samples : list (option Fr)),
  fft_settings_new blst_table k = Ok s -> m <= k -> m <= 16 -> length samples = 2 ^ m -> 2 * length p <= 2 ^ m ->
  (forall i v, nth_error samples i = Some (Some v) -> v = peval p (fpow (root m) i)) ->
  0 < missing_count samples -> 2 * missing_count samples <= 2 ^ m ->
  recover_opt factor_table_len s samples = Ok (map (fun i => peval p (fpow (root m) i)) (seq 0 (2 ^ m))).
Proof. exact C24_proof. Qed.
Print Assumptions C24_recovery.

Theorem C24_recovery_null : forall k s m (p : list Fr) (samples : list Fr),
  fft_settings_new blst_table k = Ok s -> m <= k -> m <= 16 -> length samples = 2 ^ m -> 2 * length p <= 2 ^ m ->
  (forall i v, nth_error samples i = Some v -> v = fr_null \/ v = peval p (fpow (root m) i)) ->
  let missing := length (filter (fun v => feqb v fr_null) samples) in
  0 < missing -> 2 * missing <= 2 ^ m ->
  recover_null fr_null factor_table_len s samples (2 ^ m) = Ok (map (fun i => peval p (fpow (root m) i)) (seq 0 (2 ^ m))).
Proof. exact C24_null_proof. Qed.
Print Assumptions C24_recovery_null.

(** in general the result is the unique codeword of degree below the number of present
    samples that passes through them *)
Theorem C24_unique_codeword : forall k s m (samples : list (option Fr)),
  fft_settings_new blst_table k = Ok s -> m <= k -> m <= 16 -> length samples = 2 ^ m ->
  0 < missing_count samples < 2 ^ m -> missing_count samples <= 63 * (2 ^ m / 64 + 1) ->
  exists p data, length p = 2 ^ m - missing_count samples /\ recover_opt factor_table_len s samples = Ok data /\
    length data = 2 ^ m /\
    (forall i, i < 2 ^ m -> nth_error data i = Some (peval p (fpow (root m) i))) /\
    (forall i v, nth_error samples i = Some (Some v) -> peval p (fpow (root m) i) = v) /\
    (forall q, length q <= 2 ^ m - missing_count samples ->
       (forall i v, nth_error samples i = Some (Some v) -> peval q (fpow (root m) i) = v) -> forall j, coef q j = coef p j).
Proof. exact C24_gen_proof. Qed.
Print Assumptions C24_unique_codeword.

(** above 65536 samples the tables are too short and the call panics *)
Theorem C24_beyond_table_refuted : forall k s m (samples : list (option Fr)),
  fft_settings_new blst_table k = Ok s -> m <= k -> 16 < m -> length samples = 2 ^ m ->
  0 < missing_count samples < 2 ^ m -> missing_count samples <= 63 * (2 ^ m / 64 + 1) ->
  recover_opt factor_table_len s samples = Panic.
Proof. exact C24_big_proof. Qed.
Print Assumptions C24_beyond_table_refuted.

(** the codeword of 3 + x with two of four values missing (run with tables of length 4) *)
Example C24_ex :
  match fft_settings_new blst_table 2 with
  | Ok s => match recover_opt 4 s [Some (fr_of 4); None; Some (fr_of 2); None] with
            | Ok d => map val d = [4; (3 + val (root 2)) mod r; 2; (3 - val (root 2)) mod r]%Z
            | _ => False end
  | _ => False end.
Proof. vm_compute. reflexivity. Qed.

Theorem C25_agrees_with_samples : forall tl s (samples : list (option Fr)) data,
  recover_opt tl s samples = Ok data -> forall i v, nth_error samples i = Some (Some v) -> nth_error data i = Some v.
Proof. exact C25_proof. Qed.
Print Assumptions C25_agrees_with_samples.
Theorem C25_agrees_with_samples_null : forall tl s (samples : list Fr) n data,
  recover_null fr_null tl s samples n = Ok data ->
  forall i v, i < n -> nth_error samples i = Some v -> v <> fr_null -> nth_error data i = Some v.
Proof. exact C25_null_proof. Qed.
Print Assumptions C25_agrees_with_samples_null.
Example C25_ex :
  match fft_settings_new blst_table 1 with
  | Ok s => match recover_opt 2 s [Some (fr_of 4); None] with
            | Ok d => map val d = [4; 4]%Z | _ => False end
  | _ => False end.
Proof. vm_compute. reflexivity. Qed.

(** a complete sample vector makes both entry points panic *)
Theorem C26_complete_refuted : forall tl (s : fft_settings Fr) (vs : list Fr) m, length vs = 2 ^ m ->
  recover_opt tl s (map Some vs) = Panic /\ (~ In fr_null vs -> recover_null fr_null tl s vs (2 ^ m) = Panic).
Proof. exact C26_proof. Qed.
Print Assumptions C26_complete_refuted.
Example C26_ex :
  match fft_settings_new blst_table 2 with
  | Ok s => match recover_opt 4 s (map Some [fr_of 4; fr_of 9; fr_of 2; fr_of 5]) with Panic => True | _ => False end
  | _ => False end.
Proof. vm_compute. exact I. Qed.

(** the marker is the scalar with all 256 bits set, reduced *)
Theorem C27_null_value : val fr_null = ((2 ^ 256 - 1) mod r)%Z.
Proof. exact (val_to_Fr (2 ^ 256 - 1)). Qed.
Print Assumptions C27_null_value.
(** the genuine field element [fr_null] is taken for a missing sample and overwritten *)
Theorem C27_null_refuted : forall k s (v : Fr), fft_settings_new blst_table k = Ok s -> 1 <= k -> v <> fr_null ->
  recover_null fr_null factor_table_len s [fr_null; v] 2 = Ok [v; v] /\
  recover_opt factor_table_len s [Some fr_null; Some v] = Panic.
Proof. exact C27_proof. Qed.
Print Assumptions C27_null_refuted.
Example C27_ex : val fr_null = ((2 ^ 256 - 1) mod r)%Z /\ val fr_null <> val (fr_of 7) /\
  match fft_settings_new blst_table 1 with
  | Ok s => match recover_null fr_null 2 s [fr_null; fr_of 7] 2 with Ok d => map val d = [7; 7]%Z | _ => False end
  | _ => False end.
Proof. vm_compute. repeat split; discriminate. Qed.

(** samples on no polynomial with n/2 coefficients are accepted *)
Theorem C47_codeword_check_refuted : forall k s m, fft_settings_new blst_table k = Ok s -> 2 <= m <= k -> m <= 16 ->
  exists (samples : list (option Fr)) (out : list Fr),
    length samples = 2 ^ m /\ missing_count samples = 1 /\
    (forall q : list Fr, 2 * length q <= 2 ^ m -> exists i v, nth_error samples i = Some (Some v) /\ peval q (fpow (root m) i) <> v) /\
    recover_opt factor_table_len s samples = Ok out.
Proof. exact C47_proof. Qed.
Print Assumptions C47_codeword_check_refuted.
(** such settings exist *)
Example C47_ex : exists s, fft_settings_new blst_table 4 = Ok s.
Proof. destruct (new_ok 4 ltac:(lia)) as (s & E & _). exists s. exact E. Qed.
