(** * Properties C11-C12: data-availability extension *)
From Coq Require Import List Arith Lia ZArith.
From Verif Require Import Base Fld Poly Zr ZrTables Model_FFT Spec Proof_FFTFr Model_Das Proof_DasFr.
Import ListNotations.

Theorem C11_extension : forall k s m (evens : list Fr),
  fft_settings_new blst_table k = Ok s -> m < k -> length evens = 2 ^ m ->
  exists odds p, das_fft_extension s evens = Ok odds /\ length odds = 2 ^ m /\ length p = 2 ^ m /\
    (forall i, i < 2 ^ m ->
       nth_error evens i = Some (peval p (fpow (root (S m)) (2 * i))) /\
       nth_error odds i = Some (peval p (fpow (root (S m)) (2 * i + 1)))) /\
    fft_fr s (interleave evens odds) true = Ok (p ++ repeat f0 (2 ^ m)) /\
    (forall odds' q, length odds' = 2 ^ m -> length q = 2 ^ m ->
       fft_fr s (interleave evens odds') true = Ok (q ++ repeat f0 (2 ^ m)) -> odds' = odds).
Proof. exact C11_proof. Qed.
Print Assumptions C11_extension.
Example C11_ex :
  match fft_settings_new blst_table 3 with
  | Ok s => match das_fft_extension s [fr_of 1; fr_of 4; fr_of 1; fr_of 4] with
            | Ok o => match fft_fr s (interleave [fr_of 1; fr_of 4; fr_of 1; fr_of 4] o) true with
                      | Ok c => skipn 4 (map val c) = [0; 0; 0; 0]%Z /\ map val o <> [1; 4; 1; 4]%Z
                      | _ => False end
            | _ => False end
  | _ => False end.
Proof. vm_compute. split; [reflexivity|discriminate]. Qed.

Theorem C12_arguments : forall k s (evens : list Fr),
  fft_settings_new blst_table k = Ok s ->
  ((exists m, length evens = 2 ^ m) /\ 2 * length evens <= max_width s ->
     exists odds, das_fft_extension s evens = Ok odds /\ length odds = length evens) /\
  (~ ((exists m, length evens = 2 ^ m) /\ 2 * length evens <= max_width s) -> das_fft_extension s evens = Err).
Proof. exact C12_proof. Qed.
Print Assumptions C12_arguments.
Example C12_ex :
  match fft_settings_new blst_table 1 with
  | Ok s => (match das_fft_extension s [fr_of 7] with Ok o => map val o = [7%Z] | _ => False end) /\
            (match das_fft_extension s [fr_of 7; fr_of 8] with Err => True | _ => False end) /\
            (match das_fft_extension s [] with Err => True | _ => False end)
  | _ => False end.
Proof. vm_compute. repeat split. Qed.
