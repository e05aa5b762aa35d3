(** * Properties C36-C39: batch proofs

    [api_setup ks k n len s] as in Properties_KZG.v; [root m] is the embedded primitive
    2^m-th root of unity; [bitrev] reverses binary digits (Spec.v). *)
From Coq Require Import List Arith Lia ZArith Bool.
From Verif Require Import Base Fld Poly Model_Utils Model_FFT Zr ZrTables Spec Proof_FFTFr.
From Verif Require Import Model_KZG Spec_KZG Model_FK20 Proof_FK20Fr.
Import ListNotations.

(** settings with scale 3, a setup of eight elements and secret scalar 3 *)
Definition toy_settings3 : res (kzg_settings (toy_pairing Fr)) :=
  let* fs := fft_settings_new blst_table 3 in
  let* st := generate_trusted_setup (P := toy_pairing Fr) 8 (3 :: repeat 0 31)%Z in
  kzg_new blst_table (fst st) (snd st) 8 fs.

Theorem C36_batch_single : forall (P : pairing Fr) (ks : kzg_settings P) k n len s m (p : list Fr),
  api_setup ks k n len s -> S m <= k -> length p = 2 ^ m ->
  exists fk out, fk20_single_new blst_table ks (2 ^ S m) = Ok fk /\ fk20_single_da_opt fk p = Ok out /\
    length out = 2 ^ S m /\
    (forall i, i < 2 ^ S m ->
       exists pf, compute_proof_single blst_table ks p (fpow (root (S m)) i) = Ok pf /\ nth_error out i = Some pf) /\
    exists rev, fk20_single_da fk p = Ok rev /\ length rev = 2 ^ S m /\
      forall i, i < 2 ^ S m -> nth_error rev i = nth_error out (bitrev (S m) i).
Proof. exact @C36_proof. Qed.
Print Assumptions C36_batch_single.
(** 1 + 2X + 5X^2: the quotient at x is 5X + 5x + 2, so its value at the secret is 17 + 5x *)
Example C36_ex :
  match toy_settings3 with
  | Ok ks => match fk20_single_new blst_table ks 8 with
    | Ok fk => match fk20_single_da_opt fk [fr_of 1; fr_of 2; fr_of 5; fr_of 0] with
      | Ok out => map val out = map (fun i => (17 + 5 * val (fpow (root 3) i)) mod r)%Z (seq 0 8)
      | _ => False end
    | _ => False end
  | _ => False end.
Proof. vm_compute. reflexivity. Qed.

Theorem C37_batch_multi : forall (P : pairing Fr) (ks : kzg_settings P) k n len s m a (p : list Fr),
  api_setup ks k n len s -> S m <= k -> a <= m -> length p = 2 ^ m ->
  exists fk out, fk20_multi_new blst_table ks (2 ^ S m) (2 ^ a) = Ok fk /\ fk20_multi_da_opt fk p = Ok out /\
    length out = 2 ^ S (m - a) /\
    (forall i, i < 2 ^ S (m - a) ->
       exists pf, compute_proof_multi blst_table ks p (fpow (root (S m)) i) (2 ^ a) = Ok pf /\ nth_error out i = Some pf) /\
    exists rev, fk20_multi_da fk p = Ok rev /\ length rev = 2 ^ S (m - a) /\
      forall i, i < 2 ^ S (m - a) -> nth_error rev i = nth_error out (bitrev (S (m - a)) i).
Proof. exact @C37_proof. Qed.
Print Assumptions C37_batch_multi.
(** 1 + 2X + 5X^2 + 7X^3 by X^2 - y: the quotient is 7X + 5 for every y *)
Example C37_ex :
  match toy_settings3 with
  | Ok ks => match fk20_multi_new blst_table ks 8 2 with
    | Ok fk => match fk20_multi_da_opt fk [fr_of 1; fr_of 2; fr_of 5; fr_of 7] with
      | Ok out => map val out = [26; 26; 26; 26]%Z
      | _ => False end
    | _ => False end
  | _ => False end.
Proof. vm_compute. reflexivity. Qed.

Theorem C38_single_constructor : forall (P : pairing Fr) (ks : kzg_settings P) k n len s n2, api_setup ks k n len s ->
  (n2 <= 2 ^ k /\ (exists m, n2 = 2 ^ S m) -> exists fk, fk20_single_new blst_table ks n2 = Ok fk) /\
  (~ (n2 <= 2 ^ k /\ exists m, n2 = 2 ^ S m) -> fk20_single_new blst_table ks n2 = Err).
Proof. exact @C38_single_new_proof. Qed.
Print Assumptions C38_single_constructor.
Theorem C38_multi_constructor : forall (P : pairing Fr) (ks : kzg_settings P) k n len s n2 cl, api_setup ks k n len s ->
  (n2 <= 2 ^ k /\ (exists m a, n2 = 2 ^ S m /\ cl = 2 ^ a /\ a <= m) -> exists fk, fk20_multi_new blst_table ks n2 cl = Ok fk) /\
  (~ (n2 <= 2 ^ k /\ exists m a, n2 = 2 ^ S m /\ cl = 2 ^ a /\ a <= m) -> fk20_multi_new blst_table ks n2 cl = Err).
Proof. exact @C38_multi_new_proof. Qed.
Print Assumptions C38_multi_constructor.
Theorem C38_batch_errors : forall (P : pairing Fr) k n len s (fks : fk20_single P) (fkm : fk20_multi P) (p : list Fr),
  ~ (length p * 2 <= 2 ^ k /\ exists m, length p = 2 ^ m) ->
  (api_setup (fks_kzg fks) k n len s -> fk20_single_da_opt fks p = Err /\ fk20_single_da fks p = Err) /\
  (api_setup (fkm_kzg fkm) k n len s -> fk20_multi_da_opt fkm p = Err /\ fk20_multi_da fkm p = Err).
Proof. exact @C38_errors_proof. Qed.
Print Assumptions C38_batch_errors.
(** a polynomial longer than the batch settings were made for makes the call panic *)
Theorem C38_long_polynomial_refuted : forall (P : pairing Fr) (ks : kzg_settings P) k n len s m m' fk (p : list Fr),
  api_setup ks k n len s -> m < m' -> S m' <= k ->
  fk20_single_new blst_table ks (2 ^ S m) = Ok fk -> length p = 2 ^ m' ->
  fk20_single_da_opt fk p = Panic /\ fk20_single_da fk p = Panic.
Proof. exact @C38_long_single_proof. Qed.
Print Assumptions C38_long_polynomial_refuted.
Theorem C38_long_polynomial_multi_refuted : forall (P : pairing Fr) (ks : kzg_settings P) k n len s m m' a fk (p : list Fr),
  api_setup ks k n len s -> a <= m -> m < m' -> S m' <= k ->
  fk20_multi_new blst_table ks (2 ^ S m) (2 ^ a) = Ok fk -> length p = 2 ^ m' ->
  fk20_multi_da_opt fk p = Panic /\ fk20_multi_da fk p = Panic.
Proof. exact @C38_long_multi_proof. Qed.
Print Assumptions C38_long_polynomial_multi_refuted.
(** a shorter one is accepted, and the returned elements are not its proofs *)
Theorem C38_short_polynomial_refuted : forall (P : pairing Fr) (ks : kzg_settings P) k n len s fk (c : Fr),
  api_setup ks k n len s -> 2 <= k -> fk20_single_new blst_table ks 4 = Ok fk ->
  fk20_single_da_opt fk [c] = Ok [smul c gen1; smul c gen1] /\
  forall x, compute_proof_single blst_table ks [c] x = Ok g0.
Proof. exact @C38_short_proof. Qed.
Print Assumptions C38_short_polynomial_refuted.
(** with fewer coefficients than the chunk length the length computation underflows *)
Theorem C38_short_polynomial_multi_refuted : forall (P : pairing Fr) (ks : kzg_settings P) k n len s m a b fk (p : list Fr),
  api_setup ks k n len s -> S m <= k -> a <= m -> b < a ->
  fk20_multi_new blst_table ks (2 ^ S m) (2 ^ a) = Ok fk -> length p = 2 ^ b -> fk20_multi_da_opt fk p = Panic.
Proof. exact @C38_short_multi_proof. Qed.
Print Assumptions C38_short_polynomial_multi_refuted.
Example C38_ex :
  match toy_settings3 with
  | Ok ks => match fk20_single_new blst_table ks 4 with
    | Ok fk => match fk20_single_da_opt fk [fr_of 5], fk20_single_da_opt fk (repeat (fr_of 1) 4), fk20_single_da_opt fk (repeat (fr_of 1) 3) with
               | Ok out, Panic, Err => map val out = [5; 5]%Z | _, _, _ => False end
    | _ => False end
  | _ => False end.
Proof. vm_compute. reflexivity. Qed.

(** the pipeline multiplies by the circulant matrix of [c]: entry (i, j) is c_(i - j mod 2n) *)
Theorem C39_toeplitz_pipeline : forall (M : gmod Fr) k fs m (c : list Fr) (x : list M),
  fft_settings_new blst_table k = Ok fs -> S m <= k -> length c = 2 ^ S m -> length x = 2 ^ m ->
  (let* xe := toeplitz_part_1 fs x in let* h := toeplitz_part_2 fs c xe in toeplitz_part_3 fs h)
  = Ok (map (fun i => gsum (2 ^ m) (fun j => smul (coef c ((i + 2 ^ S m - j) mod 2 ^ S m)) (nth j x g0))) (seq 0 (2 ^ m))
        ++ repeat g0 (2 ^ m)).
Proof. exact C39_proof. Qed.
Print Assumptions C39_toeplitz_pipeline.
(** for a polynomial: upper-triangular Toeplitz matrix of its coefficients, corner entry zero *)
Theorem C39_toeplitz_matrix : forall (M : gmod Fr) k fs m (p : list Fr) (x : list M),
  fft_settings_new blst_table k = Ok fs -> S m <= k -> length p = 2 ^ m -> length x = 2 ^ m ->
  exists c, toeplitz_coeffs_step p = Ok c /\
  (let* xe := toeplitz_part_1 fs x in let* h := toeplitz_part_2 fs c xe in toeplitz_part_3 fs h)
  = Ok (map (fun i => gsum (2 ^ m) (fun j =>
         if (i =? j) || ((i <? j) && (j <? i + (2 ^ m - 1))) then smul (coef p (2 ^ m - 1 - (j - i))) (nth j x g0) else g0))
         (seq 0 (2 ^ m)) ++ repeat g0 (2 ^ m)).
Proof. exact toeplitz_step_proof. Qed.
Print Assumptions C39_toeplitz_matrix.
(** [1 2 3 4] against (10, 20, 30, 40): rows 4 3 2 0 / 0 4 3 2 / 0 0 4 3 / 0 0 0 4 *)
Example C39_ex :
  match fft_settings_new blst_table 3 with
  | Ok fs => match toeplitz_coeffs_step [fr_of 1; fr_of 2; fr_of 3; fr_of 4] with
    | Ok c => match (let* xe := toeplitz_part_1 (M := self_mod Fr) fs [fr_of 10; fr_of 20; fr_of 30; fr_of 40] in
                     let* h := toeplitz_part_2 fs c xe in toeplitz_part_3 fs h) with
              | Ok h => map val h = [160; 250; 240; 160; 0; 0; 0; 0]%Z | _ => False end
    | _ => False end
  | _ => False end.
Proof. vm_compute. reflexivity. Qed.
