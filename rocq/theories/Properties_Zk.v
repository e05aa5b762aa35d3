(** * Properties C65-C67: transforms and polynomial arithmetic of the zkcrypto backend

    [zk_table] is the table of root constants embedded in this backend, [root m] the
    primitive 2^m-th root of unity; [peval], [coef], [convol], [euclid] and [fits] as in
    [Properties_Poly.v]; [acceptable s n] (Spec.v) says that n is a power of two no larger
    than the width of s. *)
From Coq Require Import List Arith Lia ZArith.
From Verif Require Import Base Fld Poly Zr ZrTables Model_FFT Spec Spec_More Proof_FFTFr Model_Zk Proof_Zk Proof_ZkFr.
Import ListNotations.

Theorem C65_zk_settings_new : forall scale,
  (scale < 32 ->
   exists s w, zk_fft_settings_new zk_table scale = Ok s /\
     max_width s = 2 ^ scale /\ primitive w (2 ^ scale) /\ root_of_unity s = w /\
     length (expanded_roots s) = 2 ^ scale + 1 /\ length (reverse_roots s) = 2 ^ scale + 1 /\
     forall i, i <= 2 ^ scale ->
       nth_error (expanded_roots s) i = Some (fpow w i) /\
       nth_error (reverse_roots s) i = Some (fpow w (2 ^ scale - i)) /\
       fmul (fpow w i) (fpow w (2 ^ scale - i)) = f1) /\
  (32 <= scale -> zk_fft_settings_new zk_table scale = Err).
Proof. exact C65_settings_proof. Qed.
Print Assumptions C65_zk_settings_new.
Example C65_zk_settings_new_ex :
  match zk_fft_settings_new zk_table 1 with
  | Ok s => map val (expanded_roots s) = [1; r - 1; 1]%Z /\ map val (reverse_roots s) = [1; r - 1; 1]%Z
  | _ => False end.
Proof. vm_compute. split; reflexivity. Qed.

Theorem C65_zk_fft_fr : forall k s (data : list Fr),
  zk_fft_settings_new zk_table k = Ok s ->
  (forall m, m <= k -> length data = 2 ^ m ->
     exists out, zk_fft_fr s data false = Ok out /\ length out = 2 ^ m /\
       forall i, i < 2 ^ m -> nth_error out i = Some (peval data (fpow (root m) i))) /\
  (acceptable s (length data) ->
     (let* f := zk_fft_fr s data false in zk_fft_fr s f true) = Ok data /\
     (let* f := zk_fft_fr s data true in zk_fft_fr s f false) = Ok data) /\
  (~ acceptable s (length data) -> forall inverse, zk_fft_fr s data inverse = Err).
Proof. exact C65_fr_proof. Qed.
Print Assumptions C65_zk_fft_fr.
Example C65_zk_fft_fr_ex :
  match zk_fft_settings_new zk_table 2 with
  | Ok s => match zk_fft_fr s [fr_of 1; fr_of 2] false, zk_fft_fr s [fr_of 1; fr_of 2; fr_of 3] false with
            | Ok out, Err => map val out = [3; r - 1]%Z | _, _ => False end
  | _ => False end.
Proof. vm_compute. reflexivity. Qed.

Theorem C65_zk_fft_g1 : forall (M : gmod Fr) k s m (data : list M),
  zk_fft_settings_new zk_table k = Ok s -> m <= k -> length data = 2 ^ m ->
  exists out, zk_fft_g1 s data false = Ok out /\ length out = 2 ^ m /\
    (forall i, i < 2 ^ m ->
       nth_error out i = Some (gsum (2 ^ m) (fun j => smul (fpow (root m) (i * j)) (nth j data g0)))) /\
    zk_fft_g1 s out true = Ok data /\
    (exists inv, zk_fft_g1 s data true = Ok inv /\ zk_fft_g1 s inv false = Ok data).
Proof. exact C65_g1_proof. Qed.
Print Assumptions C65_zk_fft_g1.
Theorem C65_zk_fft_g1_arguments : forall (M : gmod Fr) k s (data : list M) inverse,
  zk_fft_settings_new zk_table k = Ok s -> ~ acceptable s (length data) -> zk_fft_g1 s data inverse = Err.
Proof. exact C65_g1_args_proof. Qed.
Print Assumptions C65_zk_fft_g1_arguments.
Example C65_zk_fft_g1_ex :
  match zk_fft_settings_new zk_table 2 with
  | Ok s => match zk_fft_g1 (M := self_mod Fr) s [fr_of 1; fr_of 2] false with Ok out => map val out = [3; r - 1]%Z | _ => False end
  | _ => False end.
Proof. vm_compute. reflexivity. Qed.

Theorem C65_zk_extension : forall k s m (evens : list Fr),
  zk_fft_settings_new zk_table k = Ok s -> m < k -> length evens = 2 ^ m ->
  exists odds p, zk_das_fft_extension s evens = Ok odds /\ length odds = 2 ^ m /\ length p = 2 ^ m /\
    (forall i, i < 2 ^ m ->
       nth_error evens i = Some (peval p (fpow (root (S m)) (2 * i))) /\
       nth_error odds i = Some (peval p (fpow (root (S m)) (2 * i + 1)))) /\
    zk_fft_fr s (interleave evens odds) true = Ok (p ++ repeat f0 (2 ^ m)) /\
    (forall odds' q, length odds' = 2 ^ m -> length q = 2 ^ m ->
       zk_fft_fr s (interleave evens odds') true = Ok (q ++ repeat f0 (2 ^ m)) -> odds' = odds).
Proof. exact C65_das_proof. Qed.
Print Assumptions C65_zk_extension.
Theorem C65_zk_extension_arguments : forall k s (evens : list Fr),
  zk_fft_settings_new zk_table k = Ok s ->
  ~ ((exists m, length evens = 2 ^ m) /\ 2 * length evens <= max_width s) -> zk_das_fft_extension s evens = Err.
Proof. exact C65_das_args_proof. Qed.
Print Assumptions C65_zk_extension_arguments.
Example C65_zk_extension_ex :
  match zk_fft_settings_new zk_table 1 with
  | Ok s => (match zk_das_fft_extension s [fr_of 7] with Ok o => map val o = [7%Z] | _ => False end) /\
            (match zk_das_fft_extension s [fr_of 7; fr_of 8] with Err => True | _ => False end) /\
            (match zk_das_fft_extension s [] with Err => True | _ => False end)
  | _ => False end.
Proof. vm_compute. repeat split. Qed.

(** settings made by [from_scale] carry a width but no roots: every transform of two or more values panics *)
Theorem C65_zk_from_scale_refuted : forall k s (data : list Fr) m inverse,
  zk_from_scale zk_table k = Ok s -> 0 < m <= k -> length data = 2 ^ m -> zk_fft_fr s data inverse = Panic.
Proof. exact C65_from_scale_proof. Qed.
Print Assumptions C65_zk_from_scale_refuted.
Example C65_zk_from_scale_refuted_ex :
  match zk_from_scale zk_table 3 with
  | Ok s => match zk_fft_fr s [fr_of 1; fr_of 2] false with Panic => True | _ => False end | _ => False end.
Proof. vm_compute. exact I. Qed.

(** settings made by the free function [new_fft_settings] ignore the requested scale and reject every transform *)
Theorem C65_zk_new_fft_settings_refuted : forall k (data : list Fr) inverse,
  zk_fft_fr (zk_new_fft_settings k) data inverse = Err.
Proof. exact C65_new_fft_settings_proof. Qed.
Print Assumptions C65_zk_new_fft_settings_refuted.
Example C65_zk_new_fft_settings_refuted_ex :
  match zk_fft_fr (zk_new_fft_settings 4) [fr_of 1; fr_of 2] false with Err => True | _ => False end.
Proof. vm_compute. exact I. Qed.

(** ** products, inverses, quotients *)
Theorem C66_zk_mul : forall (a b : list Fr) (len : nat),
  a <> [] -> b <> [] -> fits (length a + length b - 1) ->
  exists c, zk_poly_mul zk_table a b len = Ok c /\ zk_mul_direct a b len = Ok c /\ zk_poly_mul_fft zk_table len a b = Ok c /\
    length c = len /\ forall k, k < len -> nth_error c k = Some (convol a b k).
Proof. exact C66_mul_proof. Qed.
Print Assumptions C66_zk_mul.
Theorem C66_zk_mul_empty : forall (a b : list Fr) (len : nat),
  a = [] \/ b = [] ->
  zk_poly_mul zk_table a b len = Ok [] /\ zk_mul_direct a b len = Ok [].
Proof. exact C66_mul_empty_proof. Qed.
Print Assumptions C66_zk_mul_empty.
Example C66_zk_mul_ex :
  match zk_poly_mul_fft zk_table 6 [fr_of 1; fr_of 2] [fr_of 3; fr_of 4; fr_of 5],
        zk_poly_mul zk_table [fr_of 1; fr_of 2] [fr_of 3; fr_of 4; fr_of 5] 2 with
  | Ok c, Ok d => map val c = [3; 10; 13; 10; 0; 0]%Z /\ map val d = [3; 10]%Z | _, _ => False end.
Proof. vm_compute. split; reflexivity. Qed.

Theorem C66_zk_inverse : forall (p : list Fr) (n : nat),
  (0 < n -> p <> [] -> coef p 0 <> f0 -> fits (length p + n - 1) -> fits (2 * n) ->
     exists c, zk_poly_inverse zk_table p n = Ok c /\ length c = n /\
       convol p c 0 = f1 /\ forall k, 0 < k < n -> convol p c k = f0) /\
  (p = [] \/ coef p 0 = f0 -> zk_poly_inverse zk_table p n = Err).
Proof. exact C66_inverse_proof. Qed.
Print Assumptions C66_zk_inverse.
(** a requested length of zero is not rejected but panics *)
Theorem C66_zk_inverse_length_zero_refuted : forall (p : list Fr),
  coef p 0 <> f0 -> zk_poly_inverse zk_table p 0 = Panic.
Proof. exact C66_inverse_empty_proof. Qed.
Print Assumptions C66_zk_inverse_length_zero_refuted.
Example C66_zk_inverse_ex :
  match zk_poly_inverse zk_table [fr_of 1; fr_of 1] 6, zk_poly_inverse zk_table [fr_of 1; fr_of 1] 0 with
  | Ok c, Panic => map val c = [1; r - 1; 1; r - 1; 1; r - 1]%Z | _, _ => False end.
Proof. vm_compute. reflexivity. Qed.

Theorem C66_zk_long_div : forall (a b : list Fr),
  a <> [] -> coef b (length b - 1) <> f0 ->
  exists q, zk_long_div a b = Ok q /\ euclid a b q /\ forall q', euclid a b q' -> q' = q.
Proof. exact C66_long_proof. Qed.
Print Assumptions C66_zk_long_div.
Theorem C66_zk_fast_div : forall (a b : list Fr),
  a <> [] -> coef b (length b - 1) <> f0 -> fits (2 * length a) ->
  zk_fast_div zk_table a b = zk_long_div a b.
Proof. exact C66_fast_proof. Qed.
Print Assumptions C66_zk_fast_div.
Example C66_zk_long_div_ex :
  match zk_long_div [fr_of 5; fr_of 10; fr_of 13; fr_of 10] [fr_of 1; fr_of 2], zk_fast_div zk_table [fr_of 5; fr_of 10; fr_of 13; fr_of 10] [fr_of 1; fr_of 2] with
  | Ok q, Ok q' => map val q = [3; 4; 5]%Z /\ map val q' = [3; 4; 5]%Z | _, _ => False end.
Proof. vm_compute. split; reflexivity. Qed.

(** the division of the public interface drops zero coefficients at the top of both arguments first *)
Theorem C66_zk_div : forall (a b : list Fr),
  fits (2 * length a) -> (exists i, coef a i <> f0) -> (exists i, coef b i <> f0) ->
  exists a' b' q, zk_poly_div zk_table a b = Ok q /\ (exists z, a = a' ++ repeat f0 z) /\ (exists z, b = b' ++ repeat f0 z) /\
    last a' f0 <> f0 /\ last b' f0 <> f0 /\ euclid a' b' q.
Proof. exact C66_div_proof. Qed.
Print Assumptions C66_zk_div.
Example C66_zk_div_ex :
  match zk_poly_div zk_table [fr_of 5; fr_of 10; fr_of 13; fr_of 10; fr_of 0] [fr_of 1; fr_of 2; fr_of 0; fr_of 0] with
  | Ok q => map val q = [3; 4; 5]%Z | _ => False end.
Proof. vm_compute. reflexivity. Qed.

(** dividing the zero polynomial panics; dividing by the zero polynomial is an error *)
Theorem C66_zk_div_zero_refuted : forall (a b : list Fr),
  fits (2 * length a) ->
  ((forall i, coef b i = f0) -> zk_poly_div zk_table a b = Err) /\
  ((exists i, coef b i <> f0) -> (forall i, coef a i = f0) -> zk_poly_div zk_table a b = Panic).
Proof. exact C66_div_fail_proof. Qed.
Print Assumptions C66_zk_div_zero_refuted.
Example C66_zk_div_zero_refuted_ex :
  match zk_poly_div zk_table [fr_of 0] [fr_of 1; fr_of 2], zk_poly_div zk_table [fr_of 1] [fr_of 0] with
  | Panic, Err => True | _, _ => False end.
Proof. vm_compute. exact I. Qed.

(** a divisor stored with a zero top coefficient: long division silently returns zeros, fast division panics *)
Theorem C66_zk_zero_lead_refuted : forall (a b : list Fr),
  a <> [] -> b <> [] -> coef b (length b - 1) = f0 ->
  zk_long_div a b = Ok (repeat f0 (length a + 1 - length b)) /\
  (2 <= length b <= length a -> zk_fast_div zk_table a b = Panic).
Proof. exact C66_zero_lead_proof. Qed.
Print Assumptions C66_zk_zero_lead_refuted.
Example C66_zk_zero_lead_refuted_ex :
  match zk_long_div [fr_of 5; fr_of 10; fr_of 13] [fr_of 1; fr_of 0], zk_fast_div zk_table [fr_of 5; fr_of 10; fr_of 13] [fr_of 1; fr_of 0] with
  | Ok q, Panic => map val q = [0; 0]%Z | _, _ => False end.
Proof. vm_compute. reflexivity. Qed.

(** ** scaling, normal form, degree, division by a linear factor *)
Theorem C67_zk_scale_unscale : forall (p : list Fr),
  exists q u, zk_poly_scale p = Ok q /\ zk_poly_unscale p = Ok u /\ zk_poly_unscale q = Ok p /\ zk_poly_scale u = Ok p /\
    forall x : Fr, peval q x = fmul (fdiv f1 (fr_of 5)) (peval p (fdiv x (fr_of 5))) /\
                   peval u x = fmul (fr_of 5) (peval p (fmul (fr_of 5) x)).
Proof. exact C67_scale_proof. Qed.
Print Assumptions C67_zk_scale_unscale.
Example C67_zk_scale_unscale_ex :
  match zk_poly_unscale [fr_of 1; fr_of 2; fr_of 3] with Ok q => map val q = [5; 50; 375]%Z | _ => False end.
Proof. vm_compute. reflexivity. Qed.

(** building a polynomial from coefficients drops exactly the zeros at the top *)
Theorem C67_zk_from_coefficients : forall p : list Fr,
  exists q, zk_from_coefficients p = Ok q /\ (exists z, p = q ++ repeat f0 z) /\ (q = [] \/ last q f0 <> f0).
Proof. exact C67_from_coefficients_proof. Qed.
Print Assumptions C67_zk_from_coefficients.

(** the degree; a stored zero top coefficient on a non-zero polynomial is a panic *)
Theorem C67_zk_degree : forall p : list Fr,
  ((forall i, coef p i = f0) -> zk_degree p = Ok 0) /\
  (last p f0 <> f0 -> zk_degree p = Ok (length p - 1)) /\
  (last p f0 = f0 -> (exists i, coef p i <> f0) -> zk_degree p = Panic).
Proof. exact zk_degree_spec. Qed.
Print Assumptions C67_zk_degree.
Example C67_zk_degree_ex :
  match zk_from_coefficients [fr_of 4; fr_of 0; fr_of 7; fr_of 0] with
  | Ok q => map val q = [4; 0; 7]%Z /\ zk_degree q = Ok 2 | _ => False end /\
  zk_degree [fr_of 4; fr_of 0] = Panic.
Proof. vm_compute. repeat split. Qed.

(** division by x - z: p(x) = (x - z) q(x) + p(z), for every polynomial in normal form *)
Theorem C67_zk_ruffini : forall (p : list Fr) (z : Fr), last p f0 <> f0 \/ (forall i, coef p i = f0) ->
  exists q, zk_ruffini p z = Ok q /\ (q = [] \/ last q f0 <> f0) /\
    (forall x, peval p x = fadd (fmul (fsub x z) (peval q x)) (peval p z)) /\
    coef p 0 = fsub (peval p z) (fmul z (coef q 0)) /\
    (forall k, coef p (S k) = fsub (coef q k) (fmul z (coef q (S k)))).
Proof. exact C67_ruffini_proof. Qed.
Print Assumptions C67_zk_ruffini.
Theorem C67_zk_ruffini_refuted : forall (p : list Fr) (z : Fr),
  last p f0 = f0 -> (exists i, coef p i <> f0) -> zk_ruffini p z = Panic.
Proof. exact zk_ruffini_panics. Qed.
Print Assumptions C67_zk_ruffini_refuted.
Example C67_zk_ruffini_ex :
  match zk_ruffini [fr_of 6; fr_of (-5); fr_of 1] (fr_of 2) with Ok q => map val q = [r - 3; 1]%Z | _ => False end.
Proof. vm_compute. reflexivity. Qed.
