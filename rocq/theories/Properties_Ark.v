(** * Properties C73-C75: transforms and polynomial arithmetic of the Arkworks backend

    [W] is the external library's root of unity of order 2^32; [lib_root W] (Spec_Ark.v)
    says that it squares to the last entry of the crate's own table.  [root m] is the
    primitive 2^m-th root of unity of the blst backend's table; [peval], [coef], [convol],
    [euclid] and [fits] as in [Properties_Poly.v]; [acceptable s n] (Spec.v) says that n is a
    power of two no larger than the width of s. *)
From Coq Require Import List Arith Lia ZArith.
From Verif Require Import Base Fld Poly Zr ZrTables Model_FFT Model_Das Spec Spec_More Spec_Ark Proof_FFTFr Model_Ark Proof_Ark Proof_ArkFr.
Import ListNotations.

(** the documented constant of ark-bls12-381 meets the assumption *)
Theorem C73_ark_library_root :
  lib_root (fr_of 10238227357739495823651030575849232062558860180284477541189508159991286009131).
Proof. exact ark_W_root. Qed.
Print Assumptions C73_ark_library_root.

Theorem C73_ark_settings_new : forall W, lib_root W -> forall scale,
  (scale < 32 ->
   exists s w, ark_settings_new W scale = Ok s /\ ark_from_scale W scale = Ok s /\ ark_settings_clone W s = Ok s /\
     max_width s = 2 ^ scale /\ primitive w (2 ^ scale) /\ root_of_unity s = w /\
     length (expanded_roots s) = 2 ^ scale + 1 /\ length (reverse_roots s) = 2 ^ scale + 1 /\
     forall i, i <= 2 ^ scale ->
       nth_error (expanded_roots s) i = Some (fpow w i) /\
       nth_error (reverse_roots s) i = Some (fpow w (2 ^ scale - i)) /\
       fmul (fpow w i) (fpow w (2 ^ scale - i)) = f1) /\
  (32 <= scale -> ark_settings_new W scale = Err /\ ark_from_scale W scale = Err).
Proof. exact C73_settings_proof. Qed.
Print Assumptions C73_ark_settings_new.
Example C73_ark_settings_new_ex :
  match ark_settings_new ark_W 1 with
  | Ok s => map val (expanded_roots s) = [1; r - 1; 1]%Z /\ map val (reverse_roots s) = [1; r - 1; 1]%Z
  | _ => False end.
Proof. rewrite !(anew ark_W ark_W_root). vm_compute. split; reflexivity. Qed.

(** settings, field transforms and extension coincide with those of the blst backend *)
Theorem C73_ark_same_as_blst : forall W, lib_root W -> forall scale s (data : list Fr) inverse,
  ark_settings_new W scale = fft_settings_new blst_table scale /\
  (fft_settings_new blst_table scale = Ok s ->
     ark_fft_fr W s data inverse = fft_fr s data inverse /\
     ark_das_fft_extension s data = das_fft_extension s data).
Proof. exact C73_same_proof. Qed.
Print Assumptions C73_ark_same_as_blst.
Example C73_ark_same_as_blst_ex :
  match ark_settings_new ark_W 2, fft_settings_new blst_table 2 with
  | Ok s, Ok t => map val (expanded_roots s) = map val (expanded_roots t) | _, _ => False end.
Proof. rewrite !(anew ark_W ark_W_root). vm_compute. reflexivity. Qed.

Theorem C73_ark_fft_fr : forall W, lib_root W -> forall k s (data : list Fr),
  ark_settings_new W k = Ok s ->
  (forall m, m <= k -> length data = 2 ^ m ->
     exists out, ark_fft_fr W s data false = Ok out /\ length out = 2 ^ m /\
       forall i, i < 2 ^ m -> nth_error out i = Some (peval data (fpow (root m) i))) /\
  (acceptable s (length data) ->
     (let* f := ark_fft_fr W s data false in ark_fft_fr W s f true) = Ok data /\
     (let* f := ark_fft_fr W s data true in ark_fft_fr W s f false) = Ok data) /\
  (~ acceptable s (length data) -> forall inverse, ark_fft_fr W s data inverse = Err).
Proof. exact C73_fr_proof. Qed.
Print Assumptions C73_ark_fft_fr.
Example C73_ark_fft_fr_ex :
  match ark_settings_new ark_W 2 with
  | Ok s => match ark_fft_fr ark_W s [fr_of 1; fr_of 2] false, ark_fft_fr ark_W s [fr_of 1; fr_of 2; fr_of 3] false with
            | Ok out, Err => map val out = [3; r - 1]%Z | _, _ => False end
  | _ => False end.
Proof. rewrite !(anew ark_W ark_W_root). vm_compute. reflexivity. Qed.

(** the buffer form ignores strides and roots; the buffer's length is the number of values wanted, and one longer than the data panics *)
Theorem C73_ark_fft_fr_fast : forall W, lib_root W -> forall m (ret data : list Fr) stride roots rs,
  m < 32 -> length data = 2 ^ m ->
  (length ret <= 2 ^ m ->
     exists out, ark_fft_fr_fast W ret data stride roots rs = Ok out /\ length out = length ret /\
       forall i, i < length ret -> nth_error out i = Some (peval data (fpow (root m) i))) /\
  (2 ^ m < length ret -> ark_fft_fr_fast W ret data stride roots rs = Panic).
Proof. exact C73_fast_proof. Qed.
Print Assumptions C73_ark_fft_fr_fast.
Theorem C73_ark_fft_fr_slow : forall (w : Fr) m (ret data roots : list Fr) rs,
  primitive w (2 ^ m) -> length data = 2 ^ m -> length ret = 2 ^ m ->
  (forall i, i < 2 ^ m -> nth_error roots (i * rs) = Some (fpow w i)) ->
  exists out, ark_fft_fr_slow ret data 1 roots rs = Ok out /\ length out = 2 ^ m /\
    forall i, i < 2 ^ m -> nth_error out i = Some (peval data (fpow w i)).
Proof. exact C73_slow_proof. Qed.
Print Assumptions C73_ark_fft_fr_slow.
Example C73_ark_fft_fr_fast_ex :
  match ark_fft_fr_fast ark_W [fr_of 9; fr_of 9] [fr_of 1; fr_of 2] 7 [] 0,
        ark_fft_fr_slow [fr_of 9; fr_of 9] [fr_of 1; fr_of 2] 1 [fr_of 1; fr_of (-1)] 1 with
  | Ok out, Ok out' => map val out = [3; r - 1]%Z /\ map val out' = [3; r - 1]%Z | _, _ => False end.
Proof. vm_compute. split; reflexivity. Qed.

Theorem C73_ark_fft_g1 : forall W, lib_root W -> forall (M : gmod Fr) k s m (data : list M),
  ark_settings_new W k = Ok s -> m <= k -> length data = 2 ^ m ->
  exists out, ark_fft_g1 s data false = Ok out /\ length out = 2 ^ m /\
    (forall i, i < 2 ^ m ->
       nth_error out i = Some (gsum (2 ^ m) (fun j => smul (fpow (root m) (i * j)) (nth j data g0)))) /\
    ark_fft_g1 s out true = Ok data /\
    (exists inv, ark_fft_g1 s data true = Ok inv /\ ark_fft_g1 s inv false = Ok data).
Proof. exact C73_g1_proof. Qed.
Print Assumptions C73_ark_fft_g1.
Theorem C73_ark_fft_g1_arguments : forall W, lib_root W -> forall (M : gmod Fr) k s (data : list M) inverse,
  ark_settings_new W k = Ok s -> ~ acceptable s (length data) -> ark_fft_g1 s data inverse = Err.
Proof. exact C73_g1_args_proof. Qed.
Print Assumptions C73_ark_fft_g1_arguments.
Example C73_ark_fft_g1_ex :
  match ark_settings_new ark_W 2 with
  | Ok s => match ark_fft_g1 (M := self_mod Fr) s [fr_of 1; fr_of 2] false, ark_fft_g1 (M := self_mod Fr) s [] false with
            | Ok out, Err => map val out = [3; r - 1]%Z | _, _ => False end
  | _ => False end.
Proof. rewrite !(anew ark_W ark_W_root). vm_compute. reflexivity. Qed.

Theorem C73_ark_fft_g1_slow : forall (M : gmod Fr) (w : Fr) n (ret data : list M) (roots : list Fr) rs,
  1 < n -> length ret = n -> length data = n -> fpow w n = f1 ->
  (forall i, i < n -> nth_error roots (i * rs) = Some (fpow w i)) ->
  exists out, ark_fft_g1_slow ret data 1 roots rs = Ok out /\ length out = n /\
    forall i, i < n -> nth_error out i = Some (gsum n (fun j => smul (fpow w (i * j)) (nth j data g0))).
Proof. exact C73_g1_slow_proof. Qed.
Print Assumptions C73_ark_fft_g1_slow.
(** with a single point the slow transform leaves the output buffer as it was *)
Theorem C73_ark_fft_g1_slow_single_refuted : forall (M : gmod Fr) (ret : list M) (d : M) stride w (roots : list Fr) rs,
  ark_fft_g1_slow ret [d] stride (w :: roots) rs = Ok ret.
Proof. exact (@ark_fft_g1_slow_one Fr). Qed.
Print Assumptions C73_ark_fft_g1_slow_single_refuted.
Example C73_ark_fft_g1_slow_ex :
  match ark_fft_g1_slow (M := self_mod Fr) [fr_of 0; fr_of 0] [fr_of 1; fr_of 2] 1 [fr_of 1; fr_of (-1)] 1,
        ark_fft_g1_slow (M := self_mod Fr) [fr_of 0] [fr_of 5] 1 [fr_of 1] 1 with
  | Ok out, Ok out' => map val out = [3; r - 1]%Z /\ map val out' = [0%Z] | _, _ => False end.
Proof. vm_compute. split; reflexivity. Qed.

Theorem C73_ark_extension : forall W, lib_root W -> forall k s m (evens : list Fr),
  ark_settings_new W k = Ok s -> m < k -> length evens = 2 ^ m ->
  exists odds p, ark_das_fft_extension s evens = Ok odds /\ length odds = 2 ^ m /\ length p = 2 ^ m /\
    (forall i, i < 2 ^ m ->
       nth_error evens i = Some (peval p (fpow (root (S m)) (2 * i))) /\
       nth_error odds i = Some (peval p (fpow (root (S m)) (2 * i + 1)))) /\
    ark_fft_fr W s (interleave evens odds) true = Ok (p ++ repeat f0 (2 ^ m)) /\
    (forall odds' q, length odds' = 2 ^ m -> length q = 2 ^ m ->
       ark_fft_fr W s (interleave evens odds') true = Ok (q ++ repeat f0 (2 ^ m)) -> odds' = odds).
Proof. exact C73_das_proof. Qed.
Print Assumptions C73_ark_extension.
Theorem C73_ark_extension_arguments : forall W, lib_root W -> forall k s (evens : list Fr),
  ark_settings_new W k = Ok s ->
  ~ ((exists m, length evens = 2 ^ m) /\ 2 * length evens <= max_width s) -> ark_das_fft_extension s evens = Err.
Proof. exact C73_das_args_proof. Qed.
Print Assumptions C73_ark_extension_arguments.
Example C73_ark_extension_ex :
  match ark_settings_new ark_W 1 with
  | Ok s => (match ark_das_fft_extension s [fr_of 7] with Ok o => map val o = [7%Z] | _ => False end) /\
            (match ark_das_fft_extension s [fr_of 7; fr_of 8] with Err => True | _ => False end) /\
            (match ark_das_fft_extension s [] with Err => True | _ => False end)
  | _ => False end.
Proof. rewrite !(anew ark_W ark_W_root). vm_compute. repeat split. Qed.

(** ** products, inverses, quotients *)
Theorem C74_ark_mul : forall W, lib_root W -> forall (a b : list Fr) (n : nat),
  (exists i, coef a i <> f0) -> (exists i, coef b i <> f0) -> fits (length a + length b - 1) ->
  exists c, ark_poly_mul W a b None n = Ok c /\ ark_mul_direct a b n = Ok c /\
    (0 < n -> ark_mul_fft W a b None n = Ok c) /\
    length c = n /\ forall k, k < n -> nth_error c k = Some (convol a b k).
Proof. exact C74_mul_proof. Qed.
Print Assumptions C74_ark_mul.
Theorem C74_ark_mul_settings : forall W, lib_root W -> forall (a b : list Fr) k s (n : nat),
  ark_settings_new W k = Ok s ->
  (exists i, coef a i <> f0) -> (exists i, coef b i <> f0) -> length a + length b - 1 <= 2 ^ k ->
  exists c, ark_poly_mul W a b (Some s) n = Ok c /\ (0 < n -> ark_mul_fft W a b (Some s) n = Ok c) /\
    length c = n /\ forall k, k < n -> nth_error c k = Some (convol a b k).
Proof. exact C74_mul_settings_proof. Qed.
Print Assumptions C74_ark_mul_settings.
(** settings that are too narrow are an error; without settings, a product beyond the largest transform panics *)
Theorem C74_ark_mul_limits : forall W, lib_root W -> forall (a b : list Fr) (n : nat),
  a <> [] -> b <> [] -> 0 < n -> (N.of_nat (length a + length b) <= 2 ^ 63)%N ->
  (forall k s, ark_settings_new W k = Ok s -> 2 ^ k < Nat.min (length a) n + Nat.min (length b) n - 1 ->
     ark_mul_fft W a b (Some s) n = Err) /\
  (~ fits (Nat.min (length a) n + Nat.min (length b) n - 1) -> ark_mul_fft W a b None n = Panic).
Proof. exact C74_mul_limits_proof. Qed.
Print Assumptions C74_ark_mul_limits.
Example C74_ark_mul_ex :
  match ark_mul_fft ark_W [fr_of 3; fr_of 4] [fr_of 2] None 3, ark_poly_mul ark_W [fr_of 1; fr_of 2] [fr_of 3; fr_of 4; fr_of 5] None 2 with
  | Ok c, Ok d => map val c = [6; 8; 0]%Z /\ map val d = [3; 10]%Z | _, _ => False end.
Proof. vm_compute. split; reflexivity. Qed.
Example C74_ark_mul_limits_ex :
  match ark_settings_new ark_W 1 with
  | Ok s => match ark_mul_fft ark_W [fr_of 1; fr_of 2] [fr_of 3; fr_of 4; fr_of 5] (Some s) 6 with Err => True | _ => False end
  | _ => False end.
Proof. rewrite !(anew ark_W ark_W_root). vm_compute. exact I. Qed.

(** a factor that is zero: the direct product is empty instead of the requested length, the transform product is padded *)
Theorem C74_ark_mul_zero_refuted : forall W, lib_root W -> forall (a b : list Fr) (n : nat),
  (forall i, coef a i = f0) \/ (forall i, coef b i = f0) ->
  ark_mul_direct a b n = Ok [] /\
  (a <> [] -> b <> [] -> 0 < n -> fits (length a + length b - 1) -> ark_mul_fft W a b None n = Ok (repeat f0 n)).
Proof. exact C74_mul_zero_proof. Qed.
Print Assumptions C74_ark_mul_zero_refuted.
(** a requested length of zero makes the transform product panic *)
Theorem C74_ark_mul_length_zero_refuted : forall W (a b : list Fr) fs, ark_mul_fft W a b fs 0 = Panic.
Proof. exact C74_mul_length_zero_proof. Qed.
Print Assumptions C74_ark_mul_length_zero_refuted.
Example C74_ark_mul_zero_refuted_ex :
  match ark_mul_direct [fr_of 0] [fr_of 1; fr_of 2] 2, ark_mul_fft ark_W [fr_of 1] [fr_of 1; fr_of 2] None 0 with
  | Ok c, Panic => map val c = [] | _, _ => False end.
Proof. vm_compute. reflexivity. Qed.

Theorem C74_ark_inverse : forall W, lib_root W -> forall (p : list Fr) (n : nat),
  (0 < n -> coef p 0 <> f0 -> length p = 1 \/ fits (2 * n - 1) ->
     exists c, ark_poly_inverse W p n = Ok c /\ length c = n /\
       convol p c 0 = f1 /\ forall k, 0 < k < n -> convol p c k = f0) /\
  (p = [] \/ coef p 0 = f0 -> ark_poly_inverse W p n = Err).
Proof. exact C74_inverse_proof. Qed.
Print Assumptions C74_ark_inverse.
(** a requested length of zero, or one too large for the largest transform, panics *)
Theorem C74_ark_inverse_length_refuted : forall W (p : list Fr) (n : nat), coef p 0 <> f0 ->
  n = 0 \/ (2 <= length p /\ ~ fits (2 * n - 1) /\ (N.of_nat (2 * n - 1) <= 2 ^ 63)%N) -> ark_poly_inverse W p n = Panic.
Proof. exact C74_inverse_panics_proof. Qed.
Print Assumptions C74_ark_inverse_length_refuted.
Example C74_ark_inverse_ex :
  match ark_poly_inverse ark_W [fr_of 1; fr_of 1] 6, ark_poly_inverse ark_W [fr_of 1; fr_of 1] 0 with
  | Ok c, Panic => map val c = [1; r - 1; 1; r - 1; 1; r - 1]%Z | _, _ => False end.
Proof. vm_compute. reflexivity. Qed.

(** long division first drops the zeros at the top of both arguments; a zero divisor panics *)
Theorem C74_ark_long_div : forall (a b : list Fr),
  ((exists i, coef a i <> f0) -> (exists i, coef b i <> f0) ->
   exists a' b' q, ark_long_div a b = Ok q /\ (exists z, a = a' ++ repeat f0 z) /\ (exists z, b = b' ++ repeat f0 z) /\
     last a' f0 <> f0 /\ last b' f0 <> f0 /\ euclid a' b' q /\ forall q', euclid a' b' q' -> q' = q) /\
  ((forall i, coef a i = f0) -> ark_long_div a b = Ok []) /\
  ((exists i, coef a i <> f0) -> (forall i, coef b i = f0) -> ark_long_div a b = Panic).
Proof. exact C74_long_proof. Qed.
Print Assumptions C74_ark_long_div.
Theorem C74_ark_fast_div : forall W, lib_root W -> forall (a b : list Fr),
  a <> [] -> coef b (length b - 1) <> f0 -> fits (2 * length a) ->
  length b = 1 \/ length a < length b \/ (exists i, coef a i <> f0) \/ 128 <= length a - length b + 1 ->
  exists q, ark_fast_div W a b = Ok q /\ euclid a b q /\ forall q', euclid a b q' -> q' = q.
Proof. exact C74_fast_proof. Qed.
Print Assumptions C74_ark_fast_div.
Example C74_ark_long_div_ex :
  match ark_long_div [fr_of 5; fr_of 10; fr_of 13; fr_of 10; fr_of 0] [fr_of 1; fr_of 2; fr_of 0],
        ark_fast_div ark_W [fr_of 5; fr_of 10; fr_of 13; fr_of 10] [fr_of 1; fr_of 2], ark_long_div [fr_of 1] [fr_of 0] with
  | Ok q, Ok q', Panic => map val q = [3; 4; 5]%Z /\ map val q' = [3; 4; 5]%Z | _, _, _ => False end.
Proof. vm_compute. split; reflexivity. Qed.
(** fast division of a stored zero polynomial panics when the quotient is short, and so does an empty dividend *)
Theorem C74_ark_fast_div_zero_refuted : forall W, lib_root W -> forall (a b : list Fr),
  (b = [] \/ coef b (length b - 1) = f0 -> ark_fast_div W a b = Err) /\
  (coef b (length b - 1) <> f0 -> ark_fast_div W [] b = Panic) /\
  (coef b (length b - 1) <> f0 -> (forall i, coef a i = f0) -> 2 <= length b <= length a -> length a - length b + 1 < 128 ->
     ark_fast_div W a b = Panic).
Proof. exact C74_fast_fail_proof. Qed.
Print Assumptions C74_ark_fast_div_zero_refuted.
Example C74_ark_fast_div_zero_refuted_ex :
  match ark_fast_div ark_W [fr_of 0; fr_of 0; fr_of 0] [fr_of 1; fr_of 2], ark_fast_div ark_W [] [fr_of 1; fr_of 2],
        ark_fast_div ark_W [fr_of 1] [fr_of 0] with
  | Panic, Panic, Err => True | _, _, _ => False end.
Proof. vm_compute. exact I. Qed.

(** the division of the public interface *)
Theorem C74_ark_div : forall W, lib_root W -> forall (a b : list Fr),
  coef b (length b - 1) <> f0 -> (exists i, coef a i <> f0) -> fits (2 * length a) ->
  exists q r, ark_poly_div W a b = Ok q /\ length q <= length a + 1 - length b /\ length r < length b /\
    forall k, coef a k = fadd (convol q b k) (coef r k).
Proof. exact C74_div_proof. Qed.
Print Assumptions C74_ark_div.
(** degenerate operands: whether a zero divisor is a panic or an error, and a zero dividend a panic or zero, depends on the lengths *)
Theorem C74_ark_div_zero_refuted : forall W, lib_root W -> forall (a b : list Fr),
  ((forall i, coef a i = f0) -> length a <= length b \/ length b < 128 -> ark_poly_div W a b = Ok []) /\
  ((forall i, coef a i = f0) -> 128 <= length b < length a -> coef b (length b - 1) <> f0 -> length a - length b + 1 < 128 ->
     ark_poly_div W a b = Panic) /\
  ((exists i, coef a i <> f0) -> (forall i, coef b i = f0) -> length a <= length b \/ length b < 128 -> ark_poly_div W a b = Panic) /\
  (128 <= length b < length a -> coef b (length b - 1) = f0 -> ark_poly_div W a b = Err).
Proof. exact C74_div_edges_proof. Qed.
Print Assumptions C74_ark_div_zero_refuted.
Example C74_ark_div_ex :
  match ark_poly_div ark_W [fr_of 5; fr_of 10; fr_of 13; fr_of 10] [fr_of 1; fr_of 2], ark_poly_div ark_W [fr_of 1] [fr_of 0],
        ark_poly_div ark_W (repeat (fr_of 0) 130) (repeat (fr_of 1) 128), ark_poly_div ark_W (repeat (fr_of 1) 130) (repeat (fr_of 0) 128) with
  | Ok q, Panic, Panic, Err => map val q = [3; 4; 5]%Z | _, _, _, _ => False end.
Proof. vm_compute. reflexivity. Qed.

(** ** scaling and evaluation *)
Theorem C75_ark_scale_unscale : forall (p : list Fr),
  exists q u, ark_scale_poly p = Ok q /\ ark_unscale_poly p = Ok u /\ ark_unscale_poly q = Ok p /\ ark_scale_poly u = Ok p /\
    length q = length p /\ length u = length p /\
    forall x : Fr, peval q x = peval p (fdiv x (fr_of 5)) /\ peval u x = peval p (fmul (fr_of 5) x).
Proof. exact C75_scale_proof. Qed.
Print Assumptions C75_ark_scale_unscale.
Theorem C75_ark_eval : forall (p : list Fr) (x : Fr), ark_poly_eval p x = Ok (peval p x).
Proof. exact (@ark_poly_eval_spec Fr). Qed.
Print Assumptions C75_ark_eval.
Example C75_ark_scale_unscale_ex :
  match ark_unscale_poly [fr_of 1; fr_of 2; fr_of 3], ark_poly_eval [fr_of 1; fr_of 2; fr_of 3; fr_of 0] (fr_of 10) with
  | Ok q, Ok v => map val q = [1; 10; 75]%Z /\ val v = 321%Z | _, _ => False end.
Proof. vm_compute. split; reflexivity. Qed.
