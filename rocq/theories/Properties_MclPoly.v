(** * Properties C57-C59: polynomial arithmetic of the mcl backend

    [coef], [convol], [peval] are the mathematical coefficient, product-coefficient and
    evaluation functions (Poly.v); [euclid a b q] (Spec.v) says that q has length
    max(0, len a - len b + 1) and a = q*b + r with r shorter than b.  [opt_made ft n]
    (Spec_Mcl.v) says that the optional settings [ft], when present, were built by
    a constructor and accept transforms of length n. *)
From Coq Require Import List Arith Lia ZArith NArith.
From Verif Require Import Base Fld Poly Zr ZrTables Spec Model_FFT Model_Poly Model_Mcl Spec_Mcl Model_MclPoly Proof_MclPolyFr.
Import ListNotations.

(** ** C57: multiplication *)
Theorem C57_mul_direct : forall (a b : list Fr) (len : nat),
  exists c, mcl_mul_direct a b len = Ok c /\ length c = len /\
    forall k, k < len -> nth_error c k = Some (convol a b k).
Proof. exact C57_direct_proof. Qed.
Print Assumptions C57_mul_direct.
Example C57_mul_direct_ex :
  match mcl_mul_direct [fr_of 1; fr_of 2] [fr_of 3; fr_of 4; fr_of 5] 3, mcl_mul_direct [fr_of 1; fr_of 2] [] 2 with
  | Ok c, Ok d => map val c = [3; 10; 13]%Z /\ map val d = [0; 0]%Z | _, _ => False end.
Proof. vm_compute. split; reflexivity. Qed.

Theorem C57_mul_direct_agrees : forall (a b : list Fr) (len : nat), a <> [] -> b <> [] ->
  mcl_mul_direct a b len = mul_direct a b len.
Proof. exact C57_direct_blst_proof. Qed.
Print Assumptions C57_mul_direct_agrees.

Theorem C57_mul_fft : forall (a b : list Fr) ft (len : nat), 0 < len -> a <> [] \/ b <> [] ->
  let n := Nat.min (length a) len + Nat.min (length b) len - 1 in
  (N.of_nat n <= 2 ^ 30)%N -> opt_made ft n ->
  mcl_mul_fft mcl_pr5_table a b ft len = mcl_mul_direct a b len.
Proof. exact C57_fft_proof. Qed.
Print Assumptions C57_mul_fft.
Example C57_mul_fft_ex :
  match mcl_mul_fft mcl_pr5_table [fr_of 1; fr_of 2] [fr_of 3; fr_of 4; fr_of 5] None 6,
        mcl_mul_fft mcl_pr5_table [fr_of 1; fr_of 2] [fr_of 3; fr_of 4; fr_of 5] None 2 with
  | Ok c, Ok d => map val c = [3; 10; 13; 10; 0; 0]%Z /\ map val d = [3; 10]%Z | _, _ => False end.
Proof. vm_compute. split; reflexivity. Qed.

Theorem C57_mul_threshold_irrelevant : forall (a b : list Fr) ft (len : nat),
  let n := Nat.min (length a) len + Nat.min (length b) len - 1 in
  (N.of_nat n <= 2 ^ 30)%N -> opt_made ft n ->
  mcl_mul_ mcl_pr5_table a b ft len = mcl_mul_direct a b len.
Proof. exact C57_mul_proof. Qed.
Print Assumptions C57_mul_threshold_irrelevant.

(** settings that are too small are reported *)
Theorem C57_narrow_settings : forall (a b : list Fr) s k w (len : nat), mcl_made s k w ->
  let n := Nat.min (length a) len + Nat.min (length b) len - 1 in
  (N.of_nat n <= 2 ^ 31)%N -> max_width s < n ->
  mcl_mul_fft mcl_pr5_table a b (Some s) len = Err.
Proof. exact C57_narrow_proof. Qed.
Print Assumptions C57_narrow_settings.

(** products longer than 2^30 come out negated *)
Theorem C57_long_product_refuted : exists (a b c d : list Fr) len,
  mcl_mul mcl_pr5_table a b len = Ok c /\ mcl_mul_direct a b len = Ok d /\ c <> d.
Proof. exact C57_refuted_proof. Qed.
Print Assumptions C57_long_product_refuted.

(** no coefficients wanted: a panic from one method, the empty product from the other *)
Theorem C57_zero_length_refuted : forall (a b : list Fr) ft,
  mcl_mul_fft mcl_pr5_table a b ft 0 = Panic /\ mcl_mul_ mcl_pr5_table a b ft 0 = Ok [].
Proof. exact C57_zero_len_proof. Qed.
Print Assumptions C57_zero_length_refuted.

(** ** C58: power-series inverse *)
Theorem C58_inverse : forall (p : list Fr) (n : nat),
  (0 < n -> p <> [] -> coef p 0 <> f0 -> (N.of_nat (2 * n - 1) <= 2 ^ 30)%N ->
     exists c, mcl_inverse mcl_pr5_table p n = Ok c /\ length c = n /\
       convol p c 0 = f1 /\ forall k, 0 < k < n -> convol p c k = f0) /\
  (0 < n -> p <> [] -> coef p 0 = f0 -> mcl_inverse mcl_pr5_table p n = Err) /\
  (n = 0 \/ p = [] -> mcl_inverse mcl_pr5_table p n = Ok []).
Proof. exact C58_proof. Qed.
Print Assumptions C58_inverse.
Example C58_inverse_ex :
  match mcl_inverse mcl_pr5_table [fr_of 1; fr_of 1] 5 with
  | Ok c => map val c = [1; r - 1; 1; r - 1; 1]%Z | _ => False end.
Proof. vm_compute. reflexivity. Qed.

(** ** C59: division *)
Theorem C59_long_division : forall (a b : list Fr),
  (b <> [] -> coef b (length b - 1) <> f0 ->
     exists q, mcl_long_division a b = Ok q /\ euclid a b q /\ forall q', euclid a b q' -> q' = q) /\
  (b = [] \/ coef b (length b - 1) = f0 -> mcl_long_division a b = Err).
Proof. exact C59_long_proof. Qed.
Print Assumptions C59_long_division.
Example C59_long_division_ex :
  match mcl_long_division [fr_of 5; fr_of 10; fr_of 13; fr_of 10] [fr_of 1; fr_of 2] with
  | Ok q => map val q = [3; 4; 5]%Z | _ => False end.
Proof. vm_compute. reflexivity. Qed.

Theorem C59_long_division_agrees : forall (a b : list Fr), mcl_long_division a b = long_div a b.
Proof. exact C59_long_blst_proof. Qed.
Print Assumptions C59_long_division_agrees.

Theorem C59_fast_div : forall (a b : list Fr), (N.of_nat (2 * length a) <= 2 ^ 30)%N ->
  mcl_fast_div mcl_pr5_table a b = mcl_long_division a b.
Proof. exact C59_fast_proof. Qed.
Print Assumptions C59_fast_div.
Example C59_fast_div_ex :
  match mcl_fast_div mcl_pr5_table [fr_of 5; fr_of 10; fr_of 13; fr_of 10] [fr_of 1; fr_of 2] with
  | Ok q => map val q = [3; 4; 5]%Z | _ => False end.
Proof. vm_compute. reflexivity. Qed.

(** the divisor may carry zero coefficients at the top *)
Theorem C59_div : forall (a b : list Fr), (N.of_nat (2 * length a) <= 2 ^ 30)%N ->
  ((forall i, coef b i = f0) -> mcl_poly_div mcl_pr5_table a b = Err) /\
  ((exists i, coef b i <> f0) -> exists b' q, mcl_poly_div mcl_pr5_table a b = Ok q /\
     (exists z, b = b' ++ repeat f0 z) /\ coef b' (length b' - 1) <> f0 /\ euclid a b' q).
Proof. exact C59_div_proof. Qed.
Print Assumptions C59_div.
Example C59_div_ex :
  match mcl_poly_div mcl_pr5_table [fr_of 5; fr_of 10; fr_of 13; fr_of 10] [fr_of 1; fr_of 2; fr_of 0] with
  | Ok q => map val q = [3; 4; 5]%Z | _ => False end.
Proof. vm_compute. reflexivity. Qed.
