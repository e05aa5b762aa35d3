(** * Properties C04 and C13-C19: field powers and polynomial arithmetic

    [peval], [coef], [convol] (Poly.v) are the mathematical evaluation, coefficient and
    product-coefficient functions; [fits n] says n <= 2^31; [euclid a b q] (Spec.v) says
    that q has length max(0, len a - len b + 1) and a = q*b + r with r shorter than b. *)
From Coq Require Import List Arith Lia ZArith NArith.
From Verif Require Import Base Fld Poly Zr ZrTables Spec Model_Poly Proof_Poly1 Proof_PolyFr.
Import ListNotations.

Theorem C04_pow : forall (x : Fr) (n : nat), fr_pow x n = Ok (fpow x n).
Proof. exact fr_pow_spec. Qed.
Print Assumptions C04_pow.
Example C04_pow_ex : match fr_pow (fr_of 3) 13 with Ok v => val v = (3 ^ 13)%Z | _ => False end.
Proof. vm_compute. reflexivity. Qed.

Theorem C13_eval : forall (p : list Fr) (x : Fr), length p <> 1 \/ x = f0 -> poly_eval p x = Ok (peval p x).
Proof. exact poly_eval_spec. Qed.
Print Assumptions C13_eval.
Example C13_eval_ex : match poly_eval [fr_of 1; fr_of 2; fr_of 3] (fr_of 10) with Ok v => val v = 321%Z | _ => False end.
Proof. vm_compute. reflexivity. Qed.

(** the normal form drops exactly the zeros at the top *)
Theorem C17_normal_form : forall p : list Fr,
  exists q, poly_norm p = Ok q /\ (exists z, p = q ++ repeat f0 z) /\ (q = [] \/ last q f0 <> f0).
Proof. exact poly_norm_spec. Qed.
Print Assumptions C17_normal_form.
Example C17_normal_form_ex : match poly_norm [fr_of 5; fr_of 0; fr_of 7; fr_of 0; fr_of 0] with Ok q => map val q = [5; 0; 7]%Z | _ => False end.
Proof. vm_compute. reflexivity. Qed.

(** evaluating a constant polynomial at a non-zero point does not give its value *)
Theorem C13_eval_constant_refuted : forall c x : Fr, x <> f0 -> poly_eval [c] x = Panic.
Proof. exact poly_eval_singleton_panics. Qed.
Print Assumptions C13_eval_constant_refuted.
Example C13_eval_constant_refuted_ex : match poly_eval [fr_of 7] (fr_of 1) with Panic => True | _ => False end.
Proof. vm_compute. exact I. Qed.

Theorem C14_mul_direct : forall (a b : list Fr) (len : nat),
  (a <> [] -> b <> [] ->
     exists c, mul_direct a b len = Ok c /\ length c = len /\
       forall k, k < len -> nth_error c k = Some (convol a b k)) /\
  (a = [] \/ b = [] -> mul_direct a b len = Ok []).
Proof. exact C14_proof. Qed.
Print Assumptions C14_mul_direct.

(** the product coefficients are those of the polynomial function x -> a(x) b(x) *)
Theorem C14_product_is_pointwise : forall (a b : list Fr) (x : Fr) (len : nat),
  length a + length b - 1 <= len -> a <> [] -> b <> [] ->
  match mul_direct a b len with Ok c => peval c x = fmul (peval a x) (peval b x) | _ => False end.
Proof. exact C14_pointwise_proof. Qed.
Print Assumptions C14_product_is_pointwise.
Example C14_mul_direct_ex :
  match mul_direct [fr_of 1; fr_of 2] [fr_of 3; fr_of 4; fr_of 5] 3, mul_direct [fr_of 1; fr_of 2] [fr_of 3] 4 with
  | Ok c, Ok d => map val c = [3; 10; 13]%Z /\ map val d = [3; 6; 0; 0]%Z | _, _ => False end.
Proof. vm_compute. split; reflexivity. Qed.

Theorem C15_mul_fft : forall (a b : list Fr) (len : nat),
  a <> [] -> b <> [] -> fits (length a + length b - 1) ->
  exists c, mul_fft blst_table a b len = Ok c /\ length c = len /\
    forall k, k < len -> nth_error c k = Some (convol a b k).
Proof. exact C15_proof. Qed.
Print Assumptions C15_mul_fft.
Theorem C15_mul_threshold_irrelevant : forall (a b : list Fr) (len : nat),
  fits (length a + length b - 1) -> poly_mul blst_table a b len = mul_direct a b len.
Proof. exact C15_threshold_proof. Qed.
Print Assumptions C15_mul_threshold_irrelevant.
Example C15_mul_fft_ex :
  match mul_fft blst_table [fr_of 1; fr_of 2] [fr_of 3; fr_of 4; fr_of 5] 6,
        mul_fft blst_table [fr_of 1; fr_of 2] [fr_of 3; fr_of 4; fr_of 5] 2 with
  | Ok c, Ok d => map val c = [3; 10; 13; 10; 0; 0]%Z /\ map val d = [3; 10]%Z | _, _ => False end.
Proof. vm_compute. split; reflexivity. Qed.

Theorem C16_inverse : forall (p : list Fr) (n : nat),
  (0 < n -> p <> [] -> coef p 0 <> f0 -> fits (length p + n - 1) -> fits (2 * n) ->
     exists c, poly_inverse blst_table p n = Ok c /\ length c = n /\
       convol p c 0 = f1 /\ forall k, 0 < k < n -> convol p c k = f0) /\
  (n = 0 \/ p = [] \/ coef p 0 = f0 -> poly_inverse blst_table p n = Err).
Proof. exact C16_proof. Qed.
Print Assumptions C16_inverse.
Example C16_inverse_ex :
  match poly_inverse blst_table [fr_of 1; fr_of 1] 6 with
  | Ok c => map val c = [1; r - 1; 1; r - 1; 1; r - 1]%Z | _ => False end.
Proof. vm_compute. reflexivity. Qed.

Theorem C17_long_div : forall (a b : list Fr),
  (b <> [] -> coef b (length b - 1) <> f0 ->
     exists q, long_div a b = Ok q /\ euclid a b q /\ forall q', euclid a b q' -> q' = q) /\
  (b = [] \/ coef b (length b - 1) = f0 -> long_div a b = Err).
Proof. exact C17_proof. Qed.
Print Assumptions C17_long_div.
Example C17_long_div_ex :
  match long_div [fr_of 5; fr_of 10; fr_of 13; fr_of 10] [fr_of 1; fr_of 2] with
  | Ok q => map val q = [3; 4; 5]%Z | _ => False end.
Proof. vm_compute. reflexivity. Qed.

Theorem C18_fast_div : forall (a b : list Fr), a <> [] -> fits (2 * length a) ->
  fast_div blst_table a b = long_div a b.
Proof. exact C18_fast_proof. Qed.
Print Assumptions C18_fast_div.
Theorem C18_div_threshold_irrelevant : forall (a b : list Fr), fits (2 * length a) ->
  poly_div blst_table a b = long_div a b.
Proof. exact C18_div_proof. Qed.
Print Assumptions C18_div_threshold_irrelevant.
(** the two differ on the empty dividend: fast_div subtracts 1 from its length *)
Theorem C18_empty_dividend_refuted : forall b : list Fr, b <> [] -> coef b (length b - 1) <> f0 ->
  fast_div blst_table [] b = Panic /\ long_div [] b = Ok [].
Proof. exact C18_empty_proof. Qed.
Print Assumptions C18_empty_dividend_refuted.
Example C18_fast_div_ex :
  match fast_div blst_table [fr_of 5; fr_of 10; fr_of 13; fr_of 10] [fr_of 1; fr_of 2] with
  | Ok q => map val q = [3; 4; 5]%Z | _ => False end.
Proof. vm_compute. reflexivity. Qed.

Theorem C19_scale_unscale : forall p : list Fr,
  (let* q := poly_scale p in poly_unscale q) = Ok p /\
  (let* q := poly_unscale p in poly_scale q) = Ok p.
Proof. exact C19_scale_proof. Qed.
Print Assumptions C19_scale_unscale.
Theorem C19_scale_effect : forall p : list Fr,
  exists q u, poly_scale p = Ok q /\ poly_unscale p = Ok u /\
    forall x : Fr, peval q x = fmul (fdiv f1 (fr_of 5)) (peval p (fdiv x (fr_of 5))) /\
                   peval u x = fmul (fr_of 5) (peval p (fmul (fr_of 5) x)).
Proof. exact C19_effect_proof. Qed.
Print Assumptions C19_scale_effect.
Example C19_scale_unscale_ex :
  match poly_unscale [fr_of 1; fr_of 2; fr_of 3] with Ok q => map val q = [5; 50; 375]%Z | _ => False end.
Proof. vm_compute. reflexivity. Qed.
