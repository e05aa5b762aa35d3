(** * Further theorems for C15, C61, C65, C67, C117 and C120: methods that only call another
    one, and default values

    [peval] and [convol] (Poly.v), [fits] (Spec.v) as in [Properties_Poly.v]. *)
From Coq Require Import List Arith Lia ZArith.
From Verif Require Import Base Fld Poly Zr ZrTables Spec Model_FFT Proof_FFTFr Model_Poly Proof_Poly1 Proof_PolyFr
  Model_Zk Model_Scalar Spec_Scalar Model_PrimeField Model_KZG Model_MclCurve Model_MclZero Proof_Rest.
Import ListNotations.

(** the method of the settings swaps its operands *)
Theorem C15_settings_mul_fft : forall (a b : list Fr) (len : nat),
  a <> [] -> b <> [] -> fits (length a + length b - 1) ->
  exists c, poly_mul_fft blst_table a b len = Ok c /\ length c = len /\
    forall k, k < len -> nth_error c k = Some (convol a b k).
Proof. exact poly_mul_fft_spec. Qed.
Print Assumptions C15_settings_mul_fft.
Example C15_settings_mul_fft_ex :
  match poly_mul_fft blst_table [fr_of 1; fr_of 2] [fr_of 3; fr_of 4; fr_of 5] 6 with
  | Ok c => map val c = [3; 10; 13; 10; 0; 0]%Z | _ => False end.
Proof. vm_compute. reflexivity. Qed.

(** absent samples become zero, the others are kept *)
Theorem C61_unwrap_default : forall (K : fld) (values : list (option K)),
  length (mcl_unwrap_default values) = length values /\
  forall i, (forall v, nth_error values i = Some (Some v) -> nth_error (mcl_unwrap_default values) i = Some v) /\
            (nth_error values i = Some None -> nth_error (mcl_unwrap_default values) i = Some f0).
Proof. exact @unwrap_default_spec. Qed.
Print Assumptions C61_unwrap_default.
Example C61_unwrap_default_ex : map val (mcl_unwrap_default [Some (fr_of 4); None; Some (fr_of 2)]) = [4; 0; 2]%Z.
Proof. vm_compute. reflexivity. Qed.

(** the quadratic transforms of zkcrypto *)
Theorem C65_zk_fft_fr_slow : forall (K : fld) (w : K) m (ret1 ret2 data roots : list K) rs,
  primitive w (2 ^ m) -> length data = 2 ^ m -> length ret1 = 2 ^ m -> length ret2 = 2 ^ m ->
  (forall i, i < 2 ^ m -> nth_error roots (i * rs) = Some (fpow w i)) ->
  exists out, fft_fr_fast ret1 data 1 roots rs = Ok out /\ zk_fft_fr_slow ret2 data 1 roots rs = Ok out /\
    length out = 2 ^ m /\ forall i, i < 2 ^ m -> nth_error out i = Some (peval data (fpow w i)).
Proof. exact C09_proof. Qed.
Print Assumptions C65_zk_fft_fr_slow.
Theorem C65_zk_fft_g1_slow : forall (K : fld) (M : gmod K) (w : K) m (ret1 ret2 data : list M) (roots : list K) rs,
  primitive w (2 ^ m) -> length data = 2 ^ m -> length ret1 = 2 ^ m -> length ret2 = 2 ^ m ->
  (forall i, i < 2 ^ m -> nth_error roots (i * rs) = Some (fpow w i)) ->
  exists out, fft_g1_fast ret1 data 1 roots rs = Ok out /\ zk_fft_g1_slow ret2 data 1 roots rs = Ok out.
Proof. exact C10_slow_proof. Qed.
Print Assumptions C65_zk_fft_g1_slow.
Example C65_zk_slow_ex :
  match zk_fft_fr_slow [fr_of 9; fr_of 9] [fr_of 1; fr_of 2] 1 [fr_of 1; fr_of (-1)] 1 with
  | Ok o => map val o = [3; r - 1]%Z | _ => False end.
Proof. vm_compute. reflexivity. Qed.

(** evaluation and powers in zkcrypto; a constant cannot be evaluated at a point other than zero *)
Theorem C67_zk_eval : forall (p : list Fr) (x : Fr), length p <> 1 \/ x = f0 -> zk_poly_eval p x = Ok (peval p x).
Proof. exact poly_eval_spec. Qed.
Print Assumptions C67_zk_eval.
Theorem C67_zk_eval_constant_refuted : forall c x : Fr, x <> f0 -> zk_poly_eval [c] x = Panic.
Proof. exact poly_eval_singleton_panics. Qed.
Print Assumptions C67_zk_eval_constant_refuted.
Theorem C67_zk_pow : forall (x : Fr) (n : nat), zkf_pow x n = Ok (fpow x n).
Proof. exact fr_pow_spec. Qed.
Print Assumptions C67_zk_pow.
Example C67_zk_eval_ex :
  match zk_poly_eval [fr_of 1; fr_of 2; fr_of 3] (fr_of 10), zk_poly_eval [fr_of 7] (fr_of 1), zkf_pow (fr_of 3) 13 with
  | Ok v, Panic, Ok q => val v = 321%Z /\ val q = (3 ^ 13)%Z | _, _, _ => False end.
Proof. vm_compute. split; reflexivity. Qed.

Theorem C117_default : represents scalar_default f0.
Proof. exact scalar_default_spec. Qed.
Print Assumptions C117_default.

(** the default curve is the one without points *)
Theorem C120_default : forall (K : fld) (P : pairing K) (s : K),
  curve_new s 0 = Ok (curve_default (P := P)) /\ forall sg1 sg2, curve_new2 sg1 sg2 0 = Ok (curve_default (P := P)).
Proof. exact @curve_default_spec. Qed.
Print Assumptions C120_default.
