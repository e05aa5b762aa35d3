(** * Properties_CkzgCalls: the functions of the ckzg crate around its calls into C (C114)

    [lib_ok], [p1_stands], [p2_stands] (Spec_Points.v, Spec_ZkConv.v) are the words of C110; [fr_lib_ok],
    [least_scale], [same_samples] and [seen] are in Spec_CkzgCalls.v.  A [Fault] is an access outside a buffer. *)
From Coq Require Import List Arith Bool ZArith NArith Lia.
From Verif Require Import Base Fld Zr Zp Spec_Scalar Model_Scalar Spec_Curve Model_Utils Model_Mcl Model_ZkConv Spec_ZkConv Model_Points Spec_Points Spec_G1 Spec_G2
  Proof_Points Model_Ckzg Model_CkzgCalls Spec_CkzgCalls Proof_CkzgCalls.
Import ListNotations.
Local Open Scope nat_scope.

(** ** multiples of the generator *)
Theorem C114_mcl_make_data : forall L n,
  lib_ok p1_stands L ->
  exists l, mcl_make_data L n = Ok l /\ length l = n /\
    forall i, i < n -> exists q, nth_error l i = Some q /\ p1_stands q (point_zmul (Z.of_nat i + 1) g1_gen).
Proof. exact @mcl_data. Qed.
Print Assumptions C114_mcl_make_data.
(** ckzg discards the sums: every entry is the generator *)
Theorem C114_make_data : forall L g n,
  ckzg_make_data L g n = Ok (repeat g n).
Proof. exact @ckzg_data. Qed.
Print Assumptions C114_make_data.
Theorem C114_make_data_refuted : forall L g n,
  lib_ok p1_stands L -> p1_stands g g1_gen -> 2 <= n ->
  exists l q, ckzg_make_data L g n = Ok l /\ nth_error l 1 = Some q /\ p1_stands q g1_gen /\ ~ p1_stands q (point_zmul 2 g1_gen).
Proof. exact @ckzg_data_refuted. Qed.
Print Assumptions C114_make_data_refuted.
Theorem C114_trusted_setup : forall L1 L2 F g1 g2 len secret,
  lib_ok p1_stands L1 -> lib_ok p2_stands L2 -> fr_lib_ok F -> p1_stands g1 g1_gen -> p2_stands g2 g2_gen ->
  is_bytes 32 secret ->
  exists s1 s2, ckzg_trusted_setup L1 L2 F g1 g2 len secret = Ok (s1, s2) /\ length s1 = len /\ length s2 = len /\
    forall i, i < len -> exists q1 q2, nth_error s1 i = Some q1 /\ nth_error s2 i = Some q2 /\
      p1_stands q1 (point_zmul (val (fpow (fr_of (bytes_val secret)) i)) g1_gen) /\ p2_stands q2 (point_zmul (val (fpow (fr_of (bytes_val secret)) i)) g2_gen).
Proof. exact @ckzg_setup. Qed.
Print Assumptions C114_trusted_setup.

Example C114_ex : lib_ok p1_stands blst_lib1 /\ lib_ok p2_stands blst_lib2 /\ fr_lib_ok case_fr /\
  p1_stands ark_g1_generator g1_gen /\ p2_stands ark_g2_generator g2_gen /\ is_bytes 32 (7%Z :: repeat 0%Z 31) /\ bytes_val (7%Z :: repeat 0%Z 31) = 7%Z.
Proof. exact calls_case. Qed.

(** ** sizes of products by transforms *)
Theorem C114_product_size : forall checked a b len,
  (a < 2 ^ 62)%N -> (b < 2 ^ 62)%N -> (0 < N.min a len + N.min b len)%N ->
  exists k, ckzg_poly_mul_scale checked a b len = Ok (k, len) /\ least_scale (N.min a len + N.min b len - 1) k.
Proof. exact @product_scale. Qed.
Print Assumptions C114_product_size.
(** two empty operands *)
Theorem C114_empty_product_refuted : forall a b len,
  (N.min a len + N.min b len = 0)%N ->
  ckzg_poly_mul_scale true a b len = Panic /\ ckzg_poly_mul_scale false a b len = Ok (0%N, len).
Proof. exact @product_empty. Qed.
Print Assumptions C114_empty_product_refuted.
Example C114_size_ex : ckzg_poly_mul_scale true 5 9 100 = Ok (4, 100)%N /\ ckzg_poly_mul_scale true 5 9 3 = Ok (3, 3)%N /\
  ckzg_poly_mul_scale false 0 0 7 = Ok (0, 7)%N /\ ckzg_poly_mul_scale true 4 4 0 = Panic.
Proof. repeat split; vm_compute; reflexivity. Qed.

(** ** buffers *)
(** the caller sees what the library computed, for all data of all lengths *)
Theorem C114_transforms : forall (A : Type) (d null : A) data,
  (forall C inverse, length (snd (C data inverse)) = length data -> ckzg_fft C d data inverse = Done (seen (C data inverse))) /\
  (forall C, length (snd (C data)) = length data -> ckzg_das C data = Done (seen (C data))) /\
  (forall C samples, let given := map (fun s => match s with Some v => v | None => null end) samples in
     length (snd (C given)) = length samples -> ckzg_recover C null d samples = Done (seen (C given))) /\
  (forall r len, length (snd r) = 2 * len -> ckzg_data_availability r d len = Done (seen r)).
Proof. exact @transforms. Qed.
Print Assumptions C114_transforms.
(** the number of values is stated separately: too large a number reads beyond the vector *)
Theorem C114_check_multi : forall (A : Type) (C : list A -> kzg_ret * bool) values n,
  (n <= length values -> ckzg_check_proof_multi C values n = Done (seen (C (firstn n values)))) /\
  (length values < n -> ckzg_check_proof_multi C values n = Fault BadAccess).
Proof. exact @check_multi. Qed.
Print Assumptions C114_check_multi.
Theorem C114_bound_transforms : forall (A : Type) (C : list A -> list A) n,
  (forall l, length (C l) = n) -> forall ret data stride,
  (n <= length ret -> (n - 1) * stride < length data ->
     exists l, ckzg_bound_fft_g1 C ret data stride n = Done l /\ length l = length ret /\ firstn n l = C (firstn ((n - 1) * stride + 1) data) /\ skipn n l = skipn n ret) /\
  (length ret < n \/ length data <= (n - 1) * stride -> ckzg_bound_fft_g1 C ret data stride n = Fault BadAccess).
Proof. exact @bound_transforms. Qed.
Print Assumptions C114_bound_transforms.
(** two of the four functions state 4096 whatever the lengths of the slices *)
Theorem C114_fixed_size_refuted : forall (A : Type) (C : list A -> list A),
  (forall l, length (C l) = 4096) -> forall ret data stride,
  length ret < 4096 \/ length data <= 4095 * stride -> ckzg_bound_fft_fr C ret data stride = Fault BadAccess.
Proof. exact @fixed_size. Qed.
Print Assumptions C114_fixed_size_refuted.
(** batch proofs in chunks: a tail of default points after the proofs *)
Theorem C114_multi_length_refuted : forall (A : Type) (d : A) w len chunk,
  length w * chunk = 2 * len -> 2 <= chunk -> 0 < len ->
  exists l, ckzg_data_availability (KzgOk, w) d len = Done (Some l) /\ length l = 2 * len /\ length w < length l /\
    firstn (length w) l = w /\ forall i, length w <= i < 2 * len -> nth_error l i = Some d.
Proof. exact @multi_length. Qed.
Print Assumptions C114_multi_length_refuted.
(** a sample equal to [Fr::null()] is taken as missing *)
Theorem C114_null_sample_refuted : forall (A : Type) (null d : A) l l' C,
  same_samples null l l' -> ckzg_recover C null d l = ckzg_recover C null d l'.
Proof. exact @null_samples. Qed.
Print Assumptions C114_null_sample_refuted.
Example C114_buffers_ex :
  ckzg_fft (fun l inv => (KzgOk, if inv : bool then rev l else l)) 0 [1; 2; 3; 4] true = Done (Some [4; 3; 2; 1]) /\
  ckzg_data_availability (KzgOk, [11; 12]) 0 4 = Done (Some [11; 12; 0; 0; 0; 0; 0; 0]) /\
  ckzg_recover (fun l => (KzgOk, l)) 99 0 [Some 5; None; Some 99] = Done (Some [5; 99; 99]) /\
  ckzg_check_proof_multi (fun l => (KzgOk, 3 =? length l)) [1; 2; 3; 4] 3 = Done (Some true) /\
  ckzg_check_proof_multi (fun l => (KzgOk, 3 =? length l)) [1; 2] 3 = Fault BadAccess /\
  ckzg_bound_fft_g1 (fun l => firstn 2 l) [0; 0; 7] [1; 2; 3] 2 2 = Done [1; 2; 7].
Proof. repeat split. Qed.
