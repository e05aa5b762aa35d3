(** * Properties_ParBackends: the parallel builds of zkcrypto, Arkworks and mcl (C106) *)
From Coq Require Import List Arith Bool NArith.
From Verif Require Import Base Fld Model_FFT Model_Das Model_Poly Model_ZeroPoly Zr Tables ZrTables Model_Scalar
  Conc Model_Par Model_Zk Model_ZkZero Model_ZkMsm Model_Ark Model_ArkZero Model_Mcl Model_MclPoly Model_MclZero
  Proof_Conc Proof_Par2 Model_ParBackends Proof_ParBackends Proof_ParTables Proof_ParRace.
Import ListNotations.

(** In each theorem [V] and [m] are the memory of the caller, which these functions do not
    touch; [t] is the way the thread pool cuts a parallel iteration. *)

(** ** zkcrypto *)
Theorem C106_zk_fft : forall (V : Type) (m : list V) (s : fft_settings Fr) data inverse,
  always_returns (zk_fft_fr_par s data inverse) m (zk_fft_fr s data inverse).
Proof. exact (fun V m s data inverse => runs_as_always _ _ m (runs_zk_fft_fr s data inverse)). Qed.
Print Assumptions C106_zk_fft.

Theorem C106_zk_das : forall (V : Type) (m : list V) (s : fft_settings Fr) val,
  always_returns (zk_das_par s val) m (zk_das_fft_extension s val).
Proof. exact (fun V m s val => runs_as_always _ _ m (runs_zk_das s val)). Qed.
Print Assumptions C106_zk_das.

Theorem C106_zk_mul_fft : forall (V : Type) (m : list V) (table : list Fr) out a b,
  always_returns (zk_mul_fft_par table out a b) m (zk_poly_mul_fft table out a b).
Proof. exact (fun V m table out a b => runs_as_always _ _ m (runs_zk_mul_fft table out a b)). Qed.
Print Assumptions C106_zk_mul_fft.

Theorem C106_zk_zero_poly : forall (V : Type) (m : list V) (s : fft_settings Fr) len missing,
  always_returns (zk_zero_poly_par s len missing) m (zk_zero_poly s len missing).
Proof. exact (fun V m s len missing => runs_as_always _ _ m (runs_zk_zero_poly s len missing)). Qed.
Print Assumptions C106_zk_zero_poly.

(** the sum of scalar multiples, for points of any type (group elements or the coordinates
    of the code) and scalars as words *)
Theorem C106_zk_msm : forall (V : Type) (m : list V) t (M : Type) (zero : M) add dbl points (scalars : list scalar),
  always_returns (msm_variable_base_par t zero add dbl is_zero is_one limb_digit points scalars) m
    (msm_variable_base zero add dbl is_zero is_one limb_digit points scalars).
Proof.
  exact (fun V m t M zero add dbl points scalars =>
    runs_as_always _ _ m (runs_msm zero add dbl is_zero is_one limb_digit pure_limb_digit t points scalars)).
Qed.
Print Assumptions C106_zk_msm.

(** ** Arkworks; [W] is the root of unity of the library *)
Theorem C106_ark_fft_g1 : forall (M : gmod Fr) (V : Type) (m : list V) (s : fft_settings Fr) (data : list M) inverse,
  always_returns (ark_fft_g1_par s data inverse) m (ark_fft_g1 s data inverse).
Proof. exact (fun M V m s data inverse => runs_as_always _ _ m (runs_ark_fft_g1 s data inverse)). Qed.
Print Assumptions C106_ark_fft_g1.

Theorem C106_ark_das : forall (V : Type) (m : list V) (s : fft_settings Fr) vals,
  always_returns (ark_das_par s vals) m (ark_das_fft_extension s vals).
Proof. exact (fun V m s vals => runs_as_always _ _ m (runs_ark_das s vals)). Qed.
Print Assumptions C106_ark_das.

Theorem C106_ark_mul_fft : forall (V : Type) (m : list V) (W : Fr) a b fs len,
  always_returns (ark_mul_fft_par W a b fs len) m (ark_mul_fft W a b fs len).
Proof. exact (fun V m W a b fs len => runs_as_always _ _ m (runs_ark_mul_fft W a b fs len)). Qed.
Print Assumptions C106_ark_mul_fft.

(** ** mcl *)
Theorem C106_mcl_fft : forall (V : Type) (m : list V) (s : fft_settings Fr) values inverse,
  always_returns (mcl_fft_par s values inverse) m (mcl_fft s values inverse).
Proof. exact (fun V m s values inverse => runs_as_always _ _ m (runs_mcl_fft s values inverse)). Qed.
Print Assumptions C106_mcl_fft.

Theorem C106_mcl_fft_g1 : forall (M : gmod Fr) (V : Type) (m : list V) (s : fft_settings Fr) (values : list M) inverse,
  always_returns (mcl_fft_g1_par s values inverse) m (mcl_fft_g1 s values inverse).
Proof. exact (fun M V m s values inverse => runs_as_always _ _ m (runs_mcl_fft_g1 s values inverse)). Qed.
Print Assumptions C106_mcl_fft_g1.

Theorem C106_mcl_das : forall (V : Type) (m : list V) (s : fft_settings Fr) values,
  always_returns (mcl_das_par s values) m (mcl_das_fft_extension s values).
Proof. exact (fun V m s values => runs_as_always _ _ m (runs_mcl_das s values)). Qed.
Print Assumptions C106_mcl_das.

Theorem C106_mcl_mul_fft : forall (V : Type) (m : list V) (pr5 : list Fr) a b ft len,
  always_returns (mcl_mul_fft_par pr5 a b ft len) m (mcl_mul_fft pr5 a b ft len).
Proof. exact (fun V m pr5 a b ft len => runs_as_always _ _ m (runs_mcl_mul_fft pr5 a b ft len)). Qed.
Print Assumptions C106_mcl_mul_fft.

Theorem C106_mcl_zero_poly : forall (V : Type) (m : list V) (s : fft_settings Fr) len missing,
  always_returns (mcl_zero_poly_par s len missing) m (mcl_zero_poly s len missing).
Proof. exact (fun V m s len missing => runs_as_always _ _ m (runs_mcl_zero_poly s len missing)). Qed.
Print Assumptions C106_mcl_zero_poly.

(** recovery, for vectors that fit in memory; the right side still has the tables of [tl]
    powers of this build, but no joins *)
Theorem C106_mcl_recover : forall (V : Type) (m : list V) tl (s : fft_settings Fr) samples,
  (N.of_nat (length samples) < 2 ^ 64)%N ->
  always_returns (mcl_recover_conc tl s samples) m (mcl_recover_par tl s samples).
Proof. exact (fun V m tl s samples => mcl_recover_conc_ok tl s samples m). Qed.
Print Assumptions C106_mcl_recover.

(** the joins are there: two transforms that start by forking, with two sides that can both
    move *)
Example C106_forks_ark : forall (M : gmod Fr) (data : list M) (roots : list Fr) m n rs, 1 <= length data -> 20 <= n ->
  exists (p q : proc _ unit) k, ark_fft_g1_fast_par (S n) 0 n data 1 roots rs = Fork p q k
  /\ (exists p' m', step p m p' m') /\ (exists q' m', step q m q' m').
Proof. exact (fun M => ark_both_move). Qed.
Example C106_forks_mcl : forall (values roots : list Fr) m n rs, 1028 <= n ->
  exists (p q : proc _ unit) k, mcl_fft_rec_par (S n) 0 n values 0 1 roots rs = Fork p q k
  /\ (exists p' m', step p m p' m') /\ (exists q' m', step q m q' m').
Proof. exact mcl_both_move. Qed.
