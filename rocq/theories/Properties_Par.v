(** * Properties_Par: the parallel build (C40) *)
From Coq Require Import List Arith Bool.
From Verif Require Import Base Fld Model_FFT Model_Das Model_Poly Model_ZeroPoly Model_Recovery Zr Tables ZrTables
  Conc Model_Par Proof_Conc Proof_Par Proof_Par2.
Import ListNotations.

(** In each theorem [V] and [m] are the memory of the caller, which these functions do not
    touch; [t] is the way the thread pool cuts a parallel iteration. *)

Theorem C40_fft_fr : forall (V : Type) (m : list V) (s : fft_settings Fr) data inverse,
  always_returns (fft_fr_par s data inverse) m (fft_fr s data inverse).
Proof. exact (fun V m s data inverse => runs_as_always _ _ m (runs_fft_fr s data inverse)). Qed.
Print Assumptions C40_fft_fr.

Theorem C40_fft_g1 : forall (M : gmod Fr) (V : Type) (m : list V) (s : fft_settings Fr) (data : list M) inverse,
  always_returns (fft_g1_par s data inverse) m (fft_g1 s data inverse).
Proof. exact (fun M V m s data inverse => runs_as_always _ _ m (runs_fft_g1 s data inverse)). Qed.
Print Assumptions C40_fft_g1.

Theorem C40_das : forall (V : Type) (m : list V) (s : fft_settings Fr) evens,
  always_returns (das_fft_extension_par s evens) m (das_fft_extension s evens).
Proof. exact (fun V m s evens => runs_as_always _ _ m (runs_das s evens)). Qed.
Print Assumptions C40_das.

Theorem C40_mul_fft : forall (V : Type) (m : list V) (a b : list Fr) out,
  always_returns (mul_fft_par blst_table a b out) m (mul_fft blst_table a b out).
Proof. exact (fun V m a b out => runs_as_always _ _ m (runs_mul_fft blst_table a b out)). Qed.
Print Assumptions C40_mul_fft.

Theorem C40_zero_poly : forall (V : Type) (m : list V) t (s : fft_settings Fr) domain missing,
  always_returns (zero_poly_via_multiplication_par t s domain missing) m
    (zero_poly_via_multiplication s domain missing).
Proof. exact (fun V m t s domain missing => runs_as_always _ _ m (runs_zero_poly t s domain missing)). Qed.
Print Assumptions C40_zero_poly.

Theorem C40_recover : forall (V : Type) (m : list V) t (s : fft_settings Fr) samples n,
  always_returns (recover_null_par t fr_null factor_table_len s samples n) m
    (recover_null fr_null factor_table_len s samples n).
Proof. exact (fun V m t s samples n => runs_as_always _ _ m (runs_recover_null t fr_null factor_table_len s samples n)). Qed.
Print Assumptions C40_recover.

Theorem C40_recover_optional : forall (V : Type) (m : list V) t (s : fft_settings Fr) samples,
  always_returns (recover_opt_par t factor_table_len s samples) m (recover_opt factor_table_len s samples).
Proof. exact (fun V m t s samples => runs_as_always _ _ m (runs_recover_opt t factor_table_len s samples)). Qed.
Print Assumptions C40_recover_optional.

(** Nothing of the above is due to the absence of forks: the transform of an even number
    of more than 512 elements starts by forking, and the two sides can both move. *)
Example C40_forks : forall (data roots : list Fr) m n rs, 512 < length data -> n = length data -> Nat.even n = true ->
  exists (p q : proc _ unit) k, fft_fr_fast_par (S n) 0 n data 1 roots rs = Fork p q k
  /\ (exists p' m', step p m p' m') /\ (exists q' m', step q m q' m').
Proof. exact fork_both_move. Qed.

(** ... nor to a scheduler without choices: two tasks writing one cell have no single result. *)
Example C40_race : forall r, ~ always_returns racy [0] r.
Proof. exact racy_not_deterministic. Qed.
