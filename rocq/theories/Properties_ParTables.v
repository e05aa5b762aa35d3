(** * Properties_ParTables: the process-wide tables of scale factors in the parallel builds
    of zkcrypto and Arkworks (C107) *)
From Coq Require Import ZArith List Arith Bool NArith.
From Verif Require Import Base Fld Zr Tables ZrTables Model_FFT Model_Recovery Conc Model_Zk Model_ZkZero Model_Ark Model_ArkZero
  Proof_Conc Model_ParBackends Spec_ParTables Proof_ParTables Proof_ParRace Proof_ParRaceFr Spec_More Proof_FFTFr.
Import ListNotations.

(** Cells 0 and 1 of the memory are the tables, [c] and [c + 1] the polynomials of the call.
    [tables_ready] allows tables of any length, in particular none. *)

(** ** One call at a time *)
Theorem C107_zk_recover : forall c (s : fft_settings Fr) samples m,
  2 <= c -> (N.of_nat (length samples) < 2 ^ 64)%N -> tables_ready c m ->
  always_returns (zk_recover_par c s samples) m (zk_recover s samples)
  /\ (forall r m', steps (zk_recover_par c s samples) m (Ret r) m' -> tables_ready c m').
Proof. exact zk_recover_par_ok. Qed.
Print Assumptions C107_zk_recover.

Theorem C107_ark_recover : forall (W : Fr) c (s : fft_settings Fr) samples m, 2 <= c -> tables_ready c m ->
  always_returns (ark_recover_par W c s samples) m (ark_recover W s samples)
  /\ (forall r m', steps (ark_recover_par W c s samples) m (Ret r) m' -> tables_ready c m').
Proof. exact ark_recover_par_ok. Qed.
Print Assumptions C107_ark_recover.

Theorem C107_scale : forall c cell (p : list Fr) m, 2 <= cell -> cell <= c + 1 -> p <> [] ->
  (N.of_nat (length p) < 2 ^ 63)%N -> tables_ready c m ->
  always_returns (call (scale_par cell p)) m (Ok (scaled_by (finv (fnat 5)) p))
  /\ (forall r m', steps (call (scale_par cell p)) m (Ret r) m' -> tables_ready c m').
Proof. exact fr_scale_call. Qed.
Print Assumptions C107_scale.

Theorem C107_unscale : forall c cell (p : list Fr) m, 2 <= cell -> cell <= c + 1 -> tables_ready c m ->
  always_returns (call (unscale_par cell p)) m (Ok (scaled_by (fnat 5) p))
  /\ (forall r m', steps (call (unscale_par cell p)) m (Ret r) m' -> tables_ready c m').
Proof. exact unscale_call_ok. Qed.
Print Assumptions C107_unscale.

(** any number of calls one after the other, starting with empty tables: each returns what
    it returns in the sequential build *)
Theorem C107_session : forall calls : list (fft_settings Fr * list (option Fr)),
  (forall s samples, In (s, samples) calls -> (N.of_nat (length samples) < 2 ^ 64)%N) ->
  always_returns (zk_session_par 2 calls) fresh_memory (zk_session calls).
Proof. exact zk_session_ok. Qed.
Print Assumptions C107_session.

Example C107_ready_ex : tables_ready 2 (@fresh_memory Fr) /\
  tables_ready 2 [powers (finv (fnat 5 : Fr)) 3; powers (fnat 5) 1; []; []] /\
  ~ tables_ready 2 [[f1; f1]; []; []; ([] : list Fr)].
Proof. exact ready_case. Qed.

Example C107_session_ex :
  match zk_fft_settings_new zk_table 2, zk_fft_settings_new zk_table 1 with
  | Ok s2, Ok s1 =>
      match run (zk_session_par 2 [(s1, [Some (fr_of 4); None]); (s2, [Some (fr_of 4); None; Some (fr_of 2); None])]) fresh_memory with
      | Some (Ok [d1; d2], [t1; t2; _; _]) =>
          map val d1 = [4; 4]%Z /\ map val d2 = [4; (3 + val (root 2)) mod r; 2; (3 - val (root 2)) mod r]%Z
          /\ length t1 = 4 /\ map val t2 = [1; 5; 25; 125]%Z
      | _ => False end
  | _, _ => False end.
Proof. vm_compute. repeat split. Qed.

(** ** Deviations *)

(** the empty polynomial, which the sequential build leaves as it is *)
Theorem C107_scale_empty_refuted : forall cell (m : list (list Fr)),
  zk_scale_poly ([] : list Fr) = Ok [] /\ always_returns (call (scale_par cell [])) m Panic.
Proof. exact fr_scale_empty. Qed.
Print Assumptions C107_scale_empty_refuted.

(** two calls at once in a fresh process may both push the first power: both leave their
    polynomials unscaled, and so does the table they leave *)
Theorem C107_race_refuted : forall a b x y : Fr,
  steps (two_scales 2 3 [a; b] [x; y]) fresh_memory (Ret ([a; fmul b f1], [x; fmul y f1]))
    [[f1; f1]; []; [a; fmul b f1]; [x; fmul y f1]].
Proof. exact fr_race. Qed.
Print Assumptions C107_race_refuted.

(** from then on every call for 2 to 1025 coefficients leaves the second one unscaled *)
Theorem C107_poisoned_refuted : forall cell (t q : list Fr) m, 1 <= cell -> cell < length m ->
  nth_error m 0 = Some (f1 :: f1 :: t) -> 2 <= length q -> length q <= 1025 ->
  exists q' t' m', always_returns (call (scale_par cell q)) m (Ok q')
    /\ (forall r m2, steps (call (scale_par cell q)) m (Ret r) m2 -> m2 = m')
    /\ nth_error q' 1 = nth_error q 1 /\ nth_error m' 0 = Some (f1 :: f1 :: t').
Proof. exact fr_poisoned. Qed.
Print Assumptions C107_poisoned_refuted.

(** ... and a recovery the sequential build performs panics under every schedule *)
Theorem C107_poisoned_recover_refuted : exists s, zk_fft_settings_new zk_table 1 = Ok s /\
  zk_recover s [Some (fr_of 4); None] = Ok [fr_of 4; fr_of 4] /\
  always_returns (zk_recover_par 2 s [Some (fr_of 4); None]) [[f1; f1]; []; []; []] Panic.
Proof. exact poisoned_recover. Qed.
Print Assumptions C107_poisoned_recover_refuted.
