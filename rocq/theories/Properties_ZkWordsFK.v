(** * Properties_ZkWordsFK: transforms of points and batch proofs of the zkcrypto backend on machine words (C111, C112)

    [holds], [transform_point], [right_batch], [reversed], [multiplier] and the hypotheses on roots and
    multipliers are in Spec_ZkWordsFK.v; [zkw_setup] (Spec_ZkWords.v) says how the settings came about;
    [rounding_carries] (Spec_G1.v) are the scalars of property C87. [checked] : overflow panics. *)
From Coq Require Import List Arith ZArith NArith Bool.
From Verif Require Import Base Fld Tables Zr ZrTables Zp Poly Spec Spec_More Spec_Scalar Model_Scalar Spec_Curve Model_Curve Model_G1 Spec_CurveCode Spec_G1
  Model_FFT Model_Zk Model_ZkWords Spec_ZkWords Model_ZkWordsFK Spec_ZkWordsFK Proof_FFTFr Proof_ZkWordsTop Proof_ZkWordsFK.
Import ListNotations.
Local Open Scope nat_scope.

(** ** C111: transforms of points *)
Theorem C111_transform : forall checked k fs m data Ps inverse,
  zk_fft_settings_new zk_table k = Ok fs -> m <= k -> length data = 2 ^ m ->
  Forall2 g1_stands data Ps -> Forall g1_subgroup Ps -> safe_transform inverse m ->
  exists out, zkw_fft_g1 checked fs data inverse = Ok out /\ holds out (2 ^ m) (transform_point inverse m Ps).
Proof. exact @words_transform. Qed.
Print Assumptions C111_transform.
Theorem C111_round_trip : forall checked k fs m data Ps inverse,
  zk_fft_settings_new zk_table k = Ok fs -> m <= k -> length data = 2 ^ m ->
  Forall2 g1_stands data Ps -> Forall g1_subgroup Ps -> safe_transforms m ->
  exists out back, zkw_fft_g1 checked fs data inverse = Ok out /\ zkw_fft_g1 checked fs out (negb inverse) = Ok back /\ Forall2 g1_stands back Ps.
Proof. exact @words_round_trip. Qed.
Print Assumptions C111_round_trip.
Theorem C111_refusals : forall checked k fs data inverse,
  zk_fft_settings_new zk_table k = Ok fs -> ~ acceptable fs (length data) ->
  zkw_fft_g1 checked fs data inverse = Err.
Proof. exact @words_transform_errors. Qed.
Print Assumptions C111_refusals.
(** the quadratic transform computes the same sums *)
Theorem C111_slow : forall checked k fs m ret data Ps inverse,
  zk_fft_settings_new zk_table k = Ok fs -> m <= k -> length data = 2 ^ m -> length ret = 2 ^ m ->
  Forall2 g1_stands data Ps -> Forall g1_subgroup Ps -> Forall (fun w => exists Q, g1_subgroup Q /\ g1_stands w Q) ret ->
  (forall i, i < 2 ^ m -> ~ rounding_carries (val (fpow (transform_root inverse m) i))) ->
  exists out, zkw_fft_g1_slow checked ret data 1 (if inverse then reverse_roots fs else expanded_roots fs) (max_width fs / 2 ^ m) = Ok out /\
    holds out (2 ^ m) (fun i => point_sum (2 ^ m) (fun j => point_zmul (val (fpow (transform_root inverse m) (i * j))) (nth j Ps Infinity))).
Proof. exact @words_slow. Qed.
Print Assumptions C111_slow.
(** with overflow checks: a panic or the right points *)
Theorem C111_checked : forall k fs m data Ps inverse,
  zk_fft_settings_new zk_table k = Ok fs -> m <= k -> length data = 2 ^ m ->
  Forall2 g1_stands data Ps -> Forall g1_subgroup Ps ->
  zkw_fft_g1 true fs data inverse = Panic \/
  exists out, zkw_fft_g1 true fs data inverse = Ok out /\ holds out (2 ^ m) (transform_point inverse m Ps).
Proof. exact @words_transform_checked. Qed.
Print Assumptions C111_checked.
(** and a panic whenever a root of unity is one of those scalars *)
Theorem C111_carrying_root : forall k fs m data Ps inverse i,
  zk_fft_settings_new zk_table k = Ok fs -> m <= k -> length data = 2 ^ m ->
  Forall2 g1_stands data Ps -> Forall g1_subgroup Ps -> 1 <= m -> 2 * i < 2 ^ m -> rounding_carries (val (fpow (transform_root inverse m) i)) ->
  zkw_fft_g1 true fs data inverse = Panic.
Proof. exact @words_transform_panics. Qed.
Print Assumptions C111_carrying_root.
(** up to 64 points none is *)
Theorem C111_small : forall m,
  m <= 6 -> safe_transforms m.
Proof. exact @safe_small. Qed.
Print Assumptions C111_small.

Example C111_ex : (exists fs, zk_fft_settings_new zk_table 3 = Ok fs) /\ (exists data Ps, length data = 2 ^ 2 /\ Forall2 g1_stands data Ps /\ Forall g1_subgroup Ps /\
  nth 0 Ps Infinity = g1_gen /\ nth 1 Ps Infinity <> g1_gen) /\ safe_transforms 2.
Proof. split; [exact case_settings|]. split; [exact case_points|]. apply safe_small. repeat constructor. Qed.

(** ** C112: batch proofs *)
Theorem C112_single : forall checked ks k n s m p,
  zkw_setup checked ks k n s -> S m <= k -> 2 ^ m <= 1 + n -> length p = 2 ^ m ->
  safe_transforms (S m) -> safe_multipliers p m 1 ->
  exists fk out rev, zkw_fk20_single_new checked ks (2 ^ S m) = Ok fk /\
    zkw_fk20_single_da_opt checked fk p = Ok out /\ right_batch ks p m m 1 out /\
    zkw_fk20_single_da checked fk p = Ok rev /\ reversed m out rev.
Proof. exact @words_fk20_single. Qed.
Print Assumptions C112_single.
(** every proof of the batch is accepted with the right value and with no other *)
Theorem C112_single_accepted : forall checked ks k n s m ps p out i,
  zkw_setup checked ks k n s -> Forall2 represents ps p -> S m <= k -> length p = 2 ^ m -> 2 ^ m <= n -> 2 <= n ->
  (exists j, coef p j <> f0) -> right_batch ks p m m 1 out -> i < 2 ^ S m ->
  exists com w, zkw_commit_to_poly ks ps = Ok com /\ nth_error out i = Some w /\
    forall xs ys y, represents xs (fpow (root (S m)) i) -> represents ys y -> ~ rounding_carries (val y) ->
      zkw_check_proof_single checked ks com w xs ys = Ok (feqb y (peval p (fpow (root (S m)) i))).
Proof. exact @words_fk20_single_accepted. Qed.
Print Assumptions C112_single_accepted.
Theorem C112_multi : forall checked ks k n s m a p,
  zkw_setup checked ks k n s -> S m <= k -> a <= m -> 2 ^ m <= 2 ^ a + n -> length p = 2 ^ m ->
  safe_transforms (S (m - a)) -> safe_multipliers p (m - a) (2 ^ a) ->
  exists fk out rev, zkw_fk20_multi_new checked ks (2 ^ S m) (2 ^ a) = Ok fk /\
    zkw_fk20_multi_da_opt checked fk p = Ok out /\ right_batch ks p m (m - a) (2 ^ a) out /\
    zkw_fk20_multi_da checked fk p = Ok rev /\ reversed (m - a) out rev.
Proof. exact @words_fk20_multi. Qed.
Print Assumptions C112_multi.
Theorem C112_multi_accepted : forall checked ks k n s m a ps p out i,
  zkw_setup checked ks k n s -> Forall2 represents ps p -> S m <= k -> a <= m -> length p = 2 ^ m -> 2 ^ m <= n -> 2 ^ a < n ->
  (exists j, coef p j <> f0) -> right_batch ks p m (m - a) (2 ^ a) out -> i < 2 ^ S (m - a) ->
  exists com w, zkw_commit_to_poly ks ps = Ok com /\ nth_error out i = Some w /\
    zkw_check_proof_multi ks com w (fpow (root (S m)) i)
      (map (fun j => peval p (fmul (fpow (root (S m)) i) (fpow (root a) j))) (seq 0 (2 ^ a))) (2 ^ a) = Ok true.
Proof. exact @words_fk20_multi_accepted. Qed.
Print Assumptions C112_multi_accepted.
Theorem C112_single_refusals : forall checked ks k n s n2,
  zkw_setup checked ks k n s ->
  (~ (n2 <= 2 ^ k /\ exists m, n2 = 2 ^ S m) -> zkw_fk20_single_new checked ks n2 = Err) /\
  (forall m, n2 = 2 ^ S m -> S m <= k -> 1 + n < 2 ^ m -> zkw_fk20_single_new checked ks n2 = Panic).
Proof. exact @words_fk20_single_new. Qed.
Print Assumptions C112_single_refusals.
Theorem C112_multi_refusals : forall checked ks k n s n2 cl,
  zkw_setup checked ks k n s ->
  (~ (n2 <= 2 ^ k /\ exists m a, n2 = 2 ^ S m /\ cl = 2 ^ a /\ a <= m) -> zkw_fk20_multi_new checked ks n2 cl = Err) /\
  (forall m a, n2 = 2 ^ S m -> cl = 2 ^ a -> a <= m -> S m <= k -> 2 ^ a + n < 2 ^ m -> zkw_fk20_multi_new checked ks n2 cl = Panic).
Proof. exact @words_fk20_multi_new. Qed.
Print Assumptions C112_multi_refusals.
Theorem C112_size_refusals : forall checked ks k n s (fks : zkw_single) (fkm : zkw_multi) (p : list Fr),
  zkw_setup checked ks k n s ->
  zkws_kzg fks = ks -> zkwm_kzg fkm = ks -> ~ (length p * 2 <= 2 ^ k /\ exists m, length p = 2 ^ m) ->
  (zkw_fk20_single_da_opt checked fks p = Err /\ zkw_fk20_single_da checked fks p = Err) /\
  (zkw_fk20_multi_da_opt checked fkm p = Err /\ zkw_fk20_multi_da checked fkm p = Err).
Proof. exact @words_fk20_errors. Qed.
Print Assumptions C112_size_refusals.
(** with overflow checks, whatever the roots and multipliers: a panic or the right batch *)
Theorem C112_single_checked : forall ks k n s m p,
  zkw_setup true ks k n s -> S m <= k -> 2 ^ m <= 1 + n -> length p = 2 ^ m ->
  zkw_fk20_single_new true ks (2 ^ S m) = Panic \/
  exists fk, zkw_fk20_single_new true ks (2 ^ S m) = Ok fk /\
    ((zkw_fk20_single_da_opt true fk p = Panic /\ zkw_fk20_single_da true fk p = Panic) \/
     exists out rev, zkw_fk20_single_da_opt true fk p = Ok out /\ right_batch ks p m m 1 out /\
       zkw_fk20_single_da true fk p = Ok rev /\ reversed m out rev).
Proof. exact @words_fk20_single_checked. Qed.
Print Assumptions C112_single_checked.
Theorem C112_multi_checked : forall ks k n s m a p,
  zkw_setup true ks k n s -> S m <= k -> a <= m -> 2 ^ m <= 2 ^ a + n -> length p = 2 ^ m ->
  zkw_fk20_multi_new true ks (2 ^ S m) (2 ^ a) = Panic \/
  exists fk, zkw_fk20_multi_new true ks (2 ^ S m) (2 ^ a) = Ok fk /\
    ((zkw_fk20_multi_da_opt true fk p = Panic /\ zkw_fk20_multi_da true fk p = Panic) \/
     exists out rev, zkw_fk20_multi_da_opt true fk p = Ok out /\ right_batch ks p m (m - a) (2 ^ a) out /\
       zkw_fk20_multi_da true fk p = Ok rev /\ reversed (m - a) out rev).
Proof. exact @words_fk20_multi_checked. Qed.
Print Assumptions C112_multi_checked.
(** and a panic whenever a multiplier is one of those scalars *)
Theorem C112_single_carrying : forall ks k n s m p fk i,
  zkw_setup true ks k n s -> S m <= k -> 2 ^ m <= 1 + n -> length p = 2 ^ m ->
  zkw_fk20_single_new true ks (2 ^ S m) = Ok fk -> i < 2 ^ S m -> rounding_carries (val (multiplier p m 1 0 i)) ->
  zkw_fk20_single_da_opt true fk p = Panic /\ zkw_fk20_single_da true fk p = Panic.
Proof. exact @words_fk20_single_panics. Qed.
Print Assumptions C112_single_carrying.
Theorem C112_multi_carrying : forall ks k n s m a p fk off i,
  zkw_setup true ks k n s -> S m <= k -> a <= m -> 2 ^ m <= 2 ^ a + n -> length p = 2 ^ m ->
  zkw_fk20_multi_new true ks (2 ^ S m) (2 ^ a) = Ok fk -> off < 2 ^ a -> i < 2 ^ S (m - a) -> rounding_carries (val (multiplier p (m - a) (2 ^ a) off i)) ->
  zkw_fk20_multi_da_opt true fk p = Panic /\ zkw_fk20_multi_da true fk p = Panic.
Proof. exact @words_fk20_multi_panics. Qed.
Print Assumptions C112_multi_carrying.
(** there are such polynomials of every size *)
Theorem C112_panic_refuted : exists bad : Fr, forall ks k n s m fk, zkw_setup true ks k n s -> S m <= k -> 2 ^ m <= 1 + n ->
  zkw_fk20_single_new true ks (2 ^ S m) = Ok fk ->
  zkw_fk20_single_da_opt true fk (monomial m bad) = Panic /\ zkw_fk20_single_da true fk (monomial m bad) = Panic.
Proof. exact @words_fk20_panic_polynomial. Qed.
Print Assumptions C112_panic_refuted.
(** without overflow checks they get the proofs of another polynomial *)
Theorem C112_unchecked_refuted : exists bad e : Fr, bad <> e /\ forall ks k n s m, zkw_setup false ks k n s -> 1 <= m -> S m <= k -> 2 ^ m <= 1 + n -> safe_transforms (S m) ->
  exists fk out, zkw_fk20_single_new false ks (2 ^ S m) = Ok fk /\ zkw_fk20_single_da_opt false fk (monomial m bad) = Ok out /\
    right_batch ks (monomial m e) m m 1 out /\
    forall i, i < 2 ^ S m -> fpow s (2 ^ m - 1) <> fpow (fpow (root (S m)) i) (2 ^ m - 1) ->
      exists w pf A, nth_error out i = Some w /\ zkw_compute_proof_single zk_table ks (monomial m bad) (fpow (root (S m)) i) = Ok pf /\ g1_stands pf A /\ ~ g1_stands w A.
Proof. exact @words_fk20_unchecked_refuted. Qed.
Print Assumptions C112_unchecked_refuted.

Example C112_ex : (forall checked, exists ks, zkw_setup checked ks 3 10 (fr_of 3)) /\ length case_poly = 2 ^ 2 /\ (exists i, coef case_poly i <> f0) /\
  safe_transforms 3 /\ safe_multipliers case_poly 2 1 /\ safe_transforms 2 /\ safe_multipliers case_poly 1 2 /\ (exists bad : Fr, rounding_carries (val bad)).
Proof.
  split; [exact words_case|]. split; [reflexivity|]. split; [exact case_nonzero|]. split; [apply safe_small; repeat constructor|].
  split; [exact (proj1 case_safe)|]. split; [apply safe_small; repeat constructor|]. split; [exact (proj2 case_safe)|exact bad_exists].
Qed.
