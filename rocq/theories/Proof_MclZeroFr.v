(** * Proof_MclZeroFr: vanishing polynomials and recovery of the mcl backend over the scalar field *)
From Coq Require Import List Arith Lia Bool NArith ZArith.
From Verif Require Import Base Fld Poly Loops Zr ZrTables Model_Utils Proof_Utils Model_FFT Spec Spec_More Proof_FFT Proof_FFTFr
  Model_ZeroPoly Proof_Zero1 Proof_Zero2 Proof_Zero3 Proof_Zero4 Model_Recovery Proof_Recovery Proof_RecoveryFr Proof_PolyFr
  Model_Mcl Spec_Mcl Proof_Mcl Proof_MclFr Model_MclPoly Model_MclZero Proof_MclZero.
Import ListNotations.

Section G.
Context {K : fld}.
Local Open Scope fld_scope.

Lemma made_primitive s k (w : K) m : settings_ok s k w -> (m <= k)%nat -> primitive (w ^ (2 ^ (k - m))) (2 ^ m).
Proof. intros HS Hm. apply (primitive_fold w k m); auto. apply HS. Qed.

Lemma do_zero_gen (s : fft_settings K) k w m idxs : settings_ok s k w -> (m <= k)%nat ->
  Forall (fun i => (i < 2 ^ m)%nat) idxs -> idxs <> [] ->
  let z := w ^ (2 ^ (k - m)) in
  exists p, do_zero_poly_mul_partial s idxs (2 ^ (k - m)) = Ok p /\ length p = (length idxs + 1)%nat /\
     (forall j, coef p j = coef (vanish_poly (map (fpow z) idxs)) j) /\
     (forall x, peval p x = vanish (map (fpow z) idxs) x) /\
     coef p (length idxs) = 1 /\
     (forall i, (i < 2 ^ m)%nat -> (peval p (z ^ i) = 0 <-> In i idxs)).
Proof.
  intros HS Hm HF Hne z. pose proof HS as (MW & _ & _ & EXP & _).
  destruct (do_zero_spec s (map (fpow z) idxs) idxs (2 ^ (k - m))) as (p & E & L & C); auto.
  - apply map_length.
  - intros i Hi. assert (Hn : (nth i idxs 0 < 2 ^ m)%nat) by (rewrite Forall_forall in HF; apply HF; now apply nth_In).
    assert (Es := pow2_split k m Hm). assert (Ps := pow2_pos (k - m)).
    rewrite EXP. rewrite (idx_ok _ _ 0) by (rewrite length_map_seq; nia). rewrite nth_map_seq by nia.
    f_equal. rewrite (nth_indep _ 0 (z ^ 0)) by (rewrite map_length; lia). rewrite map_nth.
    now rewrite Nat.mul_comm, fpow_mul.
  - exists p. split; [exact E|]. split; [lia|]. split; [exact C|].
    assert (PE : forall x, peval p x = vanish (map (fpow z) idxs) x).
    { intros x. rewrite <- vanish_poly_eval. now apply peval_ext. }
    split; [exact PE|]. split.
    + rewrite C. replace (length idxs) with (length (map (fpow z) idxs)) by apply map_length. apply vanish_poly_monic.
    + intros i Hi. rewrite PE. apply (vanish_zero_iff z (2 ^ m)); auto. apply (made_primitive s); auto.
Qed.

Lemma degsum_list_sum (ps : list (list K)) : (1 + list_sum (map (fun p : list K => length p - 1) ps) = degsum ps + 1)%nat.
Proof.
  assert (E : list_sum (map (fun p : list K => (length p - 1)%nat) ps) = degsum ps); [|lia].
  induction ps as [|a l IH]; [reflexivity|]. cbn [map list_sum degsum fold_right]. unfold degsum in IH. unfold list_sum in *. cbn [fold_right]. now rewrite IH.
Qed.

Lemma reduce_gen (s : fft_settings K) k w dom ps : settings_ok s k w -> (k < 32)%nat -> ps <> [] -> Forall (fun p => p <> []) ps ->
  (N.of_nat dom < 2 ^ 31)%N -> dom <> 0%nat ->
  let len := (1 + list_sum (map (fun p : list K => length p - 1) ps))%nat in
  ((exists m, dom = 2 ^ m)%nat /\ (len <= dom <= max_width s)%nat ->
     exists c, mcl_reduce_partials s dom ps = Ok c /\ length c = len /\
       (forall j, coef c j = coef (fold_right pmul [1] ps) j) /\
       (forall x, peval c x = fold_right fmul 1 (map (fun p => peval p x) ps))) /\
  ((forall m, dom <> 2 ^ m)%nat \/ (dom < len)%nat -> mcl_reduce_partials s dom ps = Err) /\
  ((exists m, dom = 2 ^ m)%nat -> (len <= dom)%nat -> (max_width s < dom)%nat -> mcl_reduce_partials s dom ps = Panic).
Proof.
  intros HS Hk Hne HF HB H0 len. assert (EL : len = (degsum ps + 1)%nat) by apply degsum_list_sum. clearbody len. subst len.
  pose proof HS as (MW & _). split; [|split].
  - intros ((m & ->) & H1 & H2). rewrite MW in H2. apply pow2_le_inv in H2.
    assert (m < 31)%nat.
    { rewrite Nat2N.inj_pow in HB. change (N.of_nat 2) with 2%N in HB. apply N.pow_lt_mono_r_iff in HB; lia. }
    rewrite (mcl_reduce_spec s k w HS Hk m) by auto. eexists. split; [reflexivity|].
    assert (CC : forall j, coef (map (coef (pprod ps)) (seq 0 (degsum ps + 1))) j = coef (pprod ps) j).
    { intros j. rewrite coef_map_seq. destruct (Nat.ltb_spec j (degsum ps + 1)); auto.
      symmetry. apply pprod_coef_over; auto. lia. }
    split; [rewrite length_map_seq; lia|]. split.
    + intros j. rewrite CC. reflexivity.
    + intros x. transitivity (peval (pprod ps) x); [now apply peval_ext|]. rewrite pprod_eval. clear.
      induction ps as [|a l IH]; [reflexivity|]. cbn [map fold_right]. f_equal. exact IH.
  - intros H. now apply (mcl_reduce_bad s k Hk).
  - intros (m & ->) H1 H2. rewrite MW in H2. now apply (mcl_reduce_wide s k w).
Qed.

Lemma zero_poly_gen (s : fft_settings K) k w m missing : settings_ok s k w -> (k < 32)%nat -> (m <= k)%nat -> (m < 31)%nat ->
  (0 < length missing < 2 ^ m)%nat -> (length missing <= 63 * (2 ^ m / 64 + 1))%nat ->
  Forall (fun i => (i < 2 ^ m)%nat) missing ->
  let z := w ^ (2 ^ (k - m)) in
  exists ev zp, mcl_zero_poly s (2 ^ m) missing = Ok (ev, zp) /\
    length ev = (2 ^ m)%nat /\ length zp = (2 ^ m)%nat /\
    (forall j, coef zp j = coef (vanish_poly (map (fpow z) missing)) j) /\
    (forall x, peval zp x = vanish (map (fpow z) missing) x) /\
    coef zp (length missing) = 1 /\
    (forall i, (i < 2 ^ m)%nat -> nth_error ev i = Some (peval zp (z ^ i))) /\
    (forall i, (i < 2 ^ m)%nat -> (nth_error ev i = Some 0 <-> In i missing)).
Proof.
  intros HS Hk Hm H31 (H0 & H1) H2 HF z.
  assert (Z := zero_poly_spec s k w m missing HS Hk Hm H0 H1 H2 HF). cbv zeta in Z. fold z in Z.
  rewrite (mcl_zero_poly_eq s k w) by auto. rewrite Z. cbn [unwrap].
  eexists. eexists. split; [reflexivity|]. rewrite !length_map_seq. split; [auto|]. split; [auto|].
  set (rs := map (fpow z) missing).
  assert (Lr : length rs = length missing) by apply map_length.
  assert (C : forall j, coef (map (coef (vanish_poly rs)) (seq 0 (2 ^ m))) j = coef (vanish_poly rs) j).
  { intros j. rewrite coef_map_seq. destruct (Nat.ltb_spec j (2 ^ m)); auto.
    symmetry. apply coef_over. rewrite vanish_poly_length. lia. }
  assert (PE : forall x, peval (map (coef (vanish_poly rs)) (seq 0 (2 ^ m))) x = vanish rs x).
  { intros x. rewrite <- vanish_poly_eval. now apply peval_ext. }
  split; [exact C|]. split; [exact PE|]. split; [|split].
  - rewrite C, <- Lr. apply vanish_poly_monic.
  - intros i Hi. rewrite nth_error_map_seq by auto. rewrite PE. reflexivity.
  - intros i Hi. rewrite nth_error_map_seq by auto.
    assert (Q := vanish_zero_iff z (2 ^ m) missing i (made_primitive s k w m HS Hm) HF Hi).
    rewrite <- Q. fold rs. split; [|intros ->; reflexivity].
    intros E. apply (f_equal (fun o => match o with Some x => x | None => 0 end)) in E. exact E.
Qed.

Lemma zero_poly_panics (s : fft_settings K) k w m missing : settings_ok s k w -> (k < 32)%nat -> (m <= k)%nat -> (m < 31)%nat ->
  (63 * (2 ^ m / 64 + 1) < length missing < 2 ^ m)%nat -> Forall (fun i => (i < 2 ^ m)%nat) missing ->
  mcl_zero_poly s (2 ^ m) missing = Panic.
Proof.
  intros HS Hk Hm H31 H HF. rewrite (mcl_zero_poly_eq s k w) by (auto; lia).
  rewrite (zero_poly_fails s k w) by auto. reflexivity.
Qed.

(** recovery: the unique codeword *)
Lemma recover_gen shift unshift (s : fft_settings K) k w m (samples : list (option K)) :
  settings_ok s k w -> (k < 32)%nat -> (m <= k)%nat -> (m < 31)%nat ->
  (forall p : list K, length p = (2 ^ m)%nat -> shift p = Ok (map (fun i => nth i p 0 * (finv (fnat 5)) ^ i) (seq 0 (2 ^ m)))) ->
  (forall p : list K, length p = (2 ^ m)%nat -> unshift p = Ok (map (fun i => nth i p 0 * (fnat 5) ^ i) (seq 0 (2 ^ m)))) ->
  fnat 5 <> (0 : K) -> (fnat 5 : K) ^ (2 ^ m) <> 1 ->
  length samples = (2 ^ m)%nat ->
  (0 < missing_count samples < 2 ^ m)%nat -> (missing_count samples <= 63 * (2 ^ m / 64 + 1))%nat ->
  let z := w ^ (2 ^ (k - m)) in
  exists p data, length p = (2 ^ m - missing_count samples)%nat /\ mcl_recover_with shift unshift s samples = Ok data /\
    length data = (2 ^ m)%nat /\
    (forall i, (i < 2 ^ m)%nat -> nth_error data i = Some (peval p (z ^ i))) /\
    (forall i v, nth_error samples i = Some (Some v) -> peval p (z ^ i) = v) /\
    (forall q, (length q <= 2 ^ m - missing_count samples)%nat ->
       (forall i v, nth_error samples i = Some (Some v) -> peval q (z ^ i) = v) -> forall j, coef q j = coef p j).
Proof.
  intros HS Hk Hm H31 Hsh Hush H5 H5n L Hu Hub z.
  set (sm := fun i => nth i samples None).
  assert (EG : length (gaps sm (2 ^ m)) = missing_count samples) by (rewrite <- L; apply gaps_count).
  destruct (recover_interp s k w m _ HS Hk Hm (le_n _) sm) as (D & LD & HD). fold z in HD.
  assert (R := mcl_recover_spec s k w HS Hk shift unshift m Hm H31 Hsh Hush samples D H5 H5n L).
  cbv zeta in R. fold sm z in R. rewrite EG in R.
  specialize (R Hu Hub ltac:(lia) HD).
  assert (HP : forall i v, nth_error samples i = Some (Some v) -> sm i = Some v /\ (i < 2 ^ m)%nat).
  { intros i v Hi. split; [apply (nth_error_nth2 samples i None), Hi|]. rewrite <- L. apply nth_error_Some. congruence. }
  exists D. eexists. split; [lia|]. split; [exact R|]. rewrite length_map_seq. split; [auto|].
  split; [intros i Hi; now rewrite nth_error_map_seq by auto|].
  split; [intros i v Hi; apply HP in Hi as (Hi & Li); now apply HD|].
  intros q Lq Hq.
  set (P := filter (fun i => match sm i with None => false | Some _ => true end) (seq 0 (2 ^ m))).
  assert (LP : length P = (2 ^ m - missing_count samples)%nat).
  { assert (X := filter_split_length (fun i => match sm i with None => true | Some _ => false end) (seq 0 (2 ^ m))).
    rewrite seq_length in X. fold (gaps sm (2 ^ m)) in X. rewrite EG in X.
    replace P with (filter (fun x => negb (match sm x with None => true | Some _ => false end)) (seq 0 (2 ^ m))); [lia|].
    unfold P. apply filter_ext. intros i. destruct (sm i); reflexivity. }
  assert (pr := made_primitive s k w m HS Hm). fold z in pr.
  apply (interp_unique (map (fpow z) P)).
  - assert (NP := primitive_NoDup _ _ pr). revert NP. unfold P. clear. generalize (seq 0 (2 ^ m)) as l. intros l.
    induction l as [|a l IH]; intros ND; [constructor|]. inversion ND as [|? ? H1 H2]; subst. cbn [filter]. destruct (sm a); auto.
    cbn [map]. constructor; auto. intros Hin. apply H1. apply in_map_iff in Hin as (x & Ex & Hx). apply filter_In in Hx as (Hx & _).
    rewrite <- Ex. now apply in_map.
  - rewrite map_length. lia.
  - rewrite map_length. lia.
  - intros x Hx. apply in_map_iff in Hx as (i & <- & Hi). apply filter_In in Hi as (Hi & Ei). apply in_seq in Hi.
    destruct (sm i) as [v|] eqn:E; [|discriminate].
    rewrite (HD i v) by (auto; lia). apply Hq. rewrite (nth_error_nth' samples None) by lia. f_equal. exact E.
Qed.

Lemma recover_half_gen shift unshift (s : fft_settings K) k w m (p : list K) (samples : list (option K)) :
  settings_ok s k w -> (k < 32)%nat -> (m <= k)%nat -> (m < 31)%nat ->
  (forall p : list K, length p = (2 ^ m)%nat -> shift p = Ok (map (fun i => nth i p 0 * (finv (fnat 5)) ^ i) (seq 0 (2 ^ m)))) ->
  (forall p : list K, length p = (2 ^ m)%nat -> unshift p = Ok (map (fun i => nth i p 0 * (fnat 5) ^ i) (seq 0 (2 ^ m)))) ->
  fnat 5 <> (0 : K) -> (fnat 5 : K) ^ (2 ^ m) <> 1 ->
  length samples = (2 ^ m)%nat -> (2 * length p <= 2 ^ m)%nat ->
  (forall i v, nth_error samples i = Some (Some v) -> v = peval p ((w ^ (2 ^ (k - m))) ^ i)) ->
  (0 < missing_count samples)%nat -> (2 * missing_count samples <= 2 ^ m)%nat ->
  mcl_recover_with shift unshift s samples = Ok (map (fun i => peval p ((w ^ (2 ^ (k - m))) ^ i)) (seq 0 (2 ^ m))).
Proof.
  intros HS Hk Hm H31 Hsh Hush H5 H5n L Lp HV H0 H2.
  assert (EG : length (gaps (fun i => nth i samples None) (2 ^ m)) = missing_count samples) by (rewrite <- L; apply gaps_count).
  assert (R := mcl_recover_spec s k w HS Hk shift unshift m Hm H31 Hsh Hush samples p H5 H5n L).
  cbv zeta in R. rewrite EG in R. apply R.
  - lia.
  - assert (D := Nat.div_mod (2 ^ m) 64 ltac:(lia)). assert (B := Nat.mod_upper_bound (2 ^ m) 64 ltac:(lia)). lia.
  - lia.
  - intros i v Hi E. symmetry. apply HV. rewrite (nth_error_nth' samples None) by lia. f_equal. exact E.
Qed.

Lemma shift_spec (c : K) p : mcl_shift c p = Ok (map (fun i => nth i p 0 * c ^ i) (seq 0 (length p))).
Proof. apply (mcl_shift_spec 0%nat). lia. Qed.
Lemma shift_par_spec tl (c : K) p : (0 < tl)%nat -> (length p <= tl)%nat ->
  mcl_shift_par tl c p = Ok (map (fun i => nth i p 0 * c ^ i) (seq 0 (length p))).
Proof. apply (mcl_shift_par_spec 0%nat). lia. Qed.

Lemma seq_shift_ok m (p : list K) : length p = (2 ^ m)%nat ->
  mcl_shift_in_place p = Ok (map (fun i => nth i p 0 * (finv (fnat 5)) ^ i) (seq 0 (2 ^ m))).
Proof. intros <-. apply shift_spec. Qed.
Lemma seq_unshift_ok m (p : list K) : length p = (2 ^ m)%nat ->
  mcl_unshift_in_place p = Ok (map (fun i => nth i p 0 * (fnat 5) ^ i) (seq 0 (2 ^ m))).
Proof. intros <-. apply shift_spec. Qed.
Lemma par_shift_ok tl m (p : list K) : (2 ^ m <= tl)%nat -> length p = (2 ^ m)%nat ->
  mcl_shift_in_place_par tl p = Ok (map (fun i => nth i p 0 * (finv (fnat 5)) ^ i) (seq 0 (2 ^ m))).
Proof. intros H L. assert (P := pow2_pos m). rewrite <- L in *. apply shift_par_spec; lia. Qed.
Lemma par_unshift_ok tl m (p : list K) : (2 ^ m <= tl)%nat -> length p = (2 ^ m)%nat ->
  mcl_unshift_in_place_par tl p = Ok (map (fun i => nth i p 0 * (fnat 5) ^ i) (seq 0 (2 ^ m))).
Proof. intros H L. assert (P := pow2_pos m). rewrite <- L in *. apply shift_par_spec; lia. Qed.

(** beyond the tables of the parallel build *)
Lemma recover_par_panics (s : fft_settings K) k w m tl (samples : list (option K)) :
  settings_ok s k w -> (k < 32)%nat -> (m <= k)%nat -> (m < 31)%nat -> (0 < tl < 2 ^ m)%nat -> length samples = (2 ^ m)%nat ->
  mcl_recover_par tl s samples = Panic.
Proof.
  intros HS Hk Hm H31 Htl L. unfold mcl_recover_par, mcl_recover_with. assert (P0 := pow2_pos m).
  rewrite L, mcl_is_pow_eq by auto. cbn [bind]. rewrite is_pow2_pow. cbn [negb].
  set (ms := missing_positions _ samples). rewrite <- L in P0.
  assert (PA : forall (ev zp : list K), length ev = (2 ^ m)%nat ->
    (let* poly_with_zero := unwrap (mcl_fft s (map (fun p : option K * K => match fst p with None => 0 | Some v => v * snd p end)
                   (combine samples ev)) true) in
     let* poly_with_zero := mcl_shift_in_place_par tl poly_with_zero in
     let* zero_poly := mcl_shift_in_place_par tl zp in
     let* e1 := unwrap (mcl_fft s poly_with_zero false) in
     let* e2 := unwrap (mcl_fft s zero_poly false) in
     let* shifted := unwrap (mcl_fft s (map (fun p : K * K => mcl_div_fr (fst p) (snd p)) (combine e1 e2)) true) in
     let* poly := mcl_unshift_in_place_par tl shifted in
     unwrap (mcl_fft s poly false)) = Panic).
  { intros ev zp Lev.
    assert (LE : length (map (fun p : option K * K => match fst p with None => 0 | Some v => v * snd p end) (combine samples ev)) = (2 ^ m)%nat)
      by (rewrite map_length, combine_length; lia).
    rewrite (mcl_fft_eq s k w HS Hk m) by auto.
    match goal with |- context [fft_fr s ?e true] => destruct (ifft_fr_interpolates s k w m e HS Hm LE) as (P & EP & LP & _) end.
    rewrite EP. cbn [unwrap bind]. unfold mcl_shift_in_place_par at 1. rewrite mcl_shift_par_panic by lia. reflexivity. }
  destruct (Nat.eq_dec (length ms) 0) as [E0|E0].
  { unfold mcl_zero_poly. rewrite E0. cbn [Nat.eqb unwrap bind]. apply PA. apply repeat_length. }
  destruct (Nat.lt_ge_cases (length ms) (2 ^ m)) as [C|C].
  2: { rewrite (mcl_zero_poly_errors s 0 ltac:(lia)); [reflexivity|intros Z; rewrite Z in E0; simpl in E0; lia|left; exact C]. }
  assert (HF : Forall (fun i => (i < 2 ^ m)%nat) ms).
  { unfold ms. rewrite (missing_spec _ None), L. apply Forall_forall. intros i Hi. apply filter_In in Hi as (Hi & _). apply in_seq in Hi. lia. }
  destruct (Nat.le_gt_cases (length ms) (63 * (2 ^ m / 64 + 1))) as [C2|C2].
  - destruct (zero_poly_gen s k w m ms HS Hk Hm H31 ltac:(lia) C2 HF) as (ev & zp & -> & L1 & _).
    cbn [unwrap bind]. apply PA. exact L1.
  - rewrite (zero_poly_panics s k w) by (auto; lia). reflexivity.
Qed.

Lemma recover_lost shift unshift (s : fft_settings K) k w m (samples : list (option K)) :
  settings_ok s k w -> (k < 32)%nat -> (m <= k)%nat -> (m < 31)%nat -> length samples = (2 ^ m)%nat ->
  (63 * (2 ^ m / 64 + 1) < missing_count samples)%nat \/ missing_count samples = (2 ^ m)%nat ->
  mcl_recover_with shift unshift s samples = Panic.
Proof.
  intros HS Hk Hm H31 L H. unfold mcl_recover_with. assert (P0 := pow2_pos m).
  rewrite L, mcl_is_pow_eq by auto. cbn [bind]. rewrite is_pow2_pow. cbn [negb].
  rewrite (missing_spec _ None), L. set (ms := filter _ _).
  assert (EM : length ms = missing_count samples) by (rewrite <- gaps_count, L; reflexivity).
  assert (HF : Forall (fun i => (i < 2 ^ m)%nat) ms).
  { unfold ms. apply Forall_forall. intros i Hi. apply filter_In in Hi as (Hi & _). apply in_seq in Hi. lia. }
  destruct (Nat.lt_ge_cases (length ms) (2 ^ m)) as [C|C].
  - rewrite (zero_poly_panics s k w) by (auto; lia). reflexivity.
  - rewrite (mcl_zero_poly_errors s 0 ltac:(lia)); [reflexivity|intros Z; rewrite Z in C; simpl in C; lia|left; exact C].
Qed.

Lemma recover_not_pow shift unshift (s : fft_settings K) (samples : list (option K)) : samples <> [] ->
  (forall m, length samples <> 2 ^ m)%nat -> mcl_recover_with shift unshift s samples = Err.
Proof.
  intros Hn H. unfold mcl_recover_with. rewrite mcl_is_pow_eq by (destruct samples; [congruence|simpl; lia]). cbn [bind].
  destruct (is_pow2 (length samples)) eqn:E; auto. apply is_pow2_spec in E as (m & E). now apply H in E.
Qed.

Lemma recover_wide shift unshift (s : fft_settings K) (samples : list (option K)) m : length samples = (2 ^ m)%nat ->
  (max_width s < 2 ^ m)%nat -> mcl_recover_with shift unshift s samples = Panic.
Proof.
  intros L H. unfold mcl_recover_with. assert (P0 := pow2_pos m).
  rewrite L, mcl_is_pow_eq by auto. cbn [bind]. rewrite is_pow2_pow. cbn [negb].
  set (ms := missing_positions _ samples). destruct ms as [|i ms0] eqn:E.
  - rewrite mcl_zero_poly_none. cbn [unwrap bind]. rewrite mcl_fft_long; [reflexivity|].
    rewrite map_length, combine_length, repeat_length. lia.
  - rewrite (mcl_zero_poly_errors s 0 ltac:(lia)); [reflexivity|discriminate|auto].
Qed.
Lemma recover_par_gen (s : fft_settings K) k w m tl (samples : list (option K)) :
  settings_ok s k w -> (k < 32)%nat -> (m <= k)%nat -> (m < 31)%nat -> (2 ^ m <= tl)%nat -> length samples = (2 ^ m)%nat ->
  fnat 5 <> (0 : K) -> (fnat 5 : K) ^ (2 ^ m) <> 1 ->
  mcl_recover_par tl s samples = mcl_recover s samples.
Proof.
  intros HS Hk Hm H31 Htl L H5 H5n.
  assert (S1 := fun p => par_shift_ok tl m p Htl). assert (S2 := fun p => par_unshift_ok tl m p Htl).
  unfold mcl_recover_par, mcl_recover.
  assert (MC : (missing_count samples <= 2 ^ m)%nat).
  { rewrite <- L. unfold missing_count. clear. induction samples as [|[v|] l IH]; cbn [filter length]; lia. }
  destruct (Nat.eq_dec (missing_count samples) 0) as [E0|E0].
  { assert (EV : exists vs, samples = map Some vs).
    { clear - E0. induction samples as [|[v|] l IH]; [exists []; reflexivity| |discriminate].
      destruct IH as (vs & ->); [exact E0|]. now exists (v :: vs). }
    destruct EV as (vs & ->). rewrite map_length in L.
    rewrite (mcl_recover_complete s k w HS Hk _ _ m Hm H31 S1 S2 vs L).
    now rewrite (mcl_recover_complete s k w HS Hk _ _ m Hm H31 (seq_shift_ok m) (seq_unshift_ok m) vs L). }
  destruct (Nat.le_gt_cases (missing_count samples) (63 * (2 ^ m / 64 + 1))) as [Hub|Hub].
  2: { rewrite !(recover_lost _ _ s k w m) by auto. reflexivity. }
  destruct (Nat.eq_dec (missing_count samples) (2 ^ m)) as [E1|E1].
  { rewrite !(recover_lost _ _ s k w m) by auto. reflexivity. }
  destruct (recover_gen _ _ s k w m samples HS Hk Hm H31 S1 S2 H5 H5n L ltac:(lia) Hub)
    as (p & d & Lp & Ed & Ld & Hd & Hs & Hq).
  destruct (recover_gen _ _ s k w m samples HS Hk Hm H31 (seq_shift_ok m) (seq_unshift_ok m) H5 H5n L ltac:(lia) Hub)
    as (p' & d' & Lp' & Ed' & Ld' & Hd' & Hs' & Hq').
  rewrite Ed, Ed'. f_equal.
  assert (C : forall j, coef p j = coef p' j) by (apply Hq'; auto; lia).
  apply nth_ext with (d := 0) (d' := 0); [lia|]. intros i Hi.
  assert (A := Hd i ltac:(lia)). assert (B := Hd' i ltac:(lia)).
  rewrite (nth_error_nth _ _ _ A), (nth_error_nth _ _ _ B). now apply peval_ext.
Qed.
End G.

(** ** C60 *)
Lemma C60_partial_proof s k w m (idxs : list nat) :
  mcl_made s k w -> m <= k -> Forall (fun i => i < 2 ^ m) idxs ->
  let z := fpow w (2 ^ (k - m)) in
  (idxs <> [] -> exists p, mcl_do_zero s idxs (2 ^ (k - m)) = Ok p /\ length p = length idxs + 1 /\
     (forall j, coef p j = coef (vanish_poly (map (fpow z) idxs)) j) /\
     (forall x, peval p x = vanish (map (fpow z) idxs) x) /\
     coef p (length idxs) = f1 /\
     (forall i, i < 2 ^ m -> (peval p (fpow z i) = f0 <-> In i idxs))) /\
  (idxs = [] -> mcl_do_zero s idxs (2 ^ (k - m)) = Err).
Proof.
  intros HM Hm HF z. destruct (mcl_made_ok _ _ _ HM) as (Hk & HS). rewrite mcl_do_zero_eq.
  split; [intros Hn; now apply (do_zero_gen s k w)|intros ->; reflexivity].
Qed.

Lemma C60_reduce_proof s k w dom (ps : list (list Fr)) :
  mcl_made s k w -> ps <> [] -> Forall (fun p => p <> []) ps -> dom <> 0 -> (N.of_nat dom < 2 ^ 31)%N ->
  let len := 1 + list_sum (map (fun p => length p - 1) ps) in
  ((exists m, dom = 2 ^ m) /\ len <= dom <= max_width s ->
     exists c, mcl_reduce_partials s dom ps = Ok c /\ length c = len /\
       (forall j, coef c j = coef (fold_right pmul [f1] ps) j) /\
       (forall x, peval c x = fold_right fmul f1 (map (fun p => peval p x) ps))) /\
  ((forall m, dom <> 2 ^ m) \/ dom < len -> mcl_reduce_partials s dom ps = Err) /\
  ((exists m, dom = 2 ^ m) -> len <= dom -> max_width s < dom -> mcl_reduce_partials s dom ps = Panic).
Proof.
  intros HM Hn HF H0 HB. destruct (mcl_made_ok _ _ _ HM) as (Hk & HS). now apply (reduce_gen s k w).
Qed.

Lemma C60_proof s k w m (missing : list nat) :
  mcl_made s k w -> m <= k -> m <= 30 ->
  0 < length missing < 2 ^ m -> length missing <= 63 * (2 ^ m / 64 + 1) ->
  Forall (fun i => i < 2 ^ m) missing ->
  let z := fpow w (2 ^ (k - m)) in
  exists ev zp, mcl_zero_poly s (2 ^ m) missing = Ok (ev, zp) /\
    length ev = 2 ^ m /\ length zp = 2 ^ m /\
    (forall j, coef zp j = coef (vanish_poly (map (fpow z) missing)) j) /\
    (forall x, peval zp x = vanish (map (fpow z) missing) x) /\
    coef zp (length missing) = f1 /\
    (forall i, i < 2 ^ m -> nth_error ev i = Some (peval zp (fpow z i))) /\
    (forall i, i < 2 ^ m -> (nth_error ev i = Some f0 <-> In i missing)).
Proof.
  intros HM Hm H30 H1 H2 HF. destruct (mcl_made_ok _ _ _ HM) as (Hk & HS). apply (zero_poly_gen s k w m missing HS Hk Hm); auto. lia.
Qed.

Lemma C60_args_proof (s : fft_settings Fr) d (missing : list nat) :
  (missing = [] -> mcl_zero_poly s d missing = Ok (repeat f0 d, repeat f0 d)) /\
  (missing <> [] -> d <= length missing \/ max_width s < d \/ (forall m, d <> 2 ^ m) -> mcl_zero_poly s d missing = Err).
Proof. split; [intros ->; reflexivity|apply (mcl_zero_poly_errors s 0); lia]. Qed.

Lemma C60_refuted_proof s k w m (missing : list nat) : mcl_made s k w -> m <= k -> m <= 30 ->
  63 * (2 ^ m / 64 + 1) < length missing < 2 ^ m -> Forall (fun i => i < 2 ^ m) missing ->
  mcl_zero_poly s (2 ^ m) missing = Panic.
Proof.
  intros HM Hm H30 H HF. destruct (mcl_made_ok _ _ _ HM) as (Hk & HS). apply (zero_poly_panics s k w m); auto. lia.
Qed.

Lemma C60_agrees_proof k s m (missing : list nat) : fft_settings_new blst_table k = Ok s -> m <= k -> m <= 30 ->
  0 < length missing < 2 ^ m ->
  mcl_zero_poly s (2 ^ m) missing = unwrap (zero_poly_via_multiplication s (2 ^ m) missing).
Proof.
  intros HN Hm H30 H. destruct (new_inv k s HN) as (Hk & HS). apply (mcl_zero_poly_eq s k (root k)); auto. lia.
Qed.

(** ** C61 *)
Lemma C61_shift_proof (p : list Fr) :
  exists q u, mcl_shift_in_place p = Ok q /\ mcl_unshift_in_place p = Ok u /\
    length q = length p /\ length u = length p /\
    mcl_unshift_in_place q = Ok p /\ mcl_shift_in_place u = Ok p /\
    forall x : Fr, peval q x = peval p (fdiv x (fr_of 5)) /\ peval u x = peval p (fmul (fr_of 5) x).
Proof.
  assert (E1 := shift_spec (finv (fnat 5)) p). assert (E2 := shift_spec (fnat 5) p).
  exists (map (fun i => fmul (nth i p f0) (fpow (finv (fnat 5)) i)) (seq 0 (length p))),
    (map (fun i => fmul (nth i p f0) (fpow (fnat 5) i)) (seq 0 (length p))).
  split; [exact E1|]. split; [exact E2|]. rewrite !length_map_seq. split; [reflexivity|]. split; [reflexivity|].
  destruct (table_unscale_scale (S (length p)) p five0 ltac:(lia) ltac:(lia)) as [T1 T2].
  rewrite scale_poly_spec in T1 by lia. cbn [bind] in T1. rewrite unscale_poly_spec in T1 by (rewrite ?length_map_seq; lia).
  rewrite unscale_poly_spec in T2 by lia. cbn [bind] in T2. rewrite scale_poly_spec in T2 by (rewrite ?length_map_seq; lia).
  split; [|split].
  - unfold mcl_unshift_in_place. rewrite shift_spec. exact T1.
  - unfold mcl_shift_in_place. rewrite shift_spec. exact T2.
  - intros x. rewrite !peval_geom0, fnat5. now rewrite fdiv_comm5.
Qed.

Lemma C61_proof s k w m (p : list Fr) (samples : list (option Fr)) :
  mcl_made s k w -> m <= k -> m <= 30 -> length samples = 2 ^ m -> 2 * length p <= 2 ^ m ->
  let z := fpow w (2 ^ (k - m)) in
  (forall i v, nth_error samples i = Some (Some v) -> v = peval p (fpow z i)) ->
  0 < missing_count samples -> 2 * missing_count samples <= 2 ^ m ->
  mcl_recover s samples = Ok (map (fun i => peval p (fpow z i)) (seq 0 (2 ^ m))).
Proof.
  intros HM Hm H30 L Lp z HV H0 H2. destruct (mcl_made_ok _ _ _ HM) as (Hk & HS).
  apply (recover_half_gen _ _ s k w m p); auto using five0, seq_shift_ok, seq_unshift_ok; try lia. apply five1. lia.
Qed.

Lemma C61_unique_proof s k w m (samples : list (option Fr)) :
  mcl_made s k w -> m <= k -> m <= 30 -> length samples = 2 ^ m ->
  0 < missing_count samples < 2 ^ m -> missing_count samples <= 63 * (2 ^ m / 64 + 1) ->
  let z := fpow w (2 ^ (k - m)) in
  exists p data, length p = 2 ^ m - missing_count samples /\ mcl_recover s samples = Ok data /\
    length data = 2 ^ m /\
    (forall i, i < 2 ^ m -> nth_error data i = Some (peval p (fpow z i))) /\
    (forall i v, nth_error samples i = Some (Some v) -> peval p (fpow z i) = v) /\
    (forall q, length q <= 2 ^ m - missing_count samples ->
       (forall i v, nth_error samples i = Some (Some v) -> peval q (fpow z i) = v) -> forall j, coef q j = coef p j).
Proof.
  intros HM Hm H30 L Hu Hub. destruct (mcl_made_ok _ _ _ HM) as (Hk & HS).
  apply (recover_gen _ _ s k w m samples HS Hk Hm); auto using five0, seq_shift_ok, seq_unshift_ok; try lia. apply five1. lia.
Qed.

Lemma C61_complete_proof s k w m (vs : list Fr) : mcl_made s k w -> m <= k -> m <= 30 -> length vs = 2 ^ m ->
  mcl_recover s (map Some vs) = Ok (repeat f0 (2 ^ m)).
Proof.
  intros HM Hm H30 L. destruct (mcl_made_ok _ _ _ HM) as (Hk & HS).
  apply (mcl_recover_complete s k w HS Hk); auto using seq_shift_ok, seq_unshift_ok. lia.
Qed.

Lemma C61_lost_proof s k w m (samples : list (option Fr)) : mcl_made s k w -> m <= k -> m <= 30 -> length samples = 2 ^ m ->
  63 * (2 ^ m / 64 + 1) < missing_count samples \/ missing_count samples = 2 ^ m ->
  mcl_recover s samples = Panic.
Proof.
  intros HM Hm H30 L H. destruct (mcl_made_ok _ _ _ HM) as (Hk & HS). apply (recover_lost _ _ s k w m); auto. lia.
Qed.

Lemma C61_lengths_proof (s : fft_settings Fr) (samples : list (option Fr)) :
  (samples = [] -> mcl_recover s samples = Panic) /\
  (samples <> [] -> (forall m, length samples <> 2 ^ m) -> mcl_recover s samples = Err) /\
  (forall m, length samples = 2 ^ m -> max_width s < 2 ^ m -> mcl_recover s samples = Panic).
Proof.
  split; [intros ->; reflexivity|]. split; [apply recover_not_pow|]. intros m. apply recover_wide.
Qed.

Lemma C61_par_proof s k w m (samples : list (option Fr)) : mcl_made s k w -> m <= k -> length samples = 2 ^ m ->
  (m <= 16 -> mcl_recover_par factor_table_len s samples = mcl_recover s samples) /\
  (16 < m <= 30 -> mcl_recover_par factor_table_len s samples = Panic).
Proof.
  intros HM Hm L. destruct (mcl_made_ok _ _ _ HM) as (Hk & HS). split.
  - intros H16. assert (Htl := tl16 m H16). revert Htl. generalize factor_table_len as tl. intros tl Htl.
    apply (recover_par_gen s k w m tl); auto; [lia|exact five0|apply five1; lia].
  - intros (H16 & H30). apply (recover_par_panics s k w m); auto; [lia|]. unfold factor_table_len. split; [apply pow2_pos|].
    apply Nat.pow_lt_mono_r; lia.
Qed.

Lemma C60_instance_proof : exists missing : list nat, NoDup missing /\ length missing = 2 ^ 13 - 64 /\
  Forall (fun i => i < 2 ^ 13) missing /\
  forall s k w, mcl_made s k w -> 13 <= k -> mcl_zero_poly s (2 ^ 13) missing = Panic.
Proof.
  exists (seq 0 (2 ^ 13 - 64)).
  assert (HF : Forall (fun i => i < 2 ^ 13) (seq 0 (2 ^ 13 - 64))).
  { apply Forall_forall. intros i Hi. apply in_seq in Hi. lia. }
  split; [apply seq_NoDup|]. split; [apply seq_length|]. split; [exact HF|].
  intros s k w HM Hk. apply (C60_refuted_proof s k w 13); auto; [lia|].
  rewrite seq_length. assert (E : 2 ^ 13 = 128 * 64) by reflexivity.
  rewrite E. rewrite Nat.div_mul by lia. lia.
Qed.
