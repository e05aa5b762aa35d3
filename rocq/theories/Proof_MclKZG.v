(** * Proof_MclKZG: commitments and opening proofs of the mcl backend, any field and pairing *)
From Coq Require Import List Arith Lia Bool NArith ZArith Field.
From Verif Require Import Base Fld Poly Loops Model_Utils Proof_Utils Model_FFT Spec Proof_FFT.
From Verif Require Import Model_Poly Proof_Poly1 Proof_Poly2 Model_KZG Proof_Recovery Proof_KZG.
From Verif Require Import Model_Mcl Proof_Mcl Proof_MclFr Model_MclPoly Proof_MclPoly Proof_MclZero Model_MclKZG.
Import ListNotations.

Lemma firstn_seq_map {A} (f : nat -> A) n len : len <= n -> firstn len (map f (seq 0 n)) = map f (seq 0 len).
Proof.
  intros H. rewrite firstn_map. f_equal. replace n with (len + (n - len)) by lia.
  rewrite seq_app, firstn_app, seq_length, Nat.sub_diag, firstn_O, app_nil_r. rewrite <- (seq_length len 0) at 1. apply firstn_all.
Qed.

Lemma list_nth_firstn {A} (l : list A) d n : n <= length l -> map (fun i => nth i l d) (seq 0 n) = firstn n l.
Proof.
  intros H. apply (nth_ext' d); rewrite length_map_seq, ?firstn_length; [lia|]. intros i Hi.
  now rewrite nth_map_seq, nth_firstn' by lia.
Qed.

Lemma mcl_is_pow_pow m : mcl_is_power_of_2 (N.of_nat (2 ^ m)) = Ok true.
Proof. assert (P := pow2_pos m). fold (Model_MclZero.mcl_is_pow (2 ^ m)). rewrite mcl_is_pow_eq by lia. f_equal. apply is_pow2_pow. Qed.

Section KZG.
Context {K : fld} {P : pairing K}.
Add Field Kfmk : (fld_field K).
Local Open Scope fld_scope.
Implicit Types (ks : kzg_settings P).

(** ** constructors *)
Lemma mcl_setup_points_spec n (s : K) :
  @mcl_setup_points K P n s = Ok (map (fun i => smul (s ^ i) gen1) (seq 0 n), map (fun i => smul (s ^ i) gen2) (seq 0 n)).
Proof.
  unfold mcl_setup_points.
  match goal with |- context [for_range 0 n ?bd ?s0] =>
    destruct (for_range_inv (fun t (st : list (PG1 P) * list (PG2 P) * K) =>
      let '(a, b, sp) := st in sp = s ^ t /\ length a = n /\ length b = n /\
        forall i, (i < t)%nat -> nth i a g0 = smul (s ^ i) gen1 /\ nth i b g0 = smul (s ^ i) gen2) bd 0%nat n s0)
      as (((a & b) & sp) & E & _ & La & Lb & H) end.
  - lia.
  - split; [reflexivity|]. rewrite !repeat_length. repeat split; auto; lia.
  - intros j ((a & b) & sp) Hj (-> & La & Lb & H). rewrite !upd_ok by lia. cbn [bind]. eexists. split; [reflexivity|].
    split; [cbn [fpow]; ring|]. rewrite !set_length. split; [auto|]. split; [auto|]. intros i Hi.
    destruct (Nat.eq_dec i j) as [->|N]; [rewrite !nth_set_same by lia; auto|]. rewrite !nth_set_other by lia. apply H. lia.
  - rewrite E. cbn [bind fst]. f_equal. f_equal; apply (nth_ext' g0); rewrite ?length_map_seq; auto; intros i Hi;
      rewrite nth_map_seq by lia; apply H; lia.
Qed.

Lemma mcl_copy_loop (sg1 : list (PG1 P)) (sg2 : list (PG2 P)) len :
  let bd := fun i (st : list (PG1 P) * list (PG2 P)) =>
        let (a, b) := st in let* x := idx sg1 i in let* y := idx sg2 i in Ok (a ++ [x], b ++ [y]) in
  ((len <= length sg1)%nat -> (len <= length sg2)%nat -> for_range 0 len bd ([], []) = Ok (firstn len sg1, firstn len sg2)) /\
  ((length sg1 < len \/ length sg2 < len)%nat -> for_range 0 len bd ([], []) = Panic).
Proof.
  intros bd.
  assert (G : forall t, (t <= length sg1)%nat -> (t <= length sg2)%nat -> for_range 0 t bd ([], []) = Ok (firstn t sg1, firstn t sg2)).
  { intros t H1 H2.
    destruct (for_range_inv (fun t st => st = (firstn t sg1, firstn t sg2)) bd 0%nat t ([], [])) as (st & E & ->); auto; [lia|].
    intros j st Hj ->. unfold bd. rewrite (idx_ok sg1 j g0), (idx_ok sg2 j g0) by lia. cbn [bind]. eexists. split; [reflexivity|].
    rewrite <- !(list_nth_firstn _ g0) by lia. rewrite seq_S, !map_app. reflexivity. }
  split; auto. intros H. set (t := Nat.min (length sg1) (length sg2)). assert (Ht := G t ltac:(lia) ltac:(lia)).
  unfold for_range in *. rewrite Nat.sub_0_r in *. replace len with (t + S (len - t - 1))%nat by lia. rewrite for_app, Ht. cbn [bind for_].
  unfold bd at 1. destruct (Nat.lt_ge_cases t (length sg1)).
  - rewrite (idx_ok sg1 _ g0) by lia. cbn [bind]. rewrite idx_panic by lia. reflexivity.
  - rewrite idx_panic by lia. reflexivity.
Qed.

Lemma mcl_kzg_new_spec (sg1 : list (PG1 P)) (sg2 : list (PG2 P)) len (fs : fft_settings K) :
  ((len < max_width fs \/ length sg1 < max_width fs \/ length sg2 < max_width fs)%nat -> mcl_kzg_new sg1 sg2 len fs = Err) /\
  ((max_width fs <= len)%nat -> (max_width fs <= length sg1)%nat -> (max_width fs <= length sg2)%nat ->
   ((len <= length sg1)%nat -> (len <= length sg2)%nat -> mcl_kzg_new sg1 sg2 len fs = Ok (mkKZG fs (firstn len sg1) (firstn len sg2))) /\
   ((length sg1 < len \/ length sg2 < len)%nat -> mcl_kzg_new sg1 sg2 len fs = Panic)).
Proof.
  unfold mcl_kzg_new. split.
  - intros H. destruct (Nat.ltb_spec len (max_width fs)); auto. destruct (Nat.ltb_spec (length sg1) (max_width fs)); auto.
    destruct (Nat.ltb_spec (length sg2) (max_width fs)); auto. lia.
  - intros H1 H2 H3. destruct (Nat.ltb_spec len (max_width fs)); [lia|]. destruct (Nat.ltb_spec (length sg1) (max_width fs)); [lia|].
    destruct (Nat.ltb_spec (length sg2) (max_width fs)); [lia|]. destruct (mcl_copy_loop sg1 sg2 len) as (A & B). split.
    + intros L1 L2. rewrite A by auto. cbn [bind fst snd]. unfold mcl_curve_new2.
      destruct (mcl_copy_loop (firstn len sg1) (firstn len sg2) len) as (A' & _).
      rewrite A' by (rewrite firstn_length; lia). cbn [bind fst snd]. now rewrite !firstn_firstn, Nat.min_id.
    + intros L. rewrite B by auto. reflexivity.
Qed.

(** ** commitments *)
Lemma mcl_mul_vec_powers ks (s : K) len (c : list K) n : setup_powers ks s len -> (n <= len)%nat ->
  mcl_mul_vec (secret_g1 ks) c n = smul (peval (firstn n c) s) gen1.
Proof.
  intros (S1 & _) H. unfold mcl_mul_vec. rewrite (peval_sum_n _ s n) by (rewrite firstn_length; lia).
  rewrite <- gsum_scal. apply gsum_ext. intros i Hi. rewrite S1, nth_map_seq by lia. rewrite smul_smul. f_equal.
  rewrite coef_firstn. destruct (Nat.ltb_spec i n); [reflexivity|lia].
Qed.

Lemma mcl_commit_eq ks (p : list K) : mcl_commit ks p = commit_to_poly ks p.
Proof.
  unfold mcl_commit. destruct (Nat.ltb_spec (length (secret_g1 ks)) (length p)).
  - symmetry. now apply commit_err.
  - rewrite commit_lincomb by lia. unfold mcl_mul_vec. rewrite Nat.min_r by lia. reflexivity.
Qed.

(** ** proofs *)
Variable pr5 : list K.
Hypothesis Hpr5 : table_ok pr5.
Hypothesis Hpr5_len : length pr5 = 32%nat.

Lemma mcl_div_monic (a b : list K) : short (2 * length a) -> b <> [] -> coef b (length b - 1) <> 0 ->
  exists q, mcl_poly_div pr5 a b = Ok q /\ euclid a b q.
Proof.
  intros HF N L. destruct (mcl_poly_div_spec pr5 Hpr5 Hpr5_len a b HF) as (_ & H).
  destruct H as (b' & q & E & (z & Ez) & Hb & Hq); [eauto|].
  exists q. split; auto. destruct z as [|z]; [rewrite app_nil_r in Ez; now subst|].
  exfalso. apply L. rewrite Ez, app_length, repeat_length, coef_app.
  destruct (Nat.ltb_spec (length b' + S z - 1) (length b')); [lia|]. apply coef_repeat0.
Qed.

Lemma linear_binomial (x : K) : [- x; 1] = binomial 1 (x ^ 1).
Proof. unfold binomial. cbn [repeat app Nat.sub fpow]. f_equal. ring. Qed.

Lemma mcl_proof_single_spec ks (s : K) len (p : list K) (x : K) : setup_powers ks s len ->
  exists q, euclid p (binomial 1 (x ^ 1)) q /\ length q = (length p - 1)%nat /\
    mcl_compute_proof_single ks p x = Ok (smul (peval (firstn len q) s) gen1).
Proof.
  intros HS. unfold mcl_compute_proof_single. rewrite linear_binomial.
  assert (B := binomial_length 1 (x ^ 1) (le_n _)).
  destruct (mcl_long_division_spec p (binomial 1 (x ^ 1))) as (q & E & Hq).
  - intros EE. rewrite EE in B. discriminate.
  - rewrite B. replace (2 - 1)%nat with 1%nat by lia. rewrite binomial_monic by auto. apply f1_neq_0.
  - exists q. split; [exact Hq|]. assert (Lq : length q = (length p - 1)%nat) by (destruct Hq as (Lq & _); rewrite Lq, B; lia).
    split; [exact Lq|]. rewrite E. cbn [unwrap bind]. f_equal.
    assert (L1 : length (secret_g1 ks) = len) by (destruct HS as (S1 & _); rewrite S1; apply length_map_seq). rewrite L1.
    rewrite (mcl_mul_vec_powers ks s len) by (auto; lia). f_equal. f_equal.
    destruct (Nat.le_ge_cases len (length q)); [now rewrite Nat.min_l by lia|].
    rewrite Nat.min_r by lia. now rewrite !firstn_all2 by lia.
Qed.

Lemma mcl_proof_multi_spec ks (s : K) len m (p : list K) (x : K) : setup_powers ks s len -> short (2 * length p) ->
  exists q r, euclid p (binomial (2 ^ m) (x ^ (2 ^ m))) q /\ length q = (length p - 2 ^ m)%nat /\ (length r <= 2 ^ m)%nat /\
    (forall z, peval p z = peval q z * (z ^ (2 ^ m) - x ^ (2 ^ m)) + peval r z) /\
    ((length p - 2 ^ m <= len)%nat -> mcl_compute_proof_multi pr5 ks p x (2 ^ m) = Ok (smul (peval q s) gen1)) /\
    ((len < length p - 2 ^ m)%nat -> mcl_compute_proof_multi pr5 ks p x (2 ^ m) = Panic).
Proof.
  intros HS HF. set (n := (2 ^ m)%nat). assert (Hn : (0 < n)%nat) by apply pow2_pos.
  assert (B := binomial_length n (x ^ n) Hn).
  destruct (mcl_div_monic p (binomial n (x ^ n)) HF) as (q & Eq & Hq).
  - intros E. rewrite E in B. discriminate.
  - rewrite B. replace (S n - 1)%nat with n by lia. rewrite binomial_monic by auto. apply f1_neq_0.
  - assert (Lq : length q = (length p - n)%nat) by (destruct Hq as (Lq & _); rewrite Lq, B; lia).
    destruct (euclid_eval _ _ _ Hq) as (r & Lr & Hr). exists q, r. split; [exact Hq|]. split; [exact Lq|]. split; [lia|]. split.
    { intros z. rewrite Hr, binomial_eval by auto. reflexivity. }
    assert (CP : mcl_compute_proof_multi pr5 ks p x n = unwrap (commit_to_poly ks q)).
    { unfold mcl_compute_proof_multi. unfold n at 1. rewrite mcl_is_pow_pow. cbn [bind negb].
      rewrite mcl_fr_pow_spec. destruct (Nat.eqb_spec n 0); [lia|]. cbn [bind].
      assert (DL := divisor_loop n (x ^ n) Hn).
      destruct (for_range 1 n (fun _ d => Ok (d ++ [f0])) [- x ^ n]) as [d| | |]; try discriminate.
      cbn [bind] in *. injection DL as ->. rewrite Eq. cbn [unwrap bind]. now rewrite mcl_commit_eq. }
    rewrite CP. split; intros H.
    + now rewrite (commit_spec ks s len) by (auto; lia).
    + rewrite commit_err; auto. destruct HS as (S1 & _). rewrite S1, length_map_seq. lia.
Qed.

Lemma mcl_is_pow_not n : (0 < n)%nat -> (forall m, n <> 2 ^ m)%nat -> mcl_is_power_of_2 (N.of_nat n) = Ok false.
Proof.
  intros H0 H. fold (Model_MclZero.mcl_is_pow n). rewrite mcl_is_pow_eq by auto. f_equal. destruct (is_pow2 n) eqn:E; auto. apply is_pow2_spec in E as (m & ->). now elim (H m).
Qed.

Lemma mcl_proof_multi_errors ks (p : list K) (x : K) n :
  ((0 < n)%nat -> (forall m, n <> 2 ^ m)%nat -> mcl_compute_proof_multi pr5 ks p x n = Err) /\
  mcl_compute_proof_multi pr5 ks p x 0 = Panic.
Proof.
  split; [|reflexivity]. intros H0 H. unfold mcl_compute_proof_multi. now rewrite mcl_is_pow_not by auto.
Qed.

(** ** checks *)
Variable fexp : K.
Hypothesis Hfexp : fexp <> 0.

Lemma mcl_verify_eq (a1 : PG1 P) (a2 : PG2 P) (b1 : PG1 P) (b2 : PG2 P) :
  mcl_verify_pairing fexp a1 a2 b1 b2 = pairings_verify a1 a2 b1 b2.
Proof.
  unfold mcl_verify_pairing, pairings_verify. rewrite pe_neg_l. apply eq_true_iff_eq. rewrite !(geqb_spec _ (PGT P)). split.
  - intros E. now apply (smul_cancel fexp).
  - intros ->. apply smul_0_r.
Qed.

Lemma mcl_check_single_eq ks (com proof : PG1 P) x y :
  mcl_check_proof_single fexp ks com proof x y = check_proof_single ks com proof x y.
Proof.
  unfold mcl_check_proof_single, check_proof_single. destruct (idx (secret_g2 ks) 1); cbn [bind]; auto. now rewrite mcl_verify_eq.
Qed.

Theorem mcl_single_complete ks (s : K) len (p : list K) x : setup_powers ks s len ->
  (length p <= len)%nat -> (2 <= len)%nat ->
  exists com proof, mcl_commit ks p = Ok com /\ mcl_compute_proof_single ks p x = Ok proof /\
    mcl_check_proof_single fexp ks com proof x (peval p x) = Ok true /\
    forall y, y <> peval p x -> mcl_check_proof_single fexp ks com proof x y = Ok false.
Proof.
  intros HS Hp H2. destruct (mcl_proof_single_spec ks s len p x HS) as (q & Hq & Lq & CP).
  rewrite firstn_all2 in CP by lia.
  destruct (euclid_eval _ _ _ Hq) as (r & Lr & Hr0). rewrite binomial_length in Lr by auto.
  assert (Hr : forall z, peval p z = peval q z * (z - x) + peval r z) by (intros z; rewrite Hr0, binomial_eval by auto; cbn [fpow]; ring).
  do 2 eexists. split; [rewrite mcl_commit_eq; apply (commit_spec ks s len); auto|]. split; [exact CP|].
  assert (R : forall z, peval r z = coef r 0).
  { intros z. destruct r as [|c [|d r]]; cbn [length] in Lr; [reflexivity| |lia]. unfold coef. cbn [nth peval]. ring. }
  assert (Ex : peval p x = coef r 0) by (rewrite Hr, R; ring).
  assert (Es : peval p s - peval p x = (s - x) * peval q s) by (rewrite Ex, Hr, R; ring).
  assert (CH : forall y, exists b, mcl_check_proof_single fexp ks (smul (peval p s) gen1) (smul (peval q s) gen1) x y = Ok b /\ (b = true <-> y = peval p x)).
  { intros y. rewrite mcl_check_single_eq.
    destruct (check_single_spec ks s len (smul (peval p s) gen1) (smul (peval q s) gen1) x y HS H2) as (b & E & Hb).
    exists b. split; auto. rewrite Hb. rewrite smul_smul, gsub_smul, <- Es. split.
    - intros E2. apply smul_gen_inj in E2; [|apply gen1_neq_0].
      transitivity (peval p s - (peval p s - y)); [ring|]. rewrite E2. ring.
    - intros ->. reflexivity. }
  split.
  - destruct (CH (peval p x)) as (b & E & Hb). rewrite E. f_equal. now apply Hb.
  - intros y Hy. destruct (CH y) as (b & E & Hb). rewrite E. f_equal. destruct b; auto. elim Hy. now apply Hb.
Qed.

(** the check on a power-of-two number of values *)
Lemma mcl_check_multi_eq ks k (w : K) m j (com proof : PG1 P) x (ys : list K) :
  settings_ok (kzg_fs ks) k w -> (k < 32)%nat -> (j <= k)%nat -> (j < 31)%nat -> length ys = (2 ^ j)%nat ->
  mcl_check_proof_multi fexp ks com proof x ys (2 ^ m) = check_proof_multi ks com proof x ys (2 ^ m).
Proof.
  intros HF Hk Hm H31 Ly. unfold mcl_check_proof_multi, check_proof_multi.
  rewrite mcl_is_pow_pow. rewrite is_pow2_pow. cbn [bind negb].
  rewrite (mcl_fft_eq (kzg_fs ks) k w HF Hk j) by auto.
  destruct (ifft_fr_interpolates (kzg_fs ks) k w j ys HF Hm Ly) as (J & EJ & LJ & HJ). rewrite EJ. cbn [unwrap bind].
  destruct (for_range 1 (2 ^ m) _ _) as [(interp & ip)| | |]; cbn [bind]; auto.
  destruct (idx (secret_g2 ks) (2 ^ m)); cbn [bind]; auto. rewrite mcl_commit_eq.
  destruct (commit_to_poly ks _); cbn [unwrap bind]; auto. now rewrite mcl_verify_eq.
Qed.

(** missing values are taken to be zero *)
Lemma mcl_check_multi_pad ks k (w : K) m (com proof : PG1 P) x (ys : list K) z n :
  settings_ok (kzg_fs ks) k w -> (k < 32)%nat -> (m <= k)%nat -> (length ys + z = 2 ^ m)%nat -> (m = 0 \/ 2 ^ (m - 1) < length ys)%nat ->
  mcl_check_proof_multi fexp ks com proof x ys n = mcl_check_proof_multi fexp ks com proof x (ys ++ repeat 0 z) n.
Proof.
  intros HF Hk Hm L B. unfold mcl_check_proof_multi.
  assert (E : mcl_fft (kzg_fs ks) ys true = mcl_fft (kzg_fs ks) (ys ++ repeat 0 z) true).
  { rewrite (mcl_fft_exact (kzg_fs ks) k w m (ys ++ repeat 0 z)) by (auto; rewrite app_length, repeat_length; auto).
    destruct (mcl_fft_pad (kzg_fs ks) k w ys true HF) as (m' & H1 & H2 & H3 & H4).
    - assert (2 ^ m <= 2 ^ k)%nat by (apply Nat.pow_le_mono_r; lia). lia.
    - change (2 ^ 63)%N with (2 ^ N.of_nat 63)%N. apply pow2_N_le. lia.
    - assert (EM : m' = m).
      { assert (2 ^ m' < 2 * 2 ^ m)%nat.
        { destruct H3 as [->|H3]; [assert (P2 := pow2_pos m); simpl; lia|]. destruct m' as [|m']; [assert (P2 := pow2_pos m); simpl; lia|].
          replace (S m' - 1)%nat with m' in H3 by lia. simpl. lia. }
        assert (2 ^ m < 2 * 2 ^ m')%nat.
        { destruct B as [->|B]; [assert (P2 := pow2_pos m'); simpl; lia|]. destruct m as [|j]; [assert (P2 := pow2_pos m'); simpl; lia|].
          replace (S j - 1)%nat with j in B by lia. simpl. lia. }
        change (2 * 2 ^ m)%nat with (2 ^ S m)%nat in *. change (2 * 2 ^ m')%nat with (2 ^ S m')%nat in *.
        apply Nat.pow_lt_mono_r_iff in H; [|lia]. apply Nat.pow_lt_mono_r_iff in H0; lia. }
      subst m'. rewrite H4. now replace (2 ^ m - length ys)%nat with z by lia. }
  rewrite E. reflexivity.
Qed.

Theorem mcl_multi_complete ks (s : K) len k (w : K) m (p : list K) x :
  setup_powers ks s len -> settings_ok (kzg_fs ks) k w -> (k < 32)%nat -> (m <= k)%nat -> (m < 31)%nat -> (2 ^ m < len)%nat ->
  short (2 * length p) -> (length p <= len)%nat -> (x <> 0 \/ m = 0%nat) ->
  exists com proof, mcl_commit ks p = Ok com /\ mcl_compute_proof_multi pr5 ks p x (2 ^ m) = Ok proof /\
    mcl_check_proof_multi fexp ks com proof x (map (fun i => peval p (x * (w ^ (2 ^ (k - m))) ^ i)) (seq 0 (2 ^ m))) (2 ^ m) = Ok true.
Proof.
  intros HS HF Hk Hm H31 Hl Hfit Hp Hx.
  destruct (mcl_proof_multi_spec ks s len m p x HS Hfit) as (q & r & _ & Lq & Lr & Hr & CP & _). specialize (CP ltac:(lia)).
  do 2 eexists. split; [rewrite mcl_commit_eq; apply (commit_spec ks s len); auto|]. split; [exact CP|].
  assert (PW : forall i, (x * (w ^ (2 ^ (k - m))) ^ i) ^ (2 ^ m) = x ^ (2 ^ m)).
  { intros i. rewrite fpow_mul_base. rewrite <- (fpow_mul (w ^ (2 ^ (k - m)))), Nat.mul_comm, fpow_mul.
    destruct (primitive_fold w k m Hm ltac:(apply HF)) as (E1 & _). rewrite E1, fpow_1_l. ring. }
  rewrite (mcl_check_multi_eq ks k w m m) by (auto; apply length_map_seq).
  destruct (check_multi_meaning ks s len k w m (smul (peval p s) gen1) (smul (peval q s) gen1) x
     (map (fun i => peval p (x * (w ^ (2 ^ (k - m))) ^ i)) (seq 0 (2 ^ m))) r) as (b & E & Hb); auto.
  - apply length_map_seq.
  - intros i Hi. rewrite nth_map_seq by auto. rewrite Hr, PW. ring.
  - rewrite E. f_equal. apply Hb. rewrite gsub_smul, smul_smul. f_equal. rewrite Hr. ring.
Qed.

Lemma mcl_check_multi_errors ks (com proof : PG1 P) x (ys : list K) n :
  ((0 < n)%nat -> (forall m, n <> 2 ^ m)%nat -> mcl_check_proof_multi fexp ks com proof x ys n = Err) /\
  mcl_check_proof_multi fexp ks com proof x ys 0 = Panic /\
  (forall m, (max_width (kzg_fs ks) < length ys)%nat -> mcl_check_proof_multi fexp ks com proof x ys (2 ^ m) = Panic).
Proof.
  split; [|split; [reflexivity|]].
  - intros H0 H. unfold mcl_check_proof_multi. now rewrite mcl_is_pow_not by auto.
  - intros m H. unfold mcl_check_proof_multi. rewrite mcl_is_pow_pow. cbn [bind negb]. now rewrite mcl_fft_long by auto.
Qed.
End KZG.
