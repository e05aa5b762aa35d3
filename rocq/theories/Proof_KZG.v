(** * Proof_KZG: commitments and opening proofs, over an arbitrary field and pairing *)
From Coq Require Import List Arith Lia Bool NArith Field.
From Verif Require Import Base Fld Poly Loops Model_Utils Proof_Utils Model_FFT Spec Proof_FFT.
From Verif Require Import Model_Poly Proof_Poly1 Proof_Poly2 Model_KZG Proof_Recovery.
Import ListNotations.

Section Alg.
Context {K : fld} {M : gmod K}.
Add Field Kfk0 : (fld_field K).
Local Open Scope fld_scope.
Lemma gsub_smul (x y : K) (a : M) : gsub (smul x a) (smul y a) = smul (x - y) a.
Proof. symmetry. apply smul_sub_l. Qed.
Lemma smul_gen_inj (x y : K) (a : M) : a <> g0 -> smul x a = smul y a -> x = y.
Proof.
  intros Ha E. destruct (feqb x y) eqn:F; [now apply feqb_spec|]. exfalso. apply Ha. apply (smul_cancel (x - y)).
  - intros Z. apply fsub_eq_0 in Z. apply feqb_spec in Z. congruence.
  - rewrite smul_sub_l, E. apply gsub_diag.
Qed.
Lemma gsub_eq_iff (a b c : M) : gsub a b = c <-> a = gadd c b.
Proof.
  split.
  - intros <-. symmetry. apply gsub_add.
  - intros ->. unfold gsub. rewrite <- gadd_assoc, gadd_neg_r. apply gadd_0_r.
Qed.
Lemma gadd_exchange (a b c d : M) : gadd a b = gadd c d -> gsub d b = gsub a c.
Proof.
  intros E. apply gsub_eq_iff. unfold gsub. rewrite (gadd_comm _ _ a), <- gadd_assoc, E, gadd_assoc, (gadd_comm _ _ (gneg c)), gadd_neg_r.
  now rewrite gadd_0_l.
Qed.
End Alg.

Section KZG.
Context {K : fld} {P : pairing K}.
Add Field Kfk : (fld_field K).
Local Open Scope fld_scope.
Implicit Types (ks : kzg_settings P).

Lemma pe_neg_l (a : PG1 P) (b : PG2 P) : pe (gneg a) b = gneg (pe a b).
Proof. apply gneg_unique. rewrite <- pe_add_l, gadd_neg_r. 
  assert (E : pe (g0 : PG1 P) b = g0) by (rewrite <- (smul_0_l (g0 : PG1 P)), pe_smul_l; apply smul_0_l).
  exact E. Qed.
Lemma pe_sub_l (a a' : PG1 P) (b : PG2 P) : pe (gsub a a') b = gsub (pe a b) (pe a' b).
Proof. unfold gsub. now rewrite pe_add_l, pe_neg_l. Qed.

(** two pairings with the second arguments known multiples of the generator *)
Lemma pairings_verify_spec (a1 b1 : PG1 P) (c : K) :
  pairings_verify a1 gen2 b1 (smul c gen2) = true <-> a1 = smul c b1.
Proof.
  unfold pairings_verify. rewrite (geqb_spec _ (PGT P)). rewrite pe_smul_r, <- pe_smul_l, <- pe_add_l.
  split.
  - intros E. apply pe_nondeg in E. rewrite gadd_comm in E. apply gsub_0 in E. auto.
  - intros ->. rewrite gadd_comm, gadd_neg_r.
    rewrite <- (smul_0_l (g0 : PG1 P)), pe_smul_l. apply smul_0_l.
Qed.

(** ** trusted setup *)
Lemma trusted_setup_spec n (s : K) :
  @trusted_setup K P n s = Ok (map (fun i => smul (s ^ i) gen1) (seq 0 n), map (fun i => smul (s ^ i) gen2) (seq 0 n)).
Proof.
  unfold trusted_setup.
  match goal with |- context [for_range 0 n ?bd ?s0] =>
    destruct (for_range_inv (fun t (st : K * list (PG1 P) * list (PG2 P)) =>
      st = (s ^ t, map (fun i => smul (s ^ i) gen1) (seq 0 t), map (fun i => smul (s ^ i) gen2) (seq 0 t))) bd 0 n s0) as (st & E & ->) end.
  - lia.
  - reflexivity.
  - intros j t Hj ->. eexists. split; [reflexivity|]. rewrite !seq_S, !map_app. cbn [map Nat.add fpow].
    do 2 f_equal. ring.
  - rewrite E. reflexivity.
Qed.

Definition setup_powers (ks : kzg_settings P) (s : K) (len : nat) : Prop :=
  secret_g1 ks = map (fun i => smul (s ^ i) gen1) (seq 0 len) /\
  secret_g2 ks = map (fun i => smul (s ^ i) gen2) (seq 0 len).

Lemma kzg_new_spec table sg1 sg2 len (fs : fft_settings K) :
  table_ok table -> (0 < length table)%nat ->
  (max_width fs <= length sg1)%nat -> (max_width fs <= length sg2)%nat -> (max_width fs <= len)%nat ->
  ((len <= length sg1)%nat -> (len <= length sg2)%nat ->
     kzg_new table sg1 sg2 len fs = Ok (mkKZG (P := P) fs (firstn len sg1) (firstn len sg2))) /\
  ((length sg1 < len \/ length sg2 < len)%nat -> kzg_new table sg1 sg2 len fs = Panic (A := kzg_settings P)).
Proof.
  intros HT H0 A B C. unfold kzg_new.
  destruct (Nat.ltb_spec (length sg1) (max_width fs)); [lia|].
  destruct (Nat.ltb_spec (length sg2) (max_width fs)); [lia|].
  destruct (Nat.ltb_spec len (max_width fs)); [lia|].
  assert (LOOP : forall n, (n <= length sg1)%nat -> (n <= length sg2)%nat ->
    for_range 0 n (fun i (st : list (PG1 P) * list (PG2 P)) =>
        let (a, b) := st in let* x := idx sg1 i in let* y := idx sg2 i in Ok (a ++ [x], b ++ [y])) ([], [])
    = Ok (firstn n sg1, firstn n sg2)).
  { intros n L1 L2.
    match goal with |- for_range 0 n ?bd ?s0 = _ =>
      destruct (for_range_inv (fun t (st : list (PG1 P) * list (PG2 P)) => st = (firstn t sg1, firstn t sg2)) bd 0 n s0) as (st & E & ->); auto end.
    - lia.
    - intros j t Hj ->. rewrite (idx_ok sg1 j g0) by lia. cbn [bind]. rewrite (idx_ok sg2 j g0) by lia. cbn [bind].
      eexists. split; [reflexivity|]. now rewrite (firstn_snoc sg1 j g0), (firstn_snoc sg2 j g0) by lia. }
  split.
  - intros L1 L2. rewrite LOOP by auto. cbn [bind fst snd]. now rewrite fft_settings_clone_ok.
  - intros L. set (n := Nat.min (length sg1) (length sg2)). assert (Hn : (n < len)%nat) by (unfold n; lia).
    specialize (LOOP n ltac:(unfold n; lia) ltac:(unfold n; lia)). unfold for_range in *. rewrite Nat.sub_0_r in *.
    replace len with (n + S (len - n - 1))%nat by lia. rewrite for_app, LOOP. cbn [bind for_ Nat.add].
    destruct (Nat.lt_ge_cases n (length sg1)).
    + rewrite (idx_ok sg1 n g0) by lia. cbn [bind]. rewrite (idx_panic sg2) by (unfold n in *; lia). reflexivity.
    + rewrite (idx_panic sg1) by lia. reflexivity.
Qed.

Lemma kzg_new_errors table sg1 sg2 len (fs : fft_settings K) :
  (length sg1 < max_width fs \/ length sg2 < max_width fs \/ len < max_width fs)%nat ->
  kzg_new table sg1 sg2 len fs = Err (A := kzg_settings P).
Proof.
  intros H. unfold kzg_new.
  destruct (Nat.ltb_spec (length sg1) (max_width fs)); auto.
  destruct (Nat.ltb_spec (length sg2) (max_width fs)); auto.
  destruct (Nat.ltb_spec len (max_width fs)); auto. lia.
Qed.

(** ** linear combinations and commitments *)
Lemma g1_lincomb_spec (p : list (PG1 P)) (c : list K) len : (len <= length p)%nat -> (len <= length c)%nat ->
  g1_linear_combination p c len = Ok (gsum len (fun i => smul (nth i c 0) (nth i p g0))).
Proof.
  intros Hp Hc. unfold g1_linear_combination. destruct (Nat.ltb_spec len 8).
  - match goal with |- for_range 0 len ?bd ?s0 = _ =>
      destruct (for_range_inv (fun t (o : PG1 P) => o = gsum t (fun i => smul (nth i c 0) (nth i p g0))) bd 0%nat len s0) as (st & E & ->); auto end.
    + lia.
    + intros j t Hj ->. rewrite (idx_ok p j g0) by lia. cbn [bind]. rewrite (idx_ok c j 0) by lia. cbn [bind].
      eexists. split; [reflexivity|]. reflexivity.
  - rewrite (idx_ok p 0 g0) by lia. cbn [bind]. rewrite (push_loop _ (fun i => nth i c 0)).
    2: { intros i l Hi. rewrite (idx_ok c i 0) by lia. reflexivity. }
    cbn [bind]. destruct (Nat.ltb_spec (length p) len); [lia|]. f_equal. apply gsum_ext. intros i Hi. now rewrite nth_map_seq.
Qed.

Lemma commit_lincomb ks (p : list K) : (length p <= length (secret_g1 ks))%nat ->
  commit_to_poly ks p = Ok (gsum (length p) (fun i => smul (coef p i) (nth i (secret_g1 ks) g0))).
Proof.
  intros H. unfold commit_to_poly. destruct (Nat.ltb_spec (length (secret_g1 ks)) (length p)); [lia|].
  now apply g1_lincomb_spec.
Qed.

Lemma commit_spec ks (s : K) len (p : list K) : setup_powers ks s len -> (length p <= len)%nat ->
  commit_to_poly ks p = Ok (smul (peval p s) gen1).
Proof.
  intros (S1 & _) H. assert (L : length (secret_g1 ks) = len) by (rewrite S1; apply length_map_seq).
  rewrite commit_lincomb by lia. f_equal. rewrite peval_sum. rewrite <- gsum_scal. apply gsum_ext. intros i Hi.
  rewrite S1, nth_map_seq by lia. now rewrite smul_smul.
Qed.

Lemma commit_err ks (p : list K) : (length (secret_g1 ks) < length p)%nat -> commit_to_poly ks p = Err.
Proof. intros H. unfold commit_to_poly. apply Nat.ltb_lt in H. now rewrite H. Qed.

Lemma commit_homomorphic ks (a b : K) (p q : list K) : length p = length q -> (length p <= length (secret_g1 ks))%nat ->
  exists Cp Cq, commit_to_poly ks p = Ok Cp /\ commit_to_poly ks q = Ok Cq /\
    commit_to_poly ks (map (fun i => a * coef p i + b * coef q i) (seq 0 (length p))) = Ok (gadd (smul a Cp) (smul b Cq)).
Proof.
  intros L H. do 2 eexists. split; [now apply commit_lincomb|]. split; [apply commit_lincomb; lia|].
  rewrite commit_lincomb by (rewrite length_map_seq; auto). rewrite length_map_seq. f_equal.
  rewrite <- !gsum_smul. rewrite <- L. rewrite <- gsum_add. apply gsum_ext. intros i Hi.
  rewrite coef_map_seq. destruct (Nat.ltb_spec i (length p)); [|lia].
  now rewrite smul_add_l, !smul_smul.
Qed.

(** trailing zero coefficients do not matter *)
Lemma commit_trailing ks (p : list K) z : (length p + z <= length (secret_g1 ks))%nat ->
  commit_to_poly ks (p ++ repeat 0 z) = commit_to_poly ks p.
Proof.
  intros H. rewrite !commit_lincomb by (rewrite ?app_length, ?repeat_length; lia). f_equal.
  rewrite app_length, repeat_length, gsum_split.
  rewrite (gsum_0 z); [rewrite gadd_0_r; apply gsum_ext|].
  - intros i Hi. rewrite coef_app. destruct (Nat.ltb_spec i (length p)); [reflexivity|lia].
  - intros i Hi. rewrite coef_app. destruct (Nat.ltb_spec (length p + i) (length p)); [lia|].
    rewrite coef_repeat0. apply smul_0_l.
Qed.

(** ** single checks *)
Lemma check_single_spec ks (s : K) len (com proof : PG1 P) x y : setup_powers ks s len -> (2 <= len)%nat ->
  exists b, check_proof_single ks com proof x y = Ok b /\
    (b = true <-> gsub com (smul y gen1) = smul (s - x) proof).
Proof.
  intros (_ & S2) H. unfold check_proof_single.
  rewrite (idx_ok _ 1 g0) by (rewrite S2, length_map_seq; lia). cbn [bind].
  rewrite S2, nth_map_seq by lia. eexists. split; [reflexivity|].
  rewrite gsub_smul. replace (s ^ 1 - x) with (s - x) by (cbn [fpow]; ring). apply pairings_verify_spec.
Qed.

Lemma check_single_panics ks (com proof : PG1 P) x y : (length (secret_g2 ks) < 2)%nat ->
  check_proof_single ks com proof x y = Panic.
Proof. intros H. unfold check_proof_single. now rewrite idx_panic by lia. Qed.

(** ** proofs *)
Definition binomial (n : nat) (c : K) : list K := [- c] ++ repeat 0 (n - 1) ++ [1].

Lemma binomial_length n c : (0 < n)%nat -> length (binomial n c) = S n.
Proof. intros H. unfold binomial. rewrite !app_length, repeat_length. cbn [length]. lia. Qed.

Lemma binomial_eval n c x : (0 < n)%nat -> peval (binomial n c) x = x ^ n - c.
Proof.
  intros H. unfold binomial. rewrite !peval_app, peval_repeat0, repeat_length. cbn [length peval].
  replace n with (1 + (n - 1))%nat at 2 by lia. rewrite fpow_add. cbn [fpow]. ring.
Qed.

Lemma binomial_monic n c : (0 < n)%nat -> coef (binomial n c) n = 1.
Proof.
  intros H. unfold binomial. rewrite !coef_app, repeat_length. cbn [length].
  destruct (Nat.ltb_spec n 1); [lia|]. destruct (Nat.ltb_spec (n - 1) (n - 1)); [lia|]. now rewrite Nat.sub_diag.
Qed.

Lemma divisor_loop n (c : K) : (0 < n)%nat ->
  (let* d := for_range 1 n (fun _ d => Ok (d ++ [f0])) [- c] in Ok (d ++ [1])) = Ok (binomial n c).
Proof.
  intros H.
  destruct (for_range_inv (fun t d => d = [- c] ++ repeat 0 (t - 1)) (fun _ d => Ok (d ++ [0])) 1 n [- c]) as (d & E & ->).
  - lia.
  - reflexivity.
  - intros j t Hj ->. eexists. split; [reflexivity|]. rewrite <- app_assoc. f_equal.
    replace (S j - 1)%nat with ((j - 1) + 1)%nat by lia. now rewrite repeat_app.
  - rewrite E. cbn [bind]. unfold binomial. now rewrite <- app_assoc.
Qed.

(** Euclidean division as an equation between values *)
Lemma euclid_eval (a b q : list K) : euclid a b q ->
  exists r, (length r < length b)%nat /\ forall x, peval a x = peval q x * peval b x + peval r x.
Proof.
  intros (_ & r & Lr & H). exists r. split; auto. intros x. rewrite <- peval_pmul.
  set (n := Nat.max (length a) (Nat.max (length (pmul q b)) (length r))).
  rewrite (peval_sum_n a x n), (peval_sum_n (pmul q b) x n), (peval_sum_n r x n) by (unfold n; lia).
  rewrite <- sum_add. apply sum_ext. intros i _. rewrite H, coef_pmul. ring.
Qed.

Variable table : list K.
Hypothesis Hdiv : forall a b : list K, fits (2 * length a) -> b <> [] -> coef b (length b - 1) <> 0 ->
  exists q, poly_div table a b = Ok q /\ euclid a b q.

Lemma proof_multi_spec ks (s : K) len m (p : list K) (x : K) : setup_powers ks s len -> fits (2 * length p) ->
  exists q r, euclid p (binomial (2 ^ m) (x ^ (2 ^ m))) q /\ length q = (length p - 2 ^ m)%nat /\ (length r <= 2 ^ m)%nat /\
    (forall z, peval p z = peval q z * (z ^ (2 ^ m) - x ^ (2 ^ m)) + peval r z) /\
    ((length p - 2 ^ m <= len)%nat -> compute_proof_multi table ks p x (2 ^ m) = Ok (smul (peval q s) gen1)) /\
    ((len < length p - 2 ^ m)%nat -> compute_proof_multi table ks p x (2 ^ m) = Panic).
Proof.
  intros HS HF. set (n := (2 ^ m)%nat). assert (Hn : (0 < n)%nat) by apply pow2_pos.
  assert (B := binomial_length n (x ^ n) Hn).
  destruct (Hdiv p (binomial n (x ^ n)) HF) as (q & Eq & Hq).
  - intros E. rewrite E in B. discriminate.
  - rewrite B. replace (S n - 1)%nat with n by lia. rewrite binomial_monic by auto. apply f1_neq_0.
  - assert (Lq : length q = (length p - n)%nat) by (destruct Hq as (Lq & _); rewrite Lq, B; lia).
    destruct (euclid_eval _ _ _ Hq) as (r & Lr & Hr). exists q, r. split; [exact Hq|]. split; [exact Lq|]. split; [lia|]. split.
    { intros z. rewrite Hr, binomial_eval by auto. reflexivity. }
    assert (CP : compute_proof_multi table ks p x n = unwrap (commit_to_poly ks q)).
    { unfold compute_proof_multi. unfold n at 1. rewrite is_pow2_pow. cbn [negb].
      rewrite fr_pow_spec. cbn [bind].
      assert (DL := divisor_loop n (x ^ n) Hn).
      destruct (for_range 1 n (fun _ d => Ok (d ++ [f0])) [- x ^ n]) as [d| | |]; try discriminate.
      cbn [bind] in *. injection DL as ->. rewrite Eq. reflexivity. }
    rewrite CP. split; intros H.
    + now rewrite (commit_spec ks s len) by (auto; lia).
    + rewrite commit_err; auto. destruct HS as (S1 & _). rewrite S1, length_map_seq. lia.
Qed.

Lemma proof_multi_errors ks (p : list K) (x : K) n : (forall m, n <> 2 ^ m)%nat -> compute_proof_multi table ks p x n = Err.
Proof.
  intros H. unfold compute_proof_multi. destruct (is_pow2 n) eqn:E; auto. apply is_pow2_spec in E as (m & ->). now elim (H m).
Qed.

(** completeness and meaning of single proofs *)
Theorem single_complete ks (s : K) len (p : list K) x : setup_powers ks s len -> fits (2 * length p) ->
  (length p <= len)%nat -> (2 <= len)%nat ->
  exists com proof, commit_to_poly ks p = Ok com /\ compute_proof_single table ks p x = Ok proof /\
    check_proof_single ks com proof x (peval p x) = Ok true /\
    forall y, y <> peval p x -> check_proof_single ks com proof x y = Ok false.
Proof.
  intros HS HF Hp H2. unfold compute_proof_single.
  destruct (proof_multi_spec ks s len 0 p x HS HF) as (q & r & _ & Lq & Lr & Hr & CP & _).
  simpl (2 ^ 0)%nat in *. specialize (CP ltac:(lia)).
  do 2 eexists. split; [apply (commit_spec ks s len); auto|]. split; [exact CP|].
  assert (R : forall z, peval r z = coef r 0).
  { intros z. destruct r as [|c [|d r]]; cbn [length] in Lr; [reflexivity| |lia]. unfold coef. cbn [nth peval]. ring. }
  assert (Ex : peval p x = coef r 0) by (rewrite Hr, R; cbn [fpow]; ring).
  assert (Es : peval p s - peval p x = (s - x) * peval q s).
  { rewrite Ex, Hr, R. cbn [fpow]. ring. }
  assert (CH : forall y, exists b, check_proof_single ks (smul (peval p s) gen1) (smul (peval q s) gen1) x y = Ok b /\ (b = true <-> y = peval p x)).
  { intros y. destruct (check_single_spec ks s len (smul (peval p s) gen1) (smul (peval q s) gen1) x y HS H2) as (b & E & Hb).
    exists b. split; auto. rewrite Hb. rewrite smul_smul, gsub_smul, <- Es. split.
    - intros E2. apply smul_gen_inj in E2; [|apply gen1_neq_0].
      transitivity (peval p s - (peval p s - y)); [ring|]. rewrite E2. ring.
    - intros ->. reflexivity. }
  split.
  - destruct (CH (peval p x)) as (b & E & Hb). rewrite E. f_equal. now apply Hb.
  - intros y Hy. destruct (CH y) as (b & E & Hb). rewrite E. f_equal. destruct b; auto. elim Hy. now apply Hb.
Qed.

(** ** multi checks *)
Lemma coset_loop (interp : list K) (ix : K) n : (0 < n)%nat -> (n <= length interp)%nat ->
  for_range 1 n (fun i (st : list K * K) =>
        let (interp, inv_x_pow) := st in
        let* c := idx interp i in
        let* interp := upd interp i (fmul c inv_x_pow) in
        Ok (interp, fmul inv_x_pow ix)) (interp, ix)
  = Ok (map (fun i => if (i <? n)%nat then nth i interp 0 * ix ^ i else nth i interp 0) (seq 0 (length interp)), ix ^ n).
Proof.
  intros H0 HL.
  match goal with |- for_range 1 n ?bd ?s0 = _ =>
    destruct (for_range_inv (fun t (st : list K * K) => length (fst st) = length interp /\ snd st = ix ^ t /\
      forall i, (i < length interp)%nat -> nth i (fst st) 0 = if (i <? t)%nat then nth i interp 0 * ix ^ i else nth i interp 0) bd 1%nat n s0)
      as ((r & ip) & E & L & Ei & I) end.
  - lia.
  - cbn [fst snd]. split; auto. split; [cbn [fpow]; ring|]. intros i Hi. destruct (Nat.ltb_spec i 1); auto.
    replace i with 0%nat by lia. cbn [fpow]. ring.
  - intros j (r & ip) Hj (L & Ei & I). cbn [fst snd] in *. rewrite (idx_ok r j 0) by lia. cbn [bind].
    rewrite upd_ok by lia. cbn [bind]. eexists. split; [reflexivity|]. cbn [fst snd]. split; [now rewrite set_length|].
    split; [rewrite Ei; cbn [fpow]; ring|]. intros i Hi. destruct (Nat.eq_dec i j) as [->|N].
    + rewrite nth_set_same by lia. rewrite I by lia. destruct (Nat.ltb_spec j j); [lia|]. destruct (Nat.ltb_spec j (S j)); [now rewrite Ei|lia].
    + rewrite nth_set_other by lia. rewrite I by lia. destruct (Nat.ltb_spec i j), (Nat.ltb_spec i (S j)); auto; lia.
  - rewrite E. cbn [fst snd] in *. f_equal. f_equal; auto. apply (nth_ext' 0); [now rewrite length_map_seq|].
    intros i Hi. rewrite nth_map_seq by lia. apply I. lia.
Qed.

Lemma finv_fpow (x : K) n : finv (finv x ^ n) = x ^ n.
Proof.
  induction n; cbn [fpow]; [apply finv1|]. now rewrite finv_mul, finv_involutive, IHn.
Qed.

Theorem check_multi_spec ks (s : K) len k (w : K) m (com proof : PG1 P) x (ys : list K) :
  setup_powers ks s len -> settings_ok (kzg_fs ks) k w -> (m <= k)%nat -> length ys = (2 ^ m)%nat -> (2 ^ m < len)%nat ->
  exists J b, check_proof_multi ks com proof x ys (2 ^ m) = Ok b /\ length J = (2 ^ m)%nat /\
    (forall i, (i < 2 ^ m)%nat -> peval J ((w ^ (2 ^ (k - m))) ^ i) = nth i ys 0) /\
    (b = true <-> gsub com (smul (peval J (finv x * s)) gen1) = smul (s ^ (2 ^ m) - x ^ (2 ^ m)) proof).
Proof.
  intros HS HF Hm Ly Hl. pose proof HS as (S1 & S2).
  destruct (ifft_fr_interpolates (kzg_fs ks) k w m ys HF Hm Ly) as (J & EJ & LJ & HJ).
  unfold check_proof_multi. rewrite is_pow2_pow. cbn [negb]. rewrite EJ. cbn [bind].
  rewrite coset_loop by (try apply pow2_pos; lia). cbn [bind].
  rewrite finv_fpow. rewrite (idx_ok _ (2 ^ m) g0) by (rewrite S2, length_map_seq; lia). cbn [bind].
  rewrite (commit_spec ks s len) by (auto; rewrite length_map_seq; lia). cbn [unwrap bind].
  exists J. eexists. split; [reflexivity|]. split; [auto|]. split; [exact HJ|].
  rewrite S2, nth_map_seq by lia. rewrite gsub_smul.
  assert (E : peval (map (fun i : nat => if i <? 2 ^ m then nth i J 0 * finv x ^ i else nth i J 0) (seq 0 (length J))) s = peval J (finv x * s)).
  { rewrite <- peval_geom0. f_equal. apply map_ext_seq. intros i Hi. destruct (Nat.ltb_spec i (2 ^ m)); [reflexivity|lia]. }
  rewrite E. apply pairings_verify_spec.
Qed.

(** the coset interpolation polynomial, for a non-zero offset *)
Theorem check_multi_meaning ks (s : K) len k (w : K) m (com proof : PG1 P) x (ys I : list K) :
  setup_powers ks s len -> settings_ok (kzg_fs ks) k w -> (m <= k)%nat -> length ys = (2 ^ m)%nat -> (2 ^ m < len)%nat ->
  (x <> 0 \/ m = 0%nat) -> (length I <= 2 ^ m)%nat ->
  (forall i, (i < 2 ^ m)%nat -> peval I (x * (w ^ (2 ^ (k - m))) ^ i) = nth i ys 0) ->
  exists b, check_proof_multi ks com proof x ys (2 ^ m) = Ok b /\
    (b = true <-> gsub com (smul (peval I s) gen1) = smul (s ^ (2 ^ m) - x ^ (2 ^ m)) proof).
Proof.
  intros HS HF Hm Ly Hl Hx LI HI.
  destruct (check_multi_spec ks s len k w m com proof x ys HS HF Hm Ly Hl) as (J & b & E & LJ & HJ & Hb).
  exists b. split; auto.
  assert (EV : peval J (finv x * s) = peval I s); [|now rewrite <- EV].
  destruct Hx as [Hx| ->].
  - assert (C : forall i, coef J i = coef (map (fun i => nth i I 0 * x ^ i) (seq 0 (length I))) i).
    { apply (domain_unique (kzg_fs ks) k w m (2 ^ m) HF Hm (le_n _)); [lia|rewrite length_map_seq; lia|].
      intros i Hi. rewrite HJ by auto. rewrite peval_geom0. now rewrite HI. }
    rewrite (peval_ext _ _ _ C), peval_geom0. f_equal. field. exact Hx.
  - simpl (2 ^ 0)%nat in *. destruct J as [|a [|? ?]]; try discriminate.
    assert (HJ0 := HJ 0%nat ltac:(lia)). assert (HI0 := HI 0%nat ltac:(lia)).
    destruct I as [|c [|? ?]]; cbn [length] in LI; try lia; cbn [peval] in *.
    + rewrite <- HI0 in HJ0. etransitivity; [|exact HJ0]. ring.
    + transitivity a; [ring|]. transitivity c; [|ring]. transitivity (nth 0 ys 0); [rewrite <- HJ0|rewrite <- HI0]; ring.
Qed.

Theorem multi_complete ks (s : K) len k (w : K) m (p : list K) x :
  setup_powers ks s len -> settings_ok (kzg_fs ks) k w -> (m <= k)%nat -> (2 ^ m < len)%nat ->
  fits (2 * length p) -> (length p <= len)%nat -> (x <> 0 \/ m = 0%nat) ->
  exists com proof, commit_to_poly ks p = Ok com /\ compute_proof_multi table ks p x (2 ^ m) = Ok proof /\
    check_proof_multi ks com proof x (map (fun i => peval p (x * (w ^ (2 ^ (k - m))) ^ i)) (seq 0 (2 ^ m))) (2 ^ m) = Ok true.
Proof.
  intros HS HF Hm Hl Hfit Hp Hx.
  destruct (proof_multi_spec ks s len m p x HS Hfit) as (q & r & _ & Lq & Lr & Hr & CP & _). specialize (CP ltac:(lia)).
  do 2 eexists. split; [apply (commit_spec ks s len); auto|]. split; [exact CP|].
  assert (PW : forall i, (x * (w ^ (2 ^ (k - m))) ^ i) ^ (2 ^ m) = x ^ (2 ^ m)).
  { intros i. rewrite fpow_mul_base. rewrite <- (fpow_mul (w ^ (2 ^ (k - m)))), Nat.mul_comm, fpow_mul.
    destruct (primitive_fold w k m Hm ltac:(apply HF)) as (E1 & _). rewrite E1, fpow_1_l. ring. }
  destruct (check_multi_meaning ks s len k w m (smul (peval p s) gen1) (smul (peval q s) gen1) x
     (map (fun i => peval p (x * (w ^ (2 ^ (k - m))) ^ i)) (seq 0 (2 ^ m))) r) as (b & E & Hb); auto.
  - apply length_map_seq.
  - intros i Hi. rewrite nth_map_seq by auto. rewrite Hr, PW. ring.
  - rewrite E. f_equal. apply Hb. rewrite gsub_smul, smul_smul. f_equal. rewrite Hr. ring.
Qed.

(** argument errors of check_proof_multi *)
Lemma check_multi_errors ks (com proof : PG1 P) x (ys : list K) n : (forall m, n <> 2 ^ m)%nat ->
  check_proof_multi ks com proof x ys n = Err.
Proof.
  intros H. unfold check_proof_multi. destruct (is_pow2 n) eqn:E; auto. apply is_pow2_spec in E as (m & ->). now elim (H m).
Qed.
Lemma check_multi_fft_err ks (com proof : PG1 P) x (ys : list K) m :
  fft_fr (kzg_fs ks) ys true = Err -> check_proof_multi ks com proof x ys (2 ^ m) = Err.
Proof. intros H. unfold check_proof_multi. rewrite is_pow2_pow, H. reflexivity. Qed.

Lemma check_multi_setup_panics ks (s : K) len k (w : K) m (com proof : PG1 P) x (ys : list K) :
  setup_powers ks s len -> settings_ok (kzg_fs ks) k w -> (m <= k)%nat -> length ys = (2 ^ m)%nat -> (len <= 2 ^ m)%nat ->
  check_proof_multi ks com proof x ys (2 ^ m) = Panic.
Proof.
  intros (S1 & S2) HF Hm Ly Hl.
  destruct (ifft_fr_interpolates (kzg_fs ks) k w m ys HF Hm Ly) as (J & EJ & LJ & HJ).
  unfold check_proof_multi. rewrite is_pow2_pow. cbn [negb]. rewrite EJ. cbn [bind].
  rewrite coset_loop by (try apply pow2_pos; lia). cbn [bind].
  rewrite idx_panic by (rewrite S2, length_map_seq; lia). reflexivity.
Qed.

Lemma check_multi_short_panics ks k (w : K) m j (com proof : PG1 P) x (ys : list K) :
  settings_ok (kzg_fs ks) k w -> (j <= k)%nat -> length ys = (2 ^ j)%nat -> (j < m)%nat ->
  check_proof_multi ks com proof x ys (2 ^ m) = Panic.
Proof.
  intros HF Hj Ly Hl.
  destruct (ifft_fr_interpolates (kzg_fs ks) k w j ys HF Hj Ly) as (J & EJ & LJ & HJ).
  unfold check_proof_multi. rewrite is_pow2_pow. cbn [negb]. rewrite EJ. cbn [bind].
  assert (Hlt : (2 ^ j < 2 ^ m)%nat) by (apply Nat.pow_lt_mono_r; lia). assert (Pj := pow2_pos j).
  assert (CL := coset_loop J (finv x) (2 ^ j) Pj ltac:(lia)). unfold for_range in *.
  replace (2 ^ m - 1)%nat with ((2 ^ j - 1) + S (2 ^ m - 2 ^ j - 1))%nat by lia. rewrite for_app, CL. cbn [bind for_].
  rewrite idx_panic by (rewrite length_map_seq; lia). reflexivity.
Qed.

(** more values than asked for: the call still answers *)
Lemma check_multi_answers ks (s : K) len k (w : K) m j (com proof : PG1 P) x (ys : list K) :
  setup_powers ks s len -> settings_ok (kzg_fs ks) k w -> (m <= j)%nat -> (j <= k)%nat -> length ys = (2 ^ j)%nat ->
  (2 ^ m < len)%nat -> (2 ^ j <= len)%nat -> exists b, check_proof_multi ks com proof x ys (2 ^ m) = Ok b.
Proof.
  intros HS HF Hm Hj Ly Hl Hjl. pose proof HS as (S1 & S2).
  destruct (ifft_fr_interpolates (kzg_fs ks) k w j ys HF Hj Ly) as (J & EJ & LJ & HJ).
  assert (2 ^ m <= 2 ^ j)%nat by (apply Nat.pow_le_mono_r; lia).
  unfold check_proof_multi. rewrite is_pow2_pow. cbn [negb]. rewrite EJ. cbn [bind].
  rewrite coset_loop by (try apply pow2_pos; lia). cbn [bind].
  rewrite (idx_ok _ (2 ^ m) g0) by (rewrite S2, length_map_seq; lia). cbn [bind].
  rewrite (commit_spec ks s len) by (auto; rewrite length_map_seq; lia). cbn [unwrap bind]. eauto.
Qed.

Lemma euclid_shift n (p : list K) : (0 < n)%nat -> euclid p (binomial n 0) (skipn n p).
Proof.
  intros H. split; [rewrite skipn_length, binomial_length by auto; lia|].
  exists (firstn n p). rewrite binomial_length, firstn_length by auto. split; [lia|].
  assert (CB : forall i, coef (binomial n (0 : K)) i = if (i =? n)%nat then 1 else 0).
  { intros i. unfold binomial. rewrite !coef_app, repeat_length. cbn [length]. destruct (Nat.eqb_spec i n) as [->|N].
    - destruct (Nat.ltb_spec n 1); [lia|]. destruct (Nat.ltb_spec (n - 1) (n - 1)); [lia|]. now rewrite Nat.sub_diag.
    - destruct (Nat.ltb_spec i 1).
      + replace i with 0%nat by lia. unfold coef. cbn [nth]. ring.
      + destruct (Nat.ltb_spec (i - 1) (n - 1)); [now rewrite coef_repeat0|].
        apply coef_over. cbn [length]. lia. }
  intros i. rewrite convol_comm. unfold convol. rewrite coef_firstn. destruct (Nat.ltb_spec i n) as [L|L].
  - rewrite sum_0; [ring|]. intros j Hj. rewrite CB. destruct (Nat.eqb_spec j n); [lia|ring].
  - rewrite (sum_single _ n).
    + rewrite CB, Nat.eqb_refl, coef_skipn. replace (n + (i - n))%nat with i by lia. ring.
    + lia.
    + intros j Hj N. rewrite CB. destruct (Nat.eqb_spec j n); [lia|ring].
Qed.

(** an offset of zero: the honest proof is accepted exactly when the remainder is constant at the secret *)
Theorem multi_zero_offset ks (s : K) len k (w : K) m (p : list K) :
  setup_powers ks s len -> settings_ok (kzg_fs ks) k w -> (m <= k)%nat -> (2 ^ m < len)%nat ->
  fits (2 * length p) -> (length p <= len)%nat ->
  exists com proof b, commit_to_poly ks p = Ok com /\ compute_proof_multi table ks p 0 (2 ^ m) = Ok proof /\
    check_proof_multi ks com proof 0 (repeat (peval p 0) (2 ^ m)) (2 ^ m) = Ok b /\
    (b = true <-> peval (firstn (2 ^ m) p) s = peval p 0).
Proof.
  intros HS HF Hm Hl Hfit Hp.
  destruct (proof_multi_spec ks s len m p 0 HS Hfit) as (q & r & Hq & Lq & Lr & Hr & CP & _). specialize (CP ltac:(lia)).
  assert (P2 := pow2_pos m). set (n := (2 ^ m)%nat) in *.
  assert (Z0 : (0 : K) ^ n = 0) by (replace n with (S (n - 1)) by lia; cbn [fpow]; ring).
  rewrite Z0 in *.
  assert (Eq : q = skipn n p).
  { apply (euclid_fun p (binomial n 0)); auto.
    - intros EE. apply (f_equal (@length K)) in EE. rewrite binomial_length in EE by auto. discriminate.
    - rewrite binomial_length by auto. replace (S n - 1)%nat with n by lia. rewrite binomial_monic by auto. apply f1_neq_0.
    - now apply euclid_shift. }
  destruct (check_multi_spec ks s len k w m (smul (peval p s) gen1) (smul (peval q s) gen1) 0 (repeat (peval p 0) n) HS HF Hm)
    as (J & b & E & LJ & HJ & Hb); [apply repeat_length|exact Hl|].
  do 3 eexists. split; [apply (commit_spec ks s len); auto|]. split; [exact CP|]. split; [exact E|].
  rewrite Hb, gsub_smul, smul_smul. fold n. rewrite Z0.
  assert (EJ : peval J (finv 0 * s) = peval p 0).
  { assert (C : forall i, coef J i = coef [peval p 0] i).
    { apply (domain_unique (kzg_fs ks) k w m n HF Hm (le_n _)); [unfold n; lia|cbn [length]; lia|].
      intros i Hi. rewrite HJ by auto. cbn [peval]. rewrite nth_repeat' by auto. ring. }
    rewrite (peval_ext _ _ _ C). cbn [peval]. ring. }
  rewrite EJ, Eq.
  assert (SP : peval p s = peval (firstn n p) s + s ^ n * peval (skipn n p) s).
  { rewrite <- (firstn_skipn n p) at 1. rewrite peval_app. destruct (Nat.le_gt_cases n (length p)).
    - now rewrite firstn_length_le.
    - rewrite skipn_all2 by lia. cbn [peval]. ring. }
  rewrite SP. split; intros H.
  - apply smul_gen_inj in H; [|apply gen1_neq_0].
    transitivity (peval (firstn n p) s + s ^ n * peval (skipn n p) s - peval p 0 - (s ^ n - 0) * peval (skipn n p) s + peval p 0); [ring|].
    rewrite H. ring.
  - f_equal. rewrite H. ring.
Qed.

(** two accepted values at one point reveal 1/(s-x) in the exponent *)
Theorem single_binding ks (s : K) len (com p1 p2 : PG1 P) x y1 y2 : setup_powers ks s len -> (2 <= len)%nat -> y1 <> y2 ->
  check_proof_single ks com p1 x y1 = Ok true -> check_proof_single ks com p2 x y2 = Ok true ->
  s <> x /\ smul (finv (s - x)) gen1 = smul (finv (y2 - y1)) (gsub p1 p2).
Proof.
  intros HS H2 N A B.
  destruct (check_single_spec ks s len com p1 x y1 HS H2) as (b1 & E1 & H1).
  destruct (check_single_spec ks s len com p2 x y2 HS H2) as (b2 & E2 & H2').
  rewrite A in E1. injection E1 as <-. rewrite B in E2. injection E2 as <-.
  assert (A1 := proj1 H1 eq_refl). assert (A2 := proj1 H2' eq_refl).
  assert (D : smul (y2 - y1) (gen1 : PG1 P) = smul (s - x) (gsub p1 p2)).
  { rewrite smul_sub_l, smul_sub_r. apply gsub_eq_iff in A1, A2. apply gadd_exchange. now rewrite <- A1, <- A2. }
  assert (NY : y2 - y1 <> 0) by (intros Z; apply fsub_eq_0 in Z; congruence).
  assert (NS : s - x <> 0).
  { intros Z. rewrite Z, smul_0_l in D. apply (gen1_neq_0 _ P). now apply (smul_cancel (y2 - y1)). }
  split; [intros ->; apply NS; ring|].
  apply (f_equal (smul (finv (s - x) * finv (y2 - y1)))) in D. rewrite !smul_smul in D.
  replace (finv (s - x) * finv (y2 - y1) * (y2 - y1)) with (finv (s - x)) in D by (field; auto).
  replace (finv (s - x) * finv (y2 - y1) * (s - x)) with (finv (y2 - y1)) in D by (field; auto).
  exact D.
Qed.
End KZG.
