(** * Proof_ZkKZG: commitments and opening proofs of the zkcrypto backend *)
From Coq Require Import List Arith Lia Bool ZArith NArith Field.
From Verif Require Import Base Fld Poly Loops Model_Utils Proof_Utils Model_FFT Spec Spec_More Proof_FFT Zr ZrTables Proof_FFTFr.
From Verif Require Import Model_Poly Proof_Poly1 Proof_Poly2 Proof_PolyFr Proof_MclPoly Proof_MclFr Model_KZG Spec_KZG Proof_KZG Proof_KZGFr.
From Verif Require Import Model_Zk Proof_Zk Proof_ZkFr Model_ZkMsm Proof_ZkMsm Proof_ZkMsmFr Model_ZkKZG Spec_ZkKZG.
Import ListNotations.

Lemma last_coef (p : list Fr) : last p f0 = coef p (length p - 1).
Proof. destruct p as [|a p]; [reflexivity|]. symmetry. apply coef_last. discriminate. Qed.

Lemma trimmed_coef (p p' : list Fr) : trimmed p p' -> forall i, coef p i = coef p' i.
Proof.
  intros ((z & ->) & _) i. rewrite coef_app. destruct (Nat.ltb_spec i (length p')); [reflexivity|].
  now rewrite coef_repeat0, coef_over by lia.
Qed.

Lemma trimmed_unique (p a b : list Fr) : trimmed p a -> trimmed p b -> a = b.
Proof.
  intros A B. assert (E : forall i, coef a i = coef b i) by (intros i; now rewrite <- (trimmed_coef p a A), <- (trimmed_coef p b B)).
  assert (L : length a = length b).
  { destruct A as (_ & A), B as (_ & B). rewrite last_coef in A, B.
    destruct (Nat.lt_trichotomy (length a) (length b)) as [H|[H|H]]; auto.
    - elim B. rewrite <- E. apply coef_over. lia.
    - elim A. rewrite E. apply coef_over. lia. }
  apply coef_ext; auto.
Qed.

Lemma trimmed_nonzero (p p' : list Fr) : trimmed p p' -> exists i, coef p i <> f0.
Proof. intros A. exists (length p' - 1). rewrite (trimmed_coef _ _ A), <- last_coef. apply A. Qed.

Lemma trimmed_le (p p' : list Fr) : trimmed p p' -> length p' <= length p.
Proof. intros ((z & ->) & _). rewrite app_length. lia. Qed.

Lemma trimmed_peval (p p' : list Fr) x : trimmed p p' -> peval p x = peval p' x.
Proof. intros A. apply peval_ext. now apply trimmed_coef. Qed.

Lemma trimmed_exists (p : list Fr) : (exists i, coef p i <> f0) -> exists p', trimmed p p'.
Proof.
  intros (i & Hi). destruct (poly_norm_spec p) as (p' & _ & (z & E) & [->|H]).
  - elim Hi. rewrite E. cbn [app]. apply coef_repeat0.
  - exists p'. split; eauto.
Qed.

Lemma fits_64 n m : fits n -> m <= n -> (N.of_nat m < 2 ^ 64)%N.
Proof. unfold fits. intros H L. eapply N.le_lt_trans; [|exact (eq_refl : (2 ^ 31 < 2 ^ 64)%N)]. lia. Qed.

Section P.
Context {P : pairing Fr}.
Implicit Types (ks : kzg_settings P).

Lemma zk_setup_points n secret : zk_generate_trusted_setup (P := P) n secret =
  if (le_value secret <? r)%Z then trusted_setup n (fr_of (le_value secret)) else Panic.
Proof. reflexivity. Qed.

Lemma zk_setup_inv ks k n s : zk_setup ks k n s ->
  k < 32 /\ setup_powers ks s n /\ settings_ok (kzg_fs ks) k (root k) /\ fft_settings_new blst_table k = Ok (kzg_fs ks).
Proof.
  intros (secret & fs & sg1 & sg2 & len & Hfs & Hg & Hk & ->). rewrite zk_new_blst in Hfs.
  destruct (new_inv k fs Hfs) as (K32 & HS). rewrite zk_setup_points in Hg.
  destruct (Z.ltb_spec (le_value secret) r); [|discriminate]. rewrite trusted_setup_spec in Hg. injection Hg as <- <-.
  unfold zk_kzg_new in Hk. injection Hk as <-. cbn [kzg_fs]. repeat split; auto; apply HS.
Qed.

Lemma zk_setup_exists k n len secret fs : zk_fft_settings_new zk_table k = Ok fs -> (le_value secret < r)%Z ->
  exists sg1 sg2 (ks : kzg_settings P), zk_generate_trusted_setup n secret = Ok (sg1, sg2) /\ zk_kzg_new sg1 sg2 len fs = Ok ks /\
    zk_setup ks k n (fr_of (le_value secret)) /\ kzg_fs ks = fs.
Proof.
  intros Hfs Hs. do 3 eexists. split; [|split; [reflexivity|split; [|reflexivity]]].
  - rewrite zk_setup_points. destruct (Z.ltb_spec (le_value secret) r); [|lia]. apply trusted_setup_spec.
  - exists secret, fs. do 3 eexists. split; [exact Hfs|]. split; [|split; reflexivity].
    rewrite zk_setup_points. destruct (Z.ltb_spec (le_value secret) r); [|lia]. apply trusted_setup_spec.
Unshelve. exact 0.
Qed.

Lemma C71_setup_proof n secret :
  ((r <= le_value secret)%Z -> zk_generate_trusted_setup (P := P) n secret = Panic) /\
  ((le_value secret < r)%Z -> exists g1s g2s,
     zk_generate_trusted_setup (P := P) n secret = Ok (g1s, g2s) /\ length g1s = n /\ length g2s = n /\
     forall i, i < n -> nth_error g1s i = Some (smul (fpow (fr_of (le_value secret)) i) gen1) /\
                        nth_error g2s i = Some (smul (fpow (fr_of (le_value secret)) i) gen2)).
Proof.
  rewrite zk_setup_points. destruct (Z.ltb_spec (le_value secret) r); split; intros H'; try lia; auto.
  rewrite trusted_setup_spec. do 2 eexists. split; [reflexivity|]. rewrite !length_map_seq. split; auto. split; auto.
  intros i Hi. rewrite !nth_error_map, !(nth_error_nth' (seq 0 n) 0), !seq_nth by (rewrite ?seq_length; auto). auto.
Qed.

(** ** commitments *)
Lemma zk_is_zero_spec (p : list Fr) : zk_is_zero p = true -> forall i, coef p i = f0.
Proof.
  unfold zk_is_zero. intros H i. apply orb_prop in H as [H|H].
  - apply Nat.eqb_eq in H. apply coef_over. lia.
  - unfold coef. destruct (Nat.lt_ge_cases i (length p)) as [L|L]; [|apply coef_over; lia].
    rewrite forallb_forall in H. specialize (H (nth i p f0) (nth_In _ _ L)). now apply feqb_spec in H.
Qed.

Lemma zk_commit_eq ks (p : list Fr) : (N.of_nat (length p) < 2 ^ 64)%N -> zk_commit_inner ks p = commit_to_poly ks p.
Proof.
  intros HL. unfold zk_commit_inner. destruct (Nat.ltb_spec (length (secret_g1 ks)) (length p)) as [L|L].
  { now rewrite commit_err. }
  rewrite commit_lincomb by lia. destruct (zk_is_zero p) eqn:E.
  - f_equal. symmetry. apply gsum_0. intros i _. rewrite (zk_is_zero_spec p E). apply smul_0_l.
  - rewrite msm_fr_spec by auto. rewrite Nat.min_l by lia. reflexivity.
Qed.

Lemma C71_commit_proof ks k n s (p : list Fr) : zk_setup ks k n s -> (N.of_nat (length p) < 2 ^ 64)%N ->
  (length p <= n -> zk_commit_to_poly ks p = Ok (smul (peval p s) gen1)) /\
  (n < length p -> zk_commit_to_poly ks p = Panic).
Proof.
  intros H HL. destruct (zk_setup_inv _ _ _ _ H) as (_ & S & _). unfold zk_commit_to_poly. rewrite zk_commit_eq by auto. split; intros L.
  - now rewrite (commit_spec ks s n).
  - rewrite commit_err; auto. destruct S as (S1 & _). rewrite S1, length_map_seq. lia.
Qed.

(** ** proofs *)
Lemma last_binomial n (c : Fr) : last (binomial n c) f0 = f1.
Proof. unfold binomial. rewrite app_assoc. apply last_last. Qed.

Lemma zk_compute_eq ks (p p' : list Fr) x m : fits (2 * length p) -> trimmed p p' ->
  zk_compute_proof_multi zk_table ks p x (2 ^ m) = compute_proof_multi blst_table ks p' x (2 ^ m).
Proof.
  intros F T. assert (Hn := pow2_pos m). set (n := 2 ^ m) in *.
  assert (TL := trimmed_le _ _ T).
  assert (F' : fits (2 * length p')) by (unfold fits in *; lia).
  assert (IP : is_pow2 n = true) by apply is_pow2_pow. clearbody n.
  unfold zk_compute_proof_multi, compute_proof_multi. rewrite IP. cbn [negb].
  rewrite fr_pow_spec. cbn [bind].
  assert (DL := divisor_loop n (fpow x n) Hn).
  destruct (for_range 1 n (fun _ d => Ok (d ++ [f0])) [fneg (fpow x n)]) as [d| | |]; try discriminate.
  cbn [bind] in *. apply Ok_inj in DL. rewrite DL.
  assert (B := binomial_length n (fpow x n) Hn).
  assert (NB : coef (binomial n (fpow x n)) n <> f0) by (rewrite binomial_monic by auto; apply f1_neq_0).
  destruct (C66_div_proof p (binomial n (fpow x n)) F (trimmed_nonzero _ _ T) (ex_intro _ n NB)) as (a' & b' & q & E & Ha & Hb & La & Lb & Q).
  assert (a' = p') as -> by (apply (trimmed_unique p); [split; auto|exact T]).
  assert (b' = binomial n (fpow x n)) as ->.
  { apply (trimmed_unique (binomial n (fpow x n))); split; auto.
    - exists 0. now rewrite app_nil_r.
    - rewrite last_binomial. apply f1_neq_0. }
  destruct (Hdiv_Fr p' (binomial n (fpow x n)) F') as (q' & E' & Q').
  - intros Z. rewrite Z in B. discriminate.
  - rewrite B. replace (S n - 1) with n by lia. exact NB.
  - rewrite E, E'. cbn [unwrap bind].
    assert (q' = q) as ->.
    { apply (euclid_fun p' (binomial n (fpow x n))); auto.
      - intros Z. rewrite Z in B. discriminate.
      - rewrite B. replace (S n - 1) with n by lia. exact NB. }
    rewrite zk_commit_eq; auto. apply (fits_64 _ _ F'). destruct Q as (Lq & _). rewrite Lq, B. lia.
Qed.

Lemma C71_compute_proof ks k n s (p : list Fr) x c : zk_setup ks k n s -> fits (2 * length p) ->
  ((forall m, c <> 2 ^ m) -> zk_compute_proof_multi zk_table ks p x c = Err) /\
  (forall m, c = 2 ^ m -> (forall i, coef p i = f0) -> zk_compute_proof_multi zk_table ks p x c = Panic) /\
  (forall m p', c = 2 ^ m -> trimmed p p' -> length p' <= n + c ->
     exists q, euclid p' ([fneg (fpow x c)] ++ repeat f0 (c - 1) ++ [f1]) q /\
       zk_compute_proof_multi zk_table ks p x c = Ok (smul (peval q s) gen1)) /\
  (forall m p', c = 2 ^ m -> trimmed p p' -> n + c < length p' -> zk_compute_proof_multi zk_table ks p x c = Panic).
Proof.
  intros H F. destruct (zk_setup_inv _ _ _ _ H) as (_ & S & _). split; [|split; [|split]].
  - intros N. unfold zk_compute_proof_multi. destruct (is_pow2 c) eqn:E; auto. apply is_pow2_spec in E as (m & ->). now elim (N m).
  - intros m -> Z. assert (Hn := pow2_pos m). set (c := 2 ^ m) in *.
    assert (IP : is_pow2 c = true) by apply is_pow2_pow. clearbody c.
    unfold zk_compute_proof_multi. rewrite IP. cbn [negb]. rewrite fr_pow_spec. cbn [bind].
    assert (DL := divisor_loop c (fpow x c) Hn).
    destruct (for_range 1 c (fun _ d => Ok (d ++ [f0])) [fneg (fpow x c)]) as [d| | |]; try discriminate.
    cbn [bind] in *. apply Ok_inj in DL. rewrite DL.
    destruct (C66_div_fail_proof p (binomial c (fpow x c)) F) as (_ & E). rewrite E; auto.
    exists c. rewrite binomial_monic by auto. apply f1_neq_0.
  - intros m p' -> T L. rewrite (zk_compute_eq ks p p') by auto. assert (TL := trimmed_le _ _ T).
    assert (F' : fits (2 * length p')) by (unfold fits in *; lia).
    destruct (proof_multi_spec blst_table Hdiv_Fr ks s n m p' x S F') as (q & r & Hq & _ & _ & _ & CP & _).
    exists q. split; [exact Hq|]. apply CP. lia.
  - intros m p' -> T L. rewrite (zk_compute_eq ks p p') by auto. assert (TL := trimmed_le _ _ T).
    assert (F' : fits (2 * length p')) by (unfold fits in *; lia).
    destruct (proof_multi_spec blst_table Hdiv_Fr ks s n m p' x S F') as (q & r & Hq & _ & _ & _ & _ & CP). apply CP. lia.
Qed.

Lemma zk_check_single_eq ks com proof x y : zk_check_proof_single ks com proof x y = check_proof_single ks com proof x y.
Proof. reflexivity. Qed.

Lemma C71_single_proof ks k n s (p : list Fr) x : zk_setup ks k n s -> fits (2 * length p) -> length p <= n -> 2 <= n ->
  (exists i, coef p i <> f0) ->
  exists com proof, zk_commit_to_poly ks p = Ok com /\ zk_compute_proof_single zk_table ks p x = Ok proof /\
    zk_check_proof_single ks com proof x (peval p x) = Ok true /\
    forall y, y <> peval p x -> zk_check_proof_single ks com proof x y = Ok false.
Proof.
  intros H F L L2 NZ. destruct (zk_setup_inv _ _ _ _ H) as (_ & S & _). destruct (trimmed_exists p NZ) as (p' & T).
  assert (TL := trimmed_le _ _ T). assert (F' : fits (2 * length p')) by (unfold fits in *; lia).
  destruct (single_complete blst_table Hdiv_Fr ks s n p' x S F' ltac:(lia) L2) as (com & proof & A & B & C & D).
  exists com, proof. rewrite (trimmed_peval p p' x T). repeat split; auto.
  - rewrite (commit_spec ks s n) in A by (auto; lia). apply Ok_inj in A. subst com. rewrite <- (trimmed_peval p p' s T).
    apply (C71_commit_proof ks k n s p H); auto. apply (fits_64 _ _ F). lia.
  - unfold zk_compute_proof_single. change 1 with (2 ^ 0). rewrite (zk_compute_eq ks p p') by auto. exact B.
Qed.

Lemma C71_single_check_proof ks k n s com proof x y : zk_setup ks k n s ->
  (2 <= n -> exists b, zk_check_proof_single ks com proof x y = Ok b /\
     (b = true <-> gsub com (smul y gen1) = smul (fsub s x) proof)) /\
  (n < 2 -> zk_check_proof_single ks com proof x y = Panic).
Proof.
  intros H. destruct (zk_setup_inv _ _ _ _ H) as (_ & S & _). rewrite zk_check_single_eq. split; intros L.
  - eapply check_single_spec; eauto.
  - apply check_single_panics. destruct S as (_ & S2). rewrite S2, length_map_seq. lia.
Qed.

Lemma C71_binding_proof ks k n s com p1 p2 x y1 y2 : zk_setup ks k n s -> 2 <= n -> y1 <> y2 ->
  zk_check_proof_single ks com p1 x y1 = Ok true -> zk_check_proof_single ks com p2 x y2 = Ok true ->
  s <> x /\ smul (finv (fsub s x)) gen1 = smul (finv (fsub y2 y1)) (gsub p1 p2).
Proof.
  intros H L N. rewrite !zk_check_single_eq. destruct (zk_setup_inv _ _ _ _ H) as (_ & S & _). now apply (single_binding ks s n).
Qed.

(** ** multi checks *)
Lemma zk_check_multi_eq ks k m com proof x (ys : list Fr) : settings_ok (kzg_fs ks) k (root k) -> fft_settings_new blst_table k = Ok (kzg_fs ks) ->
  acceptable (kzg_fs ks) (length ys) -> x <> f0 -> zk_check_proof_multi ks com proof x ys (2 ^ m) = check_proof_multi ks com proof x ys (2 ^ m).
Proof.
  intros HF N A Hx. unfold zk_check_proof_multi, check_proof_multi. rewrite is_pow2_pow. cbn [negb]. rewrite zfft.
  destruct (acceptable_m k _ _ N A) as (j & Ej & Hj).
  destruct (ifft_fr_interpolates (kzg_fs ks) k (root k) j ys HF Hj Ej) as (J & EJ & LJ & _). rewrite EJ. cbn [bind].
  unfold zk_inverse. destruct (feqb x f0) eqn:E; [apply feqb_spec in E; contradiction|]. cbn [bind].
  assert (2 ^ j <= 2 ^ k) by (apply Nat.pow_le_mono_r; lia).
  assert (K31 : k < 32) by apply (new_inv k _ N).
  assert (LN : (N.of_nat (2 ^ k) < 2 ^ 64)%N).
  { rewrite Nat2N.inj_pow. apply N.pow_lt_mono_r; lia. }
  destruct (Nat.le_gt_cases (2 ^ m) (length J)) as [L|L].
  - rewrite coset_loop by (try apply pow2_pos; lia). cbn [bind].
    destruct (feqb (fpow (finv x) (2 ^ m)) f0) eqn:E2.
    + apply feqb_spec in E2. exfalso. apply (fpow_neq_0 (finv x) (2 ^ m)); auto. now apply finv_neq_0.
    + cbn [bind]. rewrite zk_commit_eq; [reflexivity|]. rewrite length_map_seq. lia.
  - assert (Pj := pow2_pos j).
    assert (CL := coset_loop J (finv x) (2 ^ j) Pj ltac:(lia)). unfold for_range in *.
    replace (2 ^ m - 1)%nat with ((2 ^ j - 1) + S (2 ^ m - 2 ^ j - 1))%nat by lia. rewrite !for_app, CL. cbn [bind for_].
    rewrite idx_panic by (rewrite length_map_seq; lia). reflexivity.
Qed.

Lemma C71_multi_check_proof ks k n s com proof x (ys : list Fr) c : zk_setup ks k n s ->
  ((forall m, c <> 2 ^ m) \/ ~ acceptable (kzg_fs ks) (length ys) -> zk_check_proof_multi ks com proof x ys c = Err) /\
  (forall m, c = 2 ^ m -> acceptable (kzg_fs ks) (length ys) ->
     (x <> f0 -> c <= length ys <= n -> c < n -> exists b, zk_check_proof_multi ks com proof x ys c = Ok b) /\
     (x = f0 \/ length ys < c \/ n <= c \/ n < length ys -> zk_check_proof_multi ks com proof x ys c = Panic)).
Proof.
  intros H. destruct (zk_setup_inv _ _ _ _ H) as (K32 & S & F & N). split.
  - intros Hc. unfold zk_check_proof_multi. destruct (is_pow2 c) eqn:Ec; auto. cbn [negb]. rewrite zfft.
    pose proof Ec as Ec'. apply is_pow2_spec in Ec' as (m & ->). destruct Hc as [Hc|Hc]; [now elim (Hc m)|].
    destruct (fft_fr_total k (kzg_fs ks) ys true N) as (_ & E). now rewrite E.
  - intros m -> HA. destruct (acceptable_m k (kzg_fs ks) _ N HA) as (j & Ej & Hj). split.
    + intros Hx L1 L2. rewrite (zk_check_multi_eq ks k) by auto. apply (check_multi_answers ks s n k (root k) m j); auto; try lia.
      apply pow2_le_inv. lia.
    + intros Hp. destruct (feqb x f0) eqn:Ex.
      { unfold zk_check_proof_multi. rewrite is_pow2_pow. cbn [negb]. rewrite zfft.
        destruct (ifft_fr_interpolates (kzg_fs ks) k (root k) j ys F Hj Ej) as (J & EJ & _). rewrite EJ. cbn [bind].
        unfold zk_inverse. now rewrite Ex. }
      assert (Hx : x <> f0). { intros ->. assert (feqb (f0 : Fr) f0 = true) by now apply feqb_spec. congruence. }
      rewrite (zk_check_multi_eq ks k) by auto.
      destruct Hp as [Hp|Hp]; [contradiction|]. rewrite Ej in Hp.
      destruct (Nat.lt_ge_cases (2 ^ j) (2 ^ m)) as [B|B].
      * apply (check_multi_short_panics ks k (root k) m j); auto. apply (Nat.pow_lt_mono_r_iff 2); lia.
      * assert (Hmj : 2 ^ m <= 2 ^ j) by lia. destruct S as (S1 & S2).
        destruct (ifft_fr_interpolates (kzg_fs ks) k (root k) j ys F Hj Ej) as (J & EJ & LJ & _).
        unfold check_proof_multi. rewrite is_pow2_pow. cbn [negb]. rewrite EJ. cbn [bind].
        rewrite coset_loop by (try apply pow2_pos; lia). cbn [bind].
        destruct (Nat.lt_ge_cases (2 ^ m) n) as [B2|B2].
        -- rewrite (idx_ok _ (2 ^ m) g0) by (rewrite S2, length_map_seq; lia). cbn [bind].
           rewrite commit_err; [reflexivity|]. rewrite S1, !length_map_seq. lia.
        -- rewrite idx_panic by (rewrite S2, length_map_seq; lia). reflexivity.
Qed.

Lemma setup_acceptable ks k n s m (ys : list Fr) : zk_setup ks k n s -> m <= k -> length ys = 2 ^ m -> acceptable (kzg_fs ks) (length ys).
Proof.
  intros H Hm L. destruct (zk_setup_inv _ _ _ _ H) as (K32 & S & F & N). unfold acceptable. rewrite L. pose proof F as (W & _). rewrite W.
  split; [apply Nat.pow_le_mono_r; lia|eauto].
Qed.

Lemma C71_multi_accept_proof ks k n s m com proof x (ys I : list Fr) : zk_setup ks k n s -> m <= k -> length ys = 2 ^ m -> 2 ^ m < n ->
  x <> f0 -> length I <= 2 ^ m -> (forall i, i < 2 ^ m -> peval I (fmul x (fpow (root m) i)) = nth i ys f0) ->
  exists b, zk_check_proof_multi ks com proof x ys (2 ^ m) = Ok b /\
    (b = true <-> gsub com (smul (peval I s) gen1) = smul (fsub (fpow s (2 ^ m)) (fpow x (2 ^ m))) proof).
Proof.
  intros H Hm Ly Hl Hx LI HI. destruct (zk_setup_inv _ _ _ _ H) as (K32 & S & F & N).
  rewrite (zk_check_multi_eq ks k) by (auto; eapply setup_acceptable; eauto).
  rewrite <- (root_pow k m) in HI by auto. eapply check_multi_meaning; eauto.
Qed.

Lemma C71_multi_proof ks k n s m (p : list Fr) x : zk_setup ks k n s -> m <= k -> 2 ^ m < n -> fits (2 * length p) -> length p <= n ->
  x <> f0 -> (exists i, coef p i <> f0) ->
  exists com proof, zk_commit_to_poly ks p = Ok com /\ zk_compute_proof_multi zk_table ks p x (2 ^ m) = Ok proof /\
    zk_check_proof_multi ks com proof x (map (fun i => peval p (fmul x (fpow (root m) i))) (seq 0 (2 ^ m))) (2 ^ m) = Ok true.
Proof.
  intros H Hm Hl F L Hx NZ. destruct (zk_setup_inv _ _ _ _ H) as (K32 & S & HF & N). destruct (trimmed_exists p NZ) as (p' & T).
  assert (TL := trimmed_le _ _ T). assert (F' : fits (2 * length p')) by (unfold fits in *; lia).
  destruct (multi_complete blst_table Hdiv_Fr ks s n k (root k) m p' x S HF Hm Hl F' ltac:(lia) (or_introl Hx)) as (com & proof & A & B & C).
  exists com, proof. split; [|split].
  - rewrite (commit_spec ks s n) in A by (auto; lia). apply Ok_inj in A. subst com. rewrite <- (trimmed_peval p p' s T).
    apply (C71_commit_proof ks k n s p H); auto. apply (fits_64 _ _ F). lia.
  - rewrite (zk_compute_eq ks p p') by auto. exact B.
  - rewrite (zk_check_multi_eq ks k); [|exact HF|exact N| |exact Hx].
    + rewrite (root_pow k m) in C by auto.
      assert (EM : map (fun i => peval p (fmul x (fpow (root m) i))) (seq 0 (2 ^ m)) = map (fun i => peval p' (fmul x (fpow (root m) i))) (seq 0 (2 ^ m))).
      { apply map_ext. intros i. exact (trimmed_peval p p' _ T). }
      rewrite EM. exact C.
    + apply (setup_acceptable ks k n s m); auto. apply length_map_seq.
Qed.
End P.
