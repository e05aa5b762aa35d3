(** * Proof_FK20Fr: batch proofs over the concrete scalar field *)
From Coq Require Import List Arith Lia Bool ZArith NArith.
From Verif Require Import Base Fld Poly Loops Model_Utils Proof_Utils Model_FFT Spec Proof_FFT Zr ZrTables Proof_FFTFr.
From Verif Require Import Model_Poly Model_KZG Spec_KZG Proof_KZG Proof_KZGFr Model_FK20 Proof_FK20.
Import ListNotations.

Lemma tl0 : 0 < length blst_table.
Proof. rewrite blst_table_length. lia. Qed.

Lemma fits_pow m : m <= 30 -> fits (2 * 2 ^ m).
Proof.
  intros H. unfold fits. replace (2 * 2 ^ m) with (2 ^ S m) by reflexivity. rewrite Nat2N.inj_pow.
  apply N.pow_le_mono_r; lia.
Qed.

Lemma C39_proof (M : gmod Fr) k fs m (c : list Fr) (x : list M) : fft_settings_new blst_table k = Ok fs -> S m <= k ->
  length c = 2 ^ S m -> length x = 2 ^ m ->
  (let* xe := toeplitz_part_1 fs x in let* h := toeplitz_part_2 fs c xe in toeplitz_part_3 fs h)
  = Ok (map (fun i => gsum (2 ^ m) (fun j => smul (coef c ((i + 2 ^ S m - j) mod 2 ^ S m)) (nth j x g0))) (seq 0 (2 ^ m)) ++ repeat g0 (2 ^ m)).
Proof.
  intros HN Hm Lc Lx. destruct (new_inv k fs HN) as (K32 & HF).
  rewrite (part1_spec fs k (root k) HF m x Hm Lx). cbn [bind].
  rewrite (part2_spec fs k (root k) HF (S m) c) by (auto; rewrite app_length, repeat_length, Lx; simpl; lia). cbn [bind].
  rewrite (part3_spec fs k (root k) HF m) by (auto; unfold cyc; rewrite map_length, seq_length; auto).
  do 2 f_equal. apply (nth_ext' g0).
  - unfold cyc. rewrite firstn_length, !map_length, !seq_length. simpl. lia.
  - intros i Hi. unfold cyc in Hi. rewrite firstn_length, map_length, seq_length in Hi.
    rewrite nth_firstn' by lia. unfold cyc. rewrite !nth_map_seq by lia.
    rewrite (gsum_extend (2 ^ m) (2 ^ S m)); [|simpl; lia|].
    + apply gsum_ext. intros j Hj. now rewrite app_nth1 by lia.
    + intros j Hj. rewrite app_nth2 by lia. rewrite nth_repeat_same. apply smul_0_r.
Qed.

Lemma toeplitz_step_proof (M : gmod Fr) k fs m (p : list Fr) (x : list M) : fft_settings_new blst_table k = Ok fs -> S m <= k ->
  length p = 2 ^ m -> length x = 2 ^ m ->
  exists c, toeplitz_coeffs_step p = Ok c /\
  (let* xe := toeplitz_part_1 fs x in let* h := toeplitz_part_2 fs c xe in toeplitz_part_3 fs h)
  = Ok (map (fun i => gsum (2 ^ m) (fun j =>
       if (i =? j) || ((i <? j) && (j <? i + (2 ^ m - 1))) then smul (coef p (2 ^ m - 1 - (j - i))) (nth j x g0) else g0)) (seq 0 (2 ^ m))
       ++ repeat g0 (2 ^ m)).
Proof.
  intros HN Hm Lp Lx. unfold toeplitz_coeffs_step. assert (P2 := pow2_pos m).
  rewrite (stride_spec p (2 ^ m) 1 0) by lia. eexists. split; [reflexivity|].
  assert (E2 : 2 ^ m * 2 = 2 ^ S m) by (simpl; lia).
  rewrite (C39_proof M k fs m) by (auto; rewrite map_length, seq_length; auto).
  do 2 f_equal. apply map_ext_seq. intros i Hi. apply gsum_ext. intros j Hj. rewrite <- E2. rewrite tcoef_entry by lia.
  destruct ((i =? j) || ((i <? j) && (j <? i + (2 ^ m - 1)))); [|apply smul_0_l].
  f_equal. f_equal. lia.
Qed.

Section P.
Context {P : pairing Fr}.
Implicit Types (ks : kzg_settings P).

Lemma C37_proof ks k n len s m a (p : list Fr) : api_setup ks k n len s -> S m <= k -> a <= m -> length p = 2 ^ m ->
  exists fk out, fk20_multi_new blst_table ks (2 ^ S m) (2 ^ a) = Ok fk /\ fk20_multi_da_opt fk p = Ok out /\
    length out = 2 ^ S (m - a) /\
    (forall i, i < 2 ^ S (m - a) -> exists pf, compute_proof_multi blst_table ks p (fpow (root (S m)) i) (2 ^ a) = Ok pf /\ nth_error out i = Some pf) /\
    exists rev, fk20_multi_da fk p = Ok rev /\ length rev = 2 ^ S (m - a) /\
      forall i, i < 2 ^ S (m - a) -> nth_error rev i = nth_error out (bitrev (S (m - a)) i).
Proof.
  intros H Hm Ha Lp. destruct (api_inv _ _ _ _ _ H) as (K32 & HS & HF & HN & HL).
  assert (P2 := pow2_pos m). assert (Pa := pow2_pos a).
  assert (EM : 2 ^ m = 2 ^ (m - a) * 2 ^ a) by (rewrite <- Nat.pow_add_r; f_equal; lia).
  do 2 eexists. split; [apply (multi_new_ok blst_table blst_table_ok tl0 ks s len k (root k)); auto; lia|].
  assert (DA := multi_da_opt_gen blst_table tl0 ks s k (root k) HF m a p Hm Ha Lp).
  split; [exact DA|]. split; [now rewrite map_length, seq_length|]. split.
  - intros i Hi. rewrite nth_error_map_seq by auto.
    destruct (C35_compute_proof ks k n len s p (fpow (root (S m)) i) (2 ^ a) H) as (_ & CP & _).
    { rewrite Lp. apply fits_pow. lia. }
    destruct (CP a eq_refl) as (q & Hq & E).
    { rewrite Lp. assert (2 ^ m <= 2 ^ k) by (apply Nat.pow_le_mono_r; lia). lia. }
    eexists. split; [exact E|]. do 2 f_equal.
    rewrite (quotient_value p q (2 ^ (m - a)) (2 ^ a) (fpow (fpow (root (S m)) i) (2 ^ a)) s) by (auto; try lia; exact Hq).
    apply sum_ext. intros j Hj. do 2 f_equal. rewrite root_pow by lia.
    rewrite <- fpow_mul, Nat.mul_comm, fpow_mul. f_equal. symmetry.
    replace a with (S m - S (m - a)) at 1 by lia. apply root_pow; lia.
  - destruct (reverse_bit_order_correct (S (m - a)) _ ltac:(lia) (length_map_seq (fun i => smul (sum (2 ^ (m - a)) (fun j => fmul (fpow (fpow (fpow (root k) (2 ^ (k - S (m - a)))) i) j) (peval (skipn ((j + 1) * 2 ^ a) p) s))) (gen1 : PG1 P)) (2 ^ S (m - a))))
      as (l' & E & L & I & _).
    exists l'. split; [|split; auto]. unfold fk20_multi_da. rewrite DA. cbn [fkm_kzg unwrap bind].
    destruct HF as (W & _). rewrite W, Lp. replace (2 ^ m * 2) with (2 ^ S m) by (simpl; lia).
    assert (2 ^ S m <= 2 ^ k) by (apply Nat.pow_le_mono_r; lia).
    destruct (Nat.ltb_spec (2 ^ k) (2 ^ S m)); [lia|]. rewrite is_pow2_pow. exact E.
Qed.

Lemma C36_proof ks k n len s m (p : list Fr) : api_setup ks k n len s -> S m <= k -> length p = 2 ^ m ->
  exists fk out, fk20_single_new blst_table ks (2 ^ S m) = Ok fk /\ fk20_single_da_opt fk p = Ok out /\
    length out = 2 ^ S m /\
    (forall i, i < 2 ^ S m -> exists pf, compute_proof_single blst_table ks p (fpow (root (S m)) i) = Ok pf /\ nth_error out i = Some pf) /\
    exists rev, fk20_single_da fk p = Ok rev /\ length rev = 2 ^ S m /\
      forall i, i < 2 ^ S m -> nth_error rev i = nth_error out (bitrev (S m) i).
Proof.
  intros H Hm Lp. destruct (api_inv _ _ _ _ _ H) as (K32 & HS & HF & HN & HL).
  assert (P2 := pow2_pos m).
  do 2 eexists. split; [apply (single_new_ok blst_table blst_table_ok tl0 ks s len k (root k)); auto; lia|].
  assert (DA := single_da_opt_gen blst_table tl0 ks s k (root k) HF m p Hm Lp).
  split; [exact DA|]. split; [now rewrite map_length, seq_length|]. split.
  - intros i Hi. rewrite nth_error_map_seq by auto. unfold compute_proof_single.
    destruct (C35_compute_proof ks k n len s p (fpow (root (S m)) i) 1 H) as (_ & CP & _).
    { rewrite Lp. apply fits_pow. lia. }
    destruct (CP 0 eq_refl) as (q & Hq & E).
    { rewrite Lp. assert (2 ^ m <= 2 ^ k) by (apply Nat.pow_le_mono_r; lia). lia. }
    eexists. split; [exact E|]. do 2 f_equal.
    rewrite (quotient_value p q (2 ^ m) 1 (fpow (fpow (root (S m)) i) 1) s) by (auto; try lia; exact Hq).
    apply sum_ext. intros j Hj. do 2 f_equal. rewrite root_pow by lia. now rewrite fpow_1.
  - destruct (reverse_bit_order_correct (S m) _ ltac:(lia) (length_map_seq (fun i => smul (sum (2 ^ m) (fun j => fmul (fpow (fpow (fpow (root k) (2 ^ (k - S m))) i) j) (peval (skipn ((j + 1) * 1) p) s))) (gen1 : PG1 P)) (2 ^ S m)))
      as (l' & E & L & I & _).
    exists l'. split; [|split; auto]. unfold fk20_single_da. rewrite DA. cbn [fks_kzg unwrap bind].
    destruct HF as (W & _). rewrite W, Lp. replace (2 ^ m * 2) with (2 ^ S m) by (simpl; lia).
    assert (2 ^ S m <= 2 ^ k) by (apply Nat.pow_le_mono_r; lia).
    destruct (Nat.ltb_spec (2 ^ k) (2 ^ S m)); [lia|]. rewrite is_pow2_pow. exact E.
Qed.

Lemma C38_single_new_proof ks k n len s n2 : api_setup ks k n len s ->
  (n2 <= 2 ^ k /\ (exists m, n2 = 2 ^ S m) -> exists fk, fk20_single_new blst_table ks n2 = Ok fk) /\
  (~ (n2 <= 2 ^ k /\ exists m, n2 = 2 ^ S m) -> fk20_single_new blst_table ks n2 = Err).
Proof.
  intros H. destruct (api_inv _ _ _ _ _ H) as (K32 & HS & HF & HN & HL). split.
  - intros (L & m & ->). assert (Hm : S m <= k) by (now apply pow2_le_inv).
    eexists. apply (single_new_ok blst_table blst_table_ok tl0 ks s len k (root k)); auto; lia.
  - intros Hn. unfold fk20_single_new. destruct HF as (W & _). rewrite W.
    destruct (Nat.ltb_spec (2 ^ k) n2) as [|L]; auto. destruct (is_pow2 n2) eqn:E; auto. cbn [negb].
    apply is_pow2_spec in E as ([|m] & ->); [reflexivity|]. elim Hn. eauto.
Qed.

Lemma C38_multi_new_proof ks k n len s n2 cl : api_setup ks k n len s ->
  (n2 <= 2 ^ k /\ (exists m a, n2 = 2 ^ S m /\ cl = 2 ^ a /\ a <= m) -> exists fk, fk20_multi_new blst_table ks n2 cl = Ok fk) /\
  (~ (n2 <= 2 ^ k /\ exists m a, n2 = 2 ^ S m /\ cl = 2 ^ a /\ a <= m) -> fk20_multi_new blst_table ks n2 cl = Err).
Proof.
  intros H. destruct (api_inv _ _ _ _ _ H) as (K32 & HS & HF & HN & HL). split.
  - intros (L & m & a & -> & -> & Ha). assert (Hm : S m <= k) by (now apply pow2_le_inv).
    eexists. apply (multi_new_ok blst_table blst_table_ok tl0 ks s len k (root k)); auto; lia.
  - intros Hn. unfold fk20_multi_new. destruct HF as (W & _). rewrite W.
    destruct (Nat.ltb_spec (2 ^ k) n2) as [|L]; auto. destruct (is_pow2 n2) eqn:E; auto. cbn [negb].
    apply is_pow2_spec in E as ([|m] & ->); [reflexivity|].
    assert (P2 := pow2_pos m). assert (E2 : 2 ^ S m = 2 ^ m * 2) by (simpl; lia).
    destruct (Nat.ltb_spec (2 ^ S m) 2); auto.
    assert (D : 2 ^ S m / 2 = 2 ^ m) by (rewrite E2; now apply Nat.div_mul). rewrite D.
    destruct (Nat.ltb_spec (2 ^ m) cl) as [|C]; auto. destruct (is_pow2 cl) eqn:E; auto. cbn [negb].
    apply is_pow2_spec in E as (a & ->). elim Hn. split; auto. exists m, a. split; auto. split; auto. now apply pow2_le_inv.
Qed.

Lemma C38_errors_proof k n len s (fks : fk20_single P) (fkm : fk20_multi P) (p : list Fr) :
  ~ (length p * 2 <= 2 ^ k /\ exists m, length p = 2 ^ m) ->
  (api_setup (fks_kzg fks) k n len s -> fk20_single_da_opt fks p = Err /\ fk20_single_da fks p = Err) /\
  (api_setup (fkm_kzg fkm) k n len s -> fk20_multi_da_opt fkm p = Err /\ fk20_multi_da fkm p = Err).
Proof.
  intros Hn.
  assert (C : (2 ^ k <? length p * 2) = true \/ negb (is_pow2 (length p * 2)) = true).
  { destruct (Nat.ltb_spec (2 ^ k) (length p * 2)); auto. right. destruct (is_pow2 (length p * 2)) eqn:E; auto.
    apply is_pow2_spec in E as ([|m] & E); [change (2 ^ 0) with 1 in E; lia|]. elim Hn. split; auto. exists m. replace (2 ^ S m) with (2 ^ m * 2) in E by (simpl; lia). lia. }
  split; intros H; destruct (api_inv _ _ _ _ _ H) as (K32 & HS & (W & _) & _).
  - unfold fk20_single_da_opt, fk20_single_da. rewrite W. destruct C as [-> | ->]; auto. destruct (2 ^ k <? length p * 2); auto.
  - unfold fk20_multi_da_opt, fk20_multi_da. rewrite W. destruct C as [-> | ->]; auto. destruct (2 ^ k <? length p * 2); auto.
Qed.

Lemma C38_long_single_proof ks k n len s m m' fk (p : list Fr) : api_setup ks k n len s -> m < m' -> S m' <= k ->
  fk20_single_new blst_table ks (2 ^ S m) = Ok fk -> length p = 2 ^ m' ->
  fk20_single_da_opt fk p = Panic /\ fk20_single_da fk p = Panic.
Proof.
  intros H Hm Hm' E Lp. destruct (api_inv _ _ _ _ _ H) as (K32 & HS & HF & HN & HL).
  rewrite (single_new_ok blst_table blst_table_ok tl0 ks s len k (root k)) in E by (auto; lia). injection E as <-.
  assert (P2 := pow2_pos m'). assert (2 ^ S m' <= 2 ^ k) by (apply Nat.pow_le_mono_r; lia).
  assert (2 ^ S m < 2 ^ S m') by (apply Nat.pow_lt_mono_r; lia).
  assert (E2 : 2 ^ m' * 2 = 2 ^ S m') by (simpl; lia). pose proof HF as (W & _).
  match goal with |- fk20_single_da_opt ?fk p = _ /\ _ => assert (DA : fk20_single_da_opt fk p = Panic) end.
  { unfold fk20_single_da_opt. cbn [fks_kzg fks_x_ext_fft]. rewrite W, Lp, E2.
    destruct (Nat.ltb_spec (2 ^ k) (2 ^ S m')); [lia|]. rewrite is_pow2_pow. cbn [negb].
    unfold toeplitz_coeffs_step. rewrite (stride_spec p (2 ^ m') 1 0) by lia. cbn [bind]. rewrite E2.
    rewrite (part2_short_panics (kzg_fs ks) k (root k) HF (S m') 0); auto.
    - now rewrite map_length, seq_length.
    - now rewrite dft_length. }
  split; [exact DA|]. unfold fk20_single_da. rewrite DA. cbn [fks_kzg]. rewrite W, Lp, E2.
  destruct (Nat.ltb_spec (2 ^ k) (2 ^ S m')); [lia|]. rewrite is_pow2_pow. reflexivity.
Qed.

Lemma C38_long_multi_proof ks k n len s m m' a fk (p : list Fr) : api_setup ks k n len s -> a <= m -> m < m' -> S m' <= k ->
  fk20_multi_new blst_table ks (2 ^ S m) (2 ^ a) = Ok fk -> length p = 2 ^ m' ->
  fk20_multi_da_opt fk p = Panic /\ fk20_multi_da fk p = Panic.
Proof.
  intros H Ha Hm Hm' E Lp. destruct (api_inv _ _ _ _ _ H) as (K32 & HS & HF & HN & HL).
  rewrite (multi_new_ok blst_table blst_table_ok tl0 ks s len k (root k)) in E by (auto; lia). injection E as <-.
  assert (P2 := pow2_pos m'). assert (Pa := pow2_pos a). assert (Pk := pow2_pos (m' - a)).
  assert (2 ^ S m' <= 2 ^ k) by (apply Nat.pow_le_mono_r; lia).
  assert (2 ^ S (m - a) < 2 ^ S (m' - a)) by (apply Nat.pow_lt_mono_r; lia).
  assert (E2 : 2 ^ m' * 2 = 2 ^ S m') by (simpl; lia). pose proof HF as (W & _).
  assert (Ek : 2 ^ (m' - a) * 2 = 2 ^ S (m' - a)) by (simpl; lia).
  assert (EM : 2 ^ m' = 2 ^ (m' - a) * 2 ^ a) by (rewrite <- Nat.pow_add_r; f_equal; lia).
  match goal with |- fk20_multi_da_opt ?fk p = _ /\ _ => assert (DA : fk20_multi_da_opt fk p = Panic) end.
  { unfold fk20_multi_da_opt. cbn [fkm_kzg fkm_chunk_len fkm_files]. rewrite W, Lp, E2.
    destruct (Nat.ltb_spec (2 ^ k) (2 ^ S m')); [lia|]. rewrite is_pow2_pow. cbn [negb].
    destruct (Nat.eqb_spec (2 ^ a) 0); [lia|]. cbn [bind].
    assert (D : 2 ^ S m' / 2 = 2 ^ m') by (rewrite <- E2; now apply Nat.div_mul). rewrite D.
    assert (Dk : 2 ^ m' / 2 ^ a = 2 ^ (m' - a)) by (rewrite EM; apply Nat.div_mul; lia). rewrite Dk.
    set (l := 2 ^ a) in *. unfold for_range at 1. rewrite Nat.sub_0_r.
    destruct l as [|l'] eqn:El; [lia|]. cbn [for_]. rewrite <- El in *.
    rewrite (stride_spec p (2 ^ (m' - a)) l 0) by lia. cbn [bind].
    rewrite (idx_ok _ 0 []) by (rewrite map_length, seq_length; lia). cbn [bind]. rewrite nth_map_seq by lia. rewrite Ek.
    rewrite (part2_short_panics (kzg_fs ks) k (root k) HF (S (m' - a)) 0); auto.
    - lia.
    - now rewrite map_length, seq_length.
    - now rewrite dft_length. }
  split; [exact DA|]. unfold fk20_multi_da. rewrite DA. cbn [fkm_kzg]. rewrite W, Lp, E2.
  destruct (Nat.ltb_spec (2 ^ k) (2 ^ S m')); [lia|]. rewrite is_pow2_pow. reflexivity.
Qed.

Lemma part2_prefix fs (c : list Fr) (x : list (PG1 P)) : length c <= length x ->
  toeplitz_part_2 fs c x = toeplitz_part_2 fs c (firstn (length c) x).
Proof.
  intros L. unfold toeplitz_part_2. destruct (unwrap (fft_fr fs c false)) as [f| | |]; auto. cbn [bind].
  unfold for_range. rewrite Nat.sub_0_r.
  assert (G : forall n j l, j + n <= length c ->
    for_ n j (fun i ret => let* x0 := idx x i in let* c0 := idx f i in Ok (ret ++ [smul c0 x0])) l
    = for_ n j (fun i ret => let* x0 := idx (firstn (length c) x) i in let* c0 := idx f i in Ok (ret ++ [smul c0 x0])) l).
  { induction n as [|n IH]; intros j l H; [reflexivity|]. cbn [for_].
    rewrite (idx_ok x j g0) by lia. rewrite (idx_ok (firstn (length c) x) j g0) by (rewrite firstn_length; lia).
    rewrite nth_firstn' by lia. cbn [bind]. destruct (idx f j); cbn [bind]; auto. apply IH. lia. }
  apply (G (length c) 0 []). lia.
Qed.

Lemma C38_short_proof ks k n len s fk (c : Fr) : api_setup ks k n len s -> 2 <= k ->
  fk20_single_new blst_table ks 4 = Ok fk ->
  fk20_single_da_opt fk [c] = Ok [smul c gen1; smul c gen1] /\
  forall x, compute_proof_single blst_table ks [c] x = Ok g0.
Proof.
  intros H Hk E. destruct (api_inv _ _ _ _ _ H) as (K32 & HS & HF & HN & HL). pose proof HF as (W & _).
  split.
  - change 4 with (2 ^ S 1) in E.
    rewrite (single_new_ok blst_table blst_table_ok tl0 ks s len k (root k)) in E by (auto; lia). injection E as <-.
    unfold fk20_single_da_opt. cbn [fks_kzg fks_x_ext_fft]. rewrite W. change (length [c] * 2) with (2 ^ 1).
    assert (2 ^ 2 <= 2 ^ k) by (apply Nat.pow_le_mono_r; lia). change (2 ^ 2) with 4 in *.
    destruct (Nat.ltb_spec (2 ^ k) (2 ^ 1)) as [L|L]; [simpl in L; lia|]. rewrite is_pow2_pow. cbn [negb].
    unfold toeplitz_coeffs_step. rewrite (stride_spec [c] 1 1 0) by (auto; lia). cbn [bind].
    set (w2 := fpow (root k) (2 ^ (k - S 1))).
    assert (X : firstn 2 (dft w2 (2 ^ S 1) (xvec s (2 ^ 1) 1 0 ++ repeat g0 (2 ^ 1))) = dft (fpow (root k) (2 ^ (k - 1))) (2 ^ 1) [gen1 : PG1 P; g0]).
    { cbn [dft Nat.pow Nat.mul Nat.add seq map firstn gsum xvec app repeat nth Nat.ltb Nat.leb Nat.sub fpow].
      rewrite !smul_0_r, !gadd_0_l, !gadd_0_r, !smul_1. reflexivity. }
    rewrite part2_prefix by (rewrite dft_length; cbn; lia). change (length (map (tcoef [c] 1 1 0) (seq 0 (1 * 2)))) with 2. match goal with |- context [firstn 2 ?d] => replace (firstn 2 d) with (dft (fpow (root k) (2 ^ (k - 1))) (2 ^ 1) [gen1 : PG1 P; g0]) by (symmetry; exact X) end.
    rewrite (part2_spec (kzg_fs ks) k (root k) HF 1) by (auto; lia). cbn [bind].
    rewrite (part3_spec (kzg_fs ks) k (root k) HF 0) by (auto; lia). cbn [bind].
    rewrite (fft_g1_spec (kzg_fs ks) k (root k) 1) by (auto; lia). cbn [unwrap]. f_equal.
    set (w1 := fpow (root k) (2 ^ (k - 1))). clearbody w1.
    change (firstn (2 ^ 0) (cyc (2 ^ 1) (map (tcoef [c] 1 1 0) (seq 0 (1 * 2))) [gen1 : PG1 P; g0]))
      with [gadd (gadd g0 (smul c (gen1 : PG1 P))) (smul f0 g0)].
    cbn [dft Nat.pow Nat.mul Nat.add seq map gsum app repeat nth fpow].
    rewrite !smul_0_r, !gadd_0_l, !gadd_0_r, !smul_1. reflexivity.
  - intros x. unfold compute_proof_single.
    destruct (C35_compute_proof ks k n len s [c] x 1 H) as (_ & CP & _); [unfold fits; cbn; lia|].
    destruct (CP 0 eq_refl) as (q & (Lq & _) & E'); [cbn; lia|]. rewrite E'. cbn [length app repeat] in Lq.
    destruct q; [|discriminate]. f_equal. apply smul_0_l.
Qed.

Lemma C38_short_multi_proof ks k n len s m a b fk (p : list Fr) : api_setup ks k n len s -> S m <= k -> a <= m -> b < a ->
  fk20_multi_new blst_table ks (2 ^ S m) (2 ^ a) = Ok fk -> length p = 2 ^ b -> fk20_multi_da_opt fk p = Panic.
Proof.
  intros H Hm Ha Hb E Lp. destruct (api_inv _ _ _ _ _ H) as (K32 & HS & HF & HN & HL).
  rewrite (multi_new_ok blst_table blst_table_ok tl0 ks s len k (root k)) in E by (auto; lia). injection E as <-.
  assert (Pb := pow2_pos b). assert (2 ^ S b <= 2 ^ k) by (apply Nat.pow_le_mono_r; lia).
  assert (2 ^ b < 2 ^ a) by (apply Nat.pow_lt_mono_r; lia).
  assert (E2 : 2 ^ b * 2 = 2 ^ S b) by (simpl; lia). pose proof HF as (W & _).
  unfold fk20_multi_da_opt. cbn [fkm_kzg fkm_chunk_len fkm_files]. rewrite W, Lp, E2.
  destruct (Nat.ltb_spec (2 ^ k) (2 ^ S b)); [lia|]. rewrite is_pow2_pow. cbn [negb].
  destruct (Nat.eqb_spec (2 ^ a) 0); [lia|]. cbn [bind].
  set (l := 2 ^ a) in *. unfold for_range at 1. rewrite Nat.sub_0_r.
  destruct l as [|l'] eqn:El; [lia|]. cbn [for_]. rewrite <- El in *.
  unfold toeplitz_coeffs_stride. destruct (Nat.eqb_spec l 0); [lia|]. cbn [bind]. rewrite Lp, (Nat.div_small (2 ^ b) l) by lia.
  rewrite usub_ok by lia. cbn [bind]. rewrite usub_ok by lia. cbn [bind]. rewrite (idx_ok p _ f0) by lia. reflexivity.
Qed.
End P.
