(** * Proof_MclFK20: batch proofs of the mcl backend, any field and pairing *)
From Coq Require Import List Arith Lia Bool NArith ZArith Field.
From Verif Require Import Base Fld Poly Loops Model_Utils Proof_Utils Model_FFT Spec Proof_FFT.
From Verif Require Import Model_Poly Proof_Poly1 Proof_Poly2 Model_KZG Proof_Recovery Proof_KZG Model_FK20 Proof_FK20.
From Verif Require Import Model_Mcl Proof_Mcl Proof_MclFr Model_MclPoly Proof_MclPoly Proof_MclZero Model_MclKZG Proof_MclKZG.
Import ListNotations.

Section Toeplitz.
Context {K : fld} {M : gmod K}.
Add Field Kfmf : (fld_field K).
Local Open Scope fld_scope.
Variables (fs : fft_settings K) (k : nat) (w : K).
Hypothesis HF : settings_ok fs k w.
Hypothesis HK : (k < 32)%nat.

Lemma mcl_part1_spec m (x : list M) : (S m <= k)%nat -> length x = (2 ^ m)%nat ->
  mcl_toeplitz_part_1 fs x = Ok (dft (w ^ (2 ^ (k - S m))) (2 ^ S m) (x ++ repeat g0 (2 ^ m))).
Proof.
  intros Hm L. unfold mcl_toeplitz_part_1. rewrite (mcl_fft_g1_spec fs k w (S m)); auto.
  - now rewrite L.
  - rewrite app_length, repeat_length, L. simpl. lia.
Qed.

Lemma mcl_part2_zip m (c : list K) (x : list M) : (m <= k)%nat -> (m < 31)%nat -> length c = (2 ^ m)%nat ->
  mcl_toeplitz_part_2 fs c x
  = Ok (map (fun u => smul (peval c ((w ^ (2 ^ (k - m))) ^ u)) (nth u x g0)) (seq 0 (Nat.min (length x) (2 ^ m)))).
Proof.
  intros Hm M31 Lc. unfold mcl_toeplitz_part_2. rewrite (mcl_fft_eq fs k w HF HK m) by auto.
  rewrite (fft_fr_spec fs k w m) by auto. cbn [unwrap bind]. f_equal.
  set (f := map (fun i => peval c ((w ^ (2 ^ (k - m))) ^ i)) (seq 0 (2 ^ m))).
  assert (Lf : length f = (2 ^ m)%nat) by apply length_map_seq.
  apply (nth_ext' g0); [rewrite map_length, combine_length, length_map_seq; lia|].
  intros u Hu. rewrite map_length, combine_length in Hu. rewrite nth_map_seq by lia.
  assert (G : forall (a : list M) (b : list K) u, (u < length a)%nat -> (u < length b)%nat ->
    nth u (map (fun gc => smul (snd gc) (fst gc)) (combine a b)) g0 = smul (nth u b 0) (nth u a g0)).
  { induction a as [|a0 a IH]; intros [|b0 b] [|v]; cbn [length combine map nth fst snd]; intros; try lia; auto. apply IH; lia. }
  rewrite G by lia. f_equal. unfold f. rewrite nth_map_seq by lia. reflexivity.
Qed.

Lemma mcl_part2_eq m (c : list K) (x : list M) : (m <= k)%nat -> (m < 31)%nat -> length c = (2 ^ m)%nat -> length x = (2 ^ m)%nat ->
  mcl_toeplitz_part_2 fs c (dft (w ^ (2 ^ (k - m))) (2 ^ m) x) = Ok (dft (w ^ (2 ^ (k - m))) (2 ^ m) (cyc (2 ^ m) c x)).
Proof.
  intros Hm M31 Lc Lx. rewrite (mcl_part2_zip m) by auto. rewrite dft_length, Nat.min_id. f_equal.
  symmetry. apply dft_cyc; auto using pow2_pos.
  destruct (primitive_fold w k m Hm ltac:(apply HF)) as (E & _). exact E.
Qed.

Lemma mcl_ifft_dft m (h : list M) : (m <= k)%nat -> (m < 31)%nat -> length h = (2 ^ m)%nat ->
  mcl_fft_g1 fs (dft (w ^ (2 ^ (k - m))) (2 ^ m) h) true = Ok h.
Proof.
  intros Hm M31 L. rewrite (mcl_fft_g1_blst fs k w m) by (auto using dft_length; change (2 ^ 31)%N with (2 ^ N.of_nat 31)%N; apply pow2_N_lt; lia).
  now apply ifft_dft.
Qed.

Lemma mcl_part3_eq m (h : list M) : (S m <= k)%nat -> (S m < 31)%nat -> length h = (2 ^ S m)%nat ->
  mcl_toeplitz_part_3 fs (dft (w ^ (2 ^ (k - S m))) (2 ^ S m) h) = Ok (firstn (2 ^ m) h ++ repeat g0 (2 ^ m)).
Proof.
  intros Hm M31 L. unfold mcl_toeplitz_part_3. rewrite dft_length, mcl_ifft_dft by auto. cbn [unwrap bind].
  assert (E2 : (2 ^ S m = 2 ^ m + 2 ^ m)%nat) by (simpl; lia).
  assert (D : (2 ^ S m / 2 = 2 ^ m)%nat) by (rewrite E2; replace (2 ^ m + 2 ^ m)%nat with (2 ^ m * 2)%nat by lia; now apply Nat.div_mul).
  rewrite D. rewrite (firstn_all2 (n := 2 ^ S m)) by lia. rewrite (skipn_all2 (n := 2 ^ S m)) by lia. rewrite app_nil_r. do 2 f_equal.
  apply (nth_ext' g0); rewrite map_length, skipn_length; [rewrite repeat_length; lia|]. intros i Hi.
  rewrite nth_repeat_same. clear. revert i. induction (skipn (2 ^ m) h); intros [|i]; cbn [map nth]; auto.
Qed.

Lemma mcl_stride_spec (p : list K) kk l off : (0 < kk)%nat -> (off < l)%nat -> length p = (kk * l)%nat ->
  mcl_toeplitz_coeffs p off l = Ok (map (tcoef p kk l off) (seq 0 (kk * 2))).
Proof.
  intros Hk Ho L. unfold mcl_toeplitz_coeffs. destruct (Nat.eqb_spec l 0); [lia|]. cbn [bind].
  assert (D : (length p / l = kk)%nat) by (rewrite L; apply Nat.div_mul; lia). rewrite D.
  assert (LL : (l <= length p)%nat) by nia.
  rewrite usub_ok by lia. cbn [bind]. rewrite usub_ok by lia. cbn [bind].
  rewrite (idx_ok p _ 0) by lia. cbn [bind]. rewrite upd_ok by (rewrite repeat_length; lia). cbn [bind].
  rewrite usub_ok by lia. cbn [bind]. rewrite usub_ok by lia. cbn [bind].
  set (tc0 := set (repeat 0 (2 * kk)) 0 (nth (length p - 1 - off) p 0)).
  assert (L0 : length tc0 = (2 * kk)%nat) by (unfold tc0; now rewrite set_length, repeat_length).
  assert (I0 : forall i, (i < 2 * kk)%nat -> (i < kk + 2)%nat -> nth i tc0 0 = tcoef p kk l off i).
  { intros i H1 H2. unfold tcoef, tc0. destruct (Nat.eqb_spec i 0) as [->|].
    - rewrite nth_set_same by (rewrite repeat_length; lia). unfold coef. f_equal. lia.
    - destruct (Nat.ltb_spec i (kk + 2)); [|lia]. rewrite nth_set_other by (rewrite ?repeat_length; lia). now rewrite nth_repeat_same. }
  destruct (Nat.le_gt_cases (2 * kk) (kk + 2)) as [S|S].
  - unfold for_range. replace (2 * kk - (kk + 2))%nat with 0%nat by lia. cbn [for_ bind fst]. f_equal.
    apply (nth_ext' 0); [rewrite length_map_seq; lia|]. intros i Hi. rewrite nth_map_seq by lia. apply I0; lia.
  - match goal with |- context [for_range (kk + 2) (2 * kk) ?bd ?s0] =>
      destruct (for_range_inv (fun t (st : list K * nat) => let (tc, j) := st in
         length tc = (2 * kk)%nat /\ j = ((t - kk) * l - off - 1)%nat /\ forall i, (i < 2 * kk)%nat -> (i < t)%nat -> nth i tc 0 = tcoef p kk l off i)
        bd (kk + 2)%nat (2 * kk)%nat s0) as ((tc & j) & E & L1 & _ & I) end.
    + lia.
    + split; [auto|]. split; [|auto]. replace (kk + 2 - kk)%nat with 2%nat by lia. lia.
    + intros t (tc & j) Ht (L1 & -> & I).
      assert (B : ((t - kk) * l <= kk * l - l)%nat) by nia. assert (B2 : (2 * l <= (t - kk) * l)%nat) by nia.
      rewrite (idx_ok p _ 0) by lia. cbn [bind]. rewrite upd_ok by lia. cbn [bind]. eexists. split; [reflexivity|].
      split; [now rewrite set_length|]. split.
      * replace (Datatypes.S t - kk)%nat with (Datatypes.S (t - kk)) by lia. cbn [Nat.mul]. lia.
      * intros i Hi Hit. destruct (Nat.eq_dec i t) as [->|N].
        -- rewrite nth_set_same by lia. unfold tcoef. destruct (Nat.eqb_spec t 0); [lia|]. destruct (Nat.ltb_spec t (kk + 2)); [lia|]. reflexivity.
        -- rewrite nth_set_other by lia. apply I; lia.
    + rewrite E. cbn [bind fst]. f_equal. apply (nth_ext' 0); [rewrite length_map_seq; lia|]. intros i Hi.
      rewrite nth_map_seq by lia. apply I; lia.
Qed.
End Toeplitz.

Section Batch.
Context {K : fld} {P : pairing K}.
Add Field Kfmg : (fld_field K).
Local Open Scope fld_scope.
Variables (ks : kzg_settings P) (s : K) (len k : nat) (w : K).
Hypothesis HS : setup_powers ks s len.
Hypothesis HF : settings_ok (kzg_fs ks) k w.
Hypothesis HL : (2 ^ k <= len)%nat.
Hypothesis HK : (k < 32)%nat.

Let W m := w ^ (2 ^ (k - m)).

Lemma mcl_width : max_width (kzg_fs ks) = (2 ^ k)%nat.
Proof. apply HF. Qed.

Lemma mcl_single_new_ok m : (S m <= k)%nat ->
  mcl_fk20_single_new ks (2 ^ S m) = Ok (mkMFKS ks (dft (W (S m)) (2 ^ S m) (xvec s (2 ^ m) 1 0 ++ repeat g0 (2 ^ m)))).
Proof.
  intros Hm. unfold mcl_fk20_single_new. rewrite mcl_width. assert (P2 := pow2_pos m).
  assert (2 ^ S m <= 2 ^ k)%nat by (apply Nat.pow_le_mono_r; lia).
  assert (E2 : (2 ^ S m = 2 ^ m * 2)%nat) by (simpl; lia).
  rewrite mcl_is_pow_pow. cbn [bind negb].
  destruct (Nat.ltb_spec (2 ^ S m) 2); [lia|]. destruct (Nat.ltb_spec (2 ^ k) (2 ^ S m)); [lia|].
  assert (D : (2 ^ S m / 2 = 2 ^ m)%nat) by (rewrite E2; now apply Nat.div_mul). rewrite D.
  rewrite usub_ok by lia. cbn [bind].
  rewrite (Proof_Recovery.push_loop _ (fun i => smul (s ^ (2 ^ m - 2 - i)) gen1)).
  2: { intros i l Hi. rewrite usub_ok by lia. cbn [bind]. rewrite usub_ok by lia. cbn [bind]. now rewrite (sg1_nth ks s len HS) by lia. }
  cbn [bind].
  assert (X : map (fun i => smul (s ^ (2 ^ m - 2 - i)) (gen1 : PG1 P)) (seq 0 (2 ^ m - 1)) ++ [g0] = xvec s (2 ^ m) 1 0).
  { rewrite xvec_snoc by auto. f_equal. apply map_ext_seq. intros i Hi. f_equal. f_equal. lia. }
  rewrite X. rewrite (mcl_part1_spec (kzg_fs ks) k w HF HK m) by (auto; unfold xvec; apply length_map_seq). reflexivity.
Qed.

Lemma mcl_precompute_ok m a off : (S m <= k)%nat -> (a <= m)%nat -> (off < 2 ^ a)%nat ->
  mcl_x_ext_fft_precompute (kzg_fs ks) (secret_g1 ks) (2 ^ m) (2 ^ (m - a)) (2 ^ a) off
  = Ok (dft (W (S (m - a))) (2 ^ S (m - a)) (xvec s (2 ^ (m - a)) (2 ^ a) off ++ repeat g0 (2 ^ (m - a)))).
Proof.
  intros Hm Ha Ho. unfold mcl_x_ext_fft_precompute.
  assert (P2 := pow2_pos m). assert (Pa := pow2_pos a). assert (Pk := pow2_pos (m - a)).
  assert (2 ^ S m <= 2 ^ k)%nat by (apply Nat.pow_le_mono_r; lia).
  assert (E2 : (2 ^ S m = 2 ^ m * 2)%nat) by (simpl; lia).
  assert (EM : (2 ^ m = 2 ^ (m - a) * 2 ^ a)%nat) by (rewrite <- Nat.pow_add_r; f_equal; lia).
  set (kk := (2 ^ (m - a))%nat) in *. set (l := (2 ^ a)%nat) in *.
  match goal with |- context [while_ ?fu ?cond ?bd ?s0] =>
    destruct (while_inv (fun st : nat * nat * list (PG1 P) => let '(i, j, x) := st in
       (i <= kk - 1)%nat /\ ((i < kk - 1)%nat -> j = ((kk - i) * l - 1 - off)%nat) /\ length x = kk /\
       forall t, (t < i)%nat -> nth t x g0 = smul (s ^ ((kk - 1 - t) * l - 1 - off)) gen1)
       (fun st => let '(i, _, _) := st in (kk - i)%nat) cond bd fu s0) as (((i & j) & x) & E & I & C) end.
  - split; [lia|]. split; [|split; [apply repeat_length|lia]]. intros Hk. rewrite Nat.sub_0_r.
    assert (2 * l <= kk * l)%nat by nia. destruct (Nat.leb_spec (l + 1 + off) (2 ^ m)); lia.
  - lia.
  - intros ((i & j) & x) (I1 & I2 & L & I3) C. apply Nat.ltb_lt in C. specialize (I2 ltac:(lia)).
    assert (Q : ((kk - i) * l = (kk - 1 - i) * l + l)%nat) by (replace (kk - i)%nat with (S (kk - 1 - i)) by lia; cbn [Nat.mul]; lia).
    assert (Q2 : (l <= (kk - 1 - i) * l)%nat) by (replace (kk - 1 - i)%nat with (S (kk - 2 - i)) by lia; cbn [Nat.mul]; apply Nat.le_add_r).
    assert (Q3 : ((kk - 1 - i) * l <= kk * l)%nat) by (apply Nat.mul_le_mono_r; lia).
    rewrite usub_ok by lia. cbn [bind]. rewrite (sg1_nth ks s len HS) by lia. cbn [bind]. rewrite upd_ok by lia. cbn [bind].
    eexists. split; [reflexivity|]. split; [|lia]. split; [lia|]. split.
    + intros Hi. replace (kk - (i + 1))%nat with (kk - 1 - i)%nat by lia. lia.
    + split; [now rewrite set_length|]. intros t Ht. destruct (Nat.eq_dec t i) as [->|N].
      * rewrite nth_set_same by lia. f_equal. f_equal. lia.
      * rewrite nth_set_other by lia. apply I3. lia.
  - rewrite E. cbn [bind]. destruct I as (I1 & _ & L & I3). apply Nat.ltb_ge in C.
    rewrite usub_ok by lia. cbn [bind]. rewrite upd_ok by lia. cbn [bind].
    assert (X : set x (kk - 1) (g0 : PG1 P) = xvec s kk l off).
    { apply (nth_ext' g0); unfold xvec; rewrite set_length, ?length_map_seq; auto. intros t Ht. rewrite nth_map_seq by lia.
      destruct (Nat.ltb_spec t (kk - 1)).
      - rewrite nth_set_other by lia. apply I3. lia.
      - replace t with (kk - 1)%nat by lia. now rewrite nth_set_same by lia. }
    rewrite X. apply (mcl_part1_spec (kzg_fs ks) k w HF HK (m - a)); [lia|]. unfold xvec. apply length_map_seq.
Qed.

Lemma mcl_multi_new_ok m a : (S m <= k)%nat -> (a <= m)%nat ->
  mcl_fk20_multi_new ks (2 ^ S m) (2 ^ a) = Ok (mkMFKM (map (fun off =>
     dft (W (S (m - a))) (2 ^ S (m - a)) (xvec s (2 ^ (m - a)) (2 ^ a) off ++ repeat g0 (2 ^ (m - a)))) (seq 0 (2 ^ a))) (2 ^ a) ks).
Proof.
  intros Hm Ha. unfold mcl_fk20_multi_new. rewrite mcl_width. assert (P2 := pow2_pos m). assert (Pa := pow2_pos a). assert (Pk := pow2_pos (m - a)).
  assert (2 ^ S m <= 2 ^ k)%nat by (apply Nat.pow_le_mono_r; lia).
  assert (E2 : (2 ^ S m = 2 ^ m * 2)%nat) by (simpl; lia).
  assert (EM : (2 ^ m = 2 ^ (m - a) * 2 ^ a)%nat) by (rewrite <- Nat.pow_add_r; f_equal; lia).
  destruct (Nat.eqb_spec (2 ^ a) 0); [lia|]. cbn [bind].
  rewrite !mcl_is_pow_pow. cbn [bind negb].
  destruct (Nat.ltb_spec (2 ^ S m) 2); [lia|]. destruct (Nat.ltb_spec (2 ^ k) (2 ^ S m)); [lia|].
  assert (D : (2 ^ S m / 2 = 2 ^ m)%nat) by (rewrite E2; now apply Nat.div_mul). rewrite D.
  destruct (Nat.ltb_spec (2 ^ m) (2 ^ a)); [nia|].
  assert (Dk : (2 ^ m / 2 ^ a = 2 ^ (m - a))%nat) by (rewrite EM; apply Nat.div_mul; lia). rewrite Dk.
  set (F := fun off => dft (W (S (m - a))) (2 ^ S (m - a)) (xvec s (2 ^ (m - a)) (2 ^ a) off ++ repeat g0 (2 ^ (m - a)))).
  match goal with |- context [for_range 0 (2 ^ a) ?bd ?s0] =>
    destruct (for_range_inv (fun t (fl : list (list (PG1 P))) => length fl = (2 ^ a)%nat /\ forall i, (i < t)%nat -> nth i fl [] = F i) bd 0%nat (2 ^ a)%nat s0)
      as (fl & E & L & I) end.
  - lia.
  - split; [apply repeat_length|lia].
  - intros t fl Ht (L & I). rewrite mcl_precompute_ok by (auto; lia). cbn [unwrap bind]. rewrite upd_ok by lia. eexists. split; [reflexivity|].
    split; [now rewrite set_length|]. intros i Hi. destruct (Nat.eq_dec i t) as [->|N]; [now rewrite nth_set_same by lia|].
    rewrite nth_set_other by lia. apply I. lia.
  - rewrite E. cbn [bind]. do 2 f_equal. apply (nth_ext' []); rewrite ?length_map_seq; auto. intros i Hi. rewrite nth_map_seq by lia. apply I. lia.
Qed.

Lemma mcl_final_fft m (p : list K) l : (S m <= k)%nat -> (0 < l)%nat -> length p = (2 ^ m * l)%nat ->
  mcl_fft_g1 (kzg_fs ks) (map (fun i => smul (peval (skipn ((i + 1) * l) p) s) (gen1 : PG1 P)) (seq 0 (2 ^ m)) ++ repeat g0 (2 ^ m)) false
  = Ok (map (fun i => smul (sum (2 ^ m) (fun j => (W (S m) ^ i) ^ j * peval (skipn ((j + 1) * l) p) s)) gen1) (seq 0 (2 ^ S m))).
Proof.
  intros Hm Hl L.
  assert (LL : length (map (fun i => smul (peval (skipn ((i + 1) * l) p) s) (gen1 : PG1 P)) (seq 0 (2 ^ m)) ++ repeat g0 (2 ^ m)) = (2 ^ S m)%nat)
    by (rewrite app_length, length_map_seq, repeat_length; simpl; lia).
  rewrite (mcl_fft_g1_spec (kzg_fs ks) k w (S m)) by auto.
  rewrite <- (fft_g1_spec (kzg_fs ks) k w (S m)) by auto.
  apply (final_fft [1] (le_n 1) ks s k w); auto.
Qed.

Lemma mcl_single_da_opt_ok m (p : list K) : (S m <= k)%nat -> (S m < 31)%nat -> length p = (2 ^ m)%nat ->
  mcl_fk20_single_da_opt (mkMFKS ks (dft (W (S m)) (2 ^ S m) (xvec s (2 ^ m) 1 0 ++ repeat g0 (2 ^ m)))) p
  = Ok (map (fun i => smul (sum (2 ^ m) (fun j => (W (S m) ^ i) ^ j * peval (skipn ((j + 1) * 1) p) s)) gen1) (seq 0 (2 ^ S m))).
Proof.
  intros Hm M31 L. unfold mcl_fk20_single_da_opt. cbn [mfks_kzg mfks_x_ext_fft]. rewrite mcl_width, L.
  assert (P2 := pow2_pos m). assert (2 ^ S m <= 2 ^ k)%nat by (apply Nat.pow_le_mono_r; lia).
  assert (E2 : (2 ^ m * 2 = 2 ^ S m)%nat) by (simpl; lia). rewrite E2. rewrite mcl_is_pow_pow. cbn [bind negb].
  destruct (Nat.ltb_spec (2 ^ k) (2 ^ S m)); [lia|].
  rewrite (mcl_stride_spec k HK p (2 ^ m) 1 0) by lia. cbn [bind]. rewrite E2.
  unfold W. rewrite (mcl_part2_eq (kzg_fs ks) k w HF HK (S m)).
  - cbn [unwrap bind]. rewrite (mcl_part3_eq (kzg_fs ks) k w HF HK m) by (auto; apply length_map_seq). cbn [unwrap bind].
    assert (F : firstn (2 ^ m) (cyc (2 ^ S m) (map (tcoef p (2 ^ m) 1 0) (seq 0 (2 ^ S m))) (xvec s (2 ^ m) 1 0 ++ repeat g0 (2 ^ m)))
       = map (fun i => smul (peval (skipn ((i + 1) * 1) p) s) (gen1 : PG1 P)) (seq 0 (2 ^ m))).
    { apply (nth_ext' g0); [unfold cyc; rewrite firstn_length, !length_map_seq; lia|]. intros i Hi.
      unfold cyc in Hi. rewrite firstn_length, length_map_seq in Hi.
      rewrite nth_firstn', nth_map_seq by lia. rewrite <- E2. rewrite <- (toeplitz_entry s p (2 ^ m) 1 i) by lia.
      cbn [gsum]. now rewrite gadd_0_l. }
    rewrite F. now rewrite mcl_final_fft by lia.
  - lia.
  - auto.
  - apply length_map_seq.
  - unfold xvec. rewrite app_length, length_map_seq, repeat_length. lia.
Qed.

Lemma mcl_multi_da_opt_ok m a (p q : list K) : (S m <= k)%nat -> (a <= m)%nat -> (S (m - a) < 31)%nat -> length p = (2 ^ m)%nat ->
  (length q = 2 ^ m \/ length q = 2 ^ m + 1)%nat ->
  mcl_fk20_multi_da_opt (mkMFKM (map (fun off =>
     dft (W (S (m - a))) (2 ^ S (m - a)) (xvec s (2 ^ (m - a)) (2 ^ a) off ++ repeat g0 (2 ^ (m - a)))) (seq 0 (2 ^ a))) (2 ^ a) ks) (p ++ q)
  = Ok (map (fun i => smul (sum (2 ^ (m - a)) (fun j => (W (S (m - a)) ^ i) ^ j * peval (skipn ((j + 1) * 2 ^ a) p) s)) gen1) (seq 0 (2 ^ S (m - a)))).
Proof.
  intros Hm Ha M31 L Lq. unfold mcl_fk20_multi_da_opt. cbn [mfkm_kzg mfkm_chunk_len mfkm_files]. rewrite mcl_width, app_length, L.
  assert (P2 := pow2_pos m). assert (Pa := pow2_pos a). assert (Pk := pow2_pos (m - a)).
  assert (2 ^ S m <= 2 ^ k)%nat by (apply Nat.pow_le_mono_r; lia).
  assert (E2 : (2 ^ m * 2 = 2 ^ S m)%nat) by (simpl; lia).
  assert (Ek : (2 ^ (m - a) * 2 = 2 ^ S (m - a))%nat) by (simpl; lia).
  assert (EM : (2 ^ m = 2 ^ (m - a) * 2 ^ a)%nat) by (rewrite <- Nat.pow_add_r; f_equal; lia).
  assert (DD : ((2 ^ m + length q) / 2 = 2 ^ m)%nat).
  { destruct Lq as [-> | ->]; [replace (2 ^ m + 2 ^ m)%nat with (2 ^ m * 2)%nat by lia; now apply Nat.div_mul|].
    replace (2 ^ m + (2 ^ m + 1))%nat with (1 + 2 ^ m * 2)%nat by lia. rewrite Nat.div_add by lia. reflexivity. }
  rewrite DD, E2. destruct (Nat.eqb_spec (2 ^ a) 0); [lia|]. cbn [bind]. rewrite mcl_is_pow_pow. cbn [bind negb].
  destruct (Nat.ltb_spec (2 ^ k) (2 ^ S m)); [lia|].
  assert (Dk : (2 ^ m / 2 ^ a = 2 ^ (m - a))%nat) by (rewrite EM; apply Nat.div_mul; lia). rewrite Dk.
  rewrite firstn_app, L, Nat.sub_diag, firstn_O, app_nil_r, firstn_all2 by lia.
  set (kk := (2 ^ (m - a))%nat) in *. set (l := (2 ^ a)%nat) in *. set (N := (2 ^ S (m - a))%nat) in *.
  set (cv := fun off => cyc N (map (tcoef p kk l off) (seq 0 N)) (@xvec K P s kk l off ++ repeat g0 kk)).
  match goal with |- context [for_range 0 l ?bd ?s0] =>
    destruct (for_range_inv (fun t (h : list (PG1 P)) => h = dft (W (S (m - a))) N (map (fun u => gsum t (fun off => nth u (cv off) g0)) (seq 0 N))) bd 0%nat l s0) as (h & E & ->) end.
  - lia.
  - rewrite Ek. unfold dft. apply (nth_ext' g0); [now rewrite length_map_seq, repeat_length|].
    intros i Hi. rewrite repeat_length in Hi. rewrite nth_map_seq by auto. rewrite nth_repeat_same. symmetry. apply gsum_0.
    intros j Hj. rewrite nth_map_seq by auto. cbn [gsum]. apply smul_0_r.
  - intros off h Ho ->. rewrite (mcl_stride_spec k HK p kk l off) by lia. cbn [bind].
    rewrite (idx_ok _ off []) by (rewrite length_map_seq; lia). cbn [bind]. rewrite nth_map_seq by lia. rewrite Ek.
    unfold W. fold N. unfold N at 1. rewrite (mcl_part2_eq (kzg_fs ks) k w HF HK (S (m - a))).
    + cbn [unwrap bind]. fold N. rewrite add_loop by apply dft_length. eexists. split; [reflexivity|]. fold (W (S (m - a))).
      rewrite dft_add. f_equal. apply map_ext_seq. intros u Hu. rewrite nth_map_seq by auto. cbn [gsum]. reflexivity.
    + lia.
    + auto.
    + apply length_map_seq.
    + unfold xvec. rewrite app_length, length_map_seq, repeat_length. fold N. lia.
  - rewrite E. cbn [bind]. unfold W, N. rewrite (mcl_part3_eq (kzg_fs ks) k w HF HK (m - a)) by (try lia; apply length_map_seq).
    cbn [unwrap bind]. fold kk N.
    assert (F : firstn kk (map (fun u => gsum l (fun off => nth u (cv off) g0)) (seq 0 N))
       = map (fun i => smul (peval (skipn ((i + 1) * l) p) s) (gen1 : PG1 P)) (seq 0 kk)).
    { apply (nth_ext' g0); [rewrite firstn_length, !length_map_seq; lia|]. intros i Hi. rewrite firstn_length, length_map_seq in Hi.
      rewrite nth_firstn', !nth_map_seq by lia. unfold cv. rewrite <- Ek. apply toeplitz_entry; lia. }
    rewrite F. rewrite firstn_app, length_map_seq, Nat.sub_diag, firstn_O, app_nil_r, firstn_all2 by (rewrite length_map_seq; lia).
    unfold kk at 1 2. rewrite mcl_final_fft by (fold kk; lia). reflexivity.
Qed.
(** ** polynomials of other lengths *)
Lemma mcl_long_single m m' (p : list K) : (m < m')%nat -> (S m' <= k)%nat -> (S m' < 31)%nat -> length p = (2 ^ m')%nat ->
  exists out, mcl_fk20_single_da_opt (mkMFKS ks (dft (W (S m)) (2 ^ S m) (xvec s (2 ^ m) 1 0 ++ repeat g0 (2 ^ m)))) p = Ok out /\ length out = (2 ^ S m)%nat.
Proof.
  intros Hm Hm' M31 L. unfold mcl_fk20_single_da_opt. cbn [mfks_kzg mfks_x_ext_fft]. rewrite mcl_width, L.
  assert (P2 := pow2_pos m'). assert (2 ^ S m' <= 2 ^ k)%nat by (apply Nat.pow_le_mono_r; lia).
  assert (E2 : (2 ^ m' * 2 = 2 ^ S m')%nat) by (simpl; lia). rewrite E2. rewrite mcl_is_pow_pow. cbn [bind negb].
  destruct (Nat.ltb_spec (2 ^ k) (2 ^ S m')); [lia|].
  rewrite (mcl_stride_spec k HK p (2 ^ m') 1 0) by lia. cbn [bind]. rewrite E2.
  rewrite (mcl_part2_zip (kzg_fs ks) k w HF HK (S m')) by (auto; apply length_map_seq). cbn [unwrap bind].
  rewrite dft_length. assert (2 ^ S m <= 2 ^ S m')%nat by (apply Nat.pow_le_mono_r; lia). rewrite Nat.min_l by auto.
  match goal with |- context [mcl_toeplitz_part_3 _ ?h] => set (hx := h) end.
  assert (Lh : length hx = (2 ^ S m)%nat) by apply length_map_seq. unfold mcl_toeplitz_part_3. rewrite Lh.
  rewrite (mcl_fft_g1_spec (kzg_fs ks) k w (S m)) by (auto; lia). cbn [unwrap bind].
  match goal with |- context [firstn (2 ^ S m / 2) ?h] => set (rt := h) end.
  assert (Lr : length rt = (2 ^ S m)%nat) by (unfold rt; now rewrite map_length, dft_length).
  match goal with |- context [mcl_fft_g1 _ ?h _] => assert (LL : length h = (2 ^ S m)%nat) end.
  { rewrite !app_length, map_length, (skipn_all2 (n := 2 ^ S m)) by lia. rewrite (firstn_all2 (n := 2 ^ S m)) by lia.
    rewrite Nat.add_0_r, <- app_length, firstn_skipn. exact Lr. }
  rewrite (mcl_fft_g1_spec (kzg_fs ks) k w (S m)) by (auto; lia). eexists. split; [reflexivity|]. apply dft_length.
Qed.

Lemma mcl_long_multi m m' a (p q : list K) : (a <= m)%nat -> (m < m')%nat -> (S m' <= k)%nat -> (S (m' - a) < 31)%nat -> length p = (2 ^ m')%nat ->
  length q = (2 ^ m')%nat ->
  mcl_fk20_multi_da_opt (mkMFKM (map (fun off =>
     dft (W (S (m - a))) (2 ^ S (m - a)) (xvec s (2 ^ (m - a)) (2 ^ a) off ++ repeat g0 (2 ^ (m - a)))) (seq 0 (2 ^ a))) (2 ^ a) ks) (p ++ q) = Panic.
Proof.
  intros Ha Hm Hm' M31 L Lq. unfold mcl_fk20_multi_da_opt. cbn [mfkm_kzg mfkm_chunk_len mfkm_files]. rewrite mcl_width, app_length, L, Lq.
  assert (P2 := pow2_pos m'). assert (Pa := pow2_pos a). assert (Pk := pow2_pos (m' - a)).
  assert (2 ^ S m' <= 2 ^ k)%nat by (apply Nat.pow_le_mono_r; lia).
  assert (HLT : (2 ^ S (m - a) < 2 ^ S (m' - a))%nat) by (apply Nat.pow_lt_mono_r; lia).
  assert (E2 : (2 ^ m' * 2 = 2 ^ S m')%nat) by (simpl; lia).
  assert (Ek : (2 ^ (m' - a) * 2 = 2 ^ S (m' - a))%nat) by (simpl; lia).
  assert (EM : (2 ^ m' = 2 ^ (m' - a) * 2 ^ a)%nat) by (rewrite <- Nat.pow_add_r; f_equal; lia).
  assert (DD : ((2 ^ m' + 2 ^ m') / 2 = 2 ^ m')%nat) by (replace (2 ^ m' + 2 ^ m')%nat with (2 ^ m' * 2)%nat by lia; now apply Nat.div_mul).
  rewrite DD, E2. destruct (Nat.eqb_spec (2 ^ a) 0); [lia|]. cbn [bind]. rewrite mcl_is_pow_pow. cbn [bind negb].
  destruct (Nat.ltb_spec (2 ^ k) (2 ^ S m')); [lia|].
  assert (Dk : (2 ^ m' / 2 ^ a = 2 ^ (m' - a))%nat) by (rewrite EM; apply Nat.div_mul; lia). rewrite Dk.
  rewrite firstn_app, L, Nat.sub_diag, firstn_O, app_nil_r, firstn_all2 by lia.
  set (l := (2 ^ a)%nat) in *. unfold for_range at 1. rewrite Nat.sub_0_r.
  destruct l as [|l'] eqn:El; [lia|]. cbn [for_]. rewrite <- El in *.
  rewrite (mcl_stride_spec k HK p (2 ^ (m' - a)) l 0) by lia. cbn [bind].
  rewrite (idx_ok _ 0 []) by (rewrite length_map_seq; lia). cbn [bind]. rewrite nth_map_seq by lia. rewrite Ek.
  rewrite (mcl_part2_zip (kzg_fs ks) k w HF HK (S (m' - a))) by (auto; try lia; apply length_map_seq). cbn [unwrap bind].
  rewrite dft_length, Nat.min_l by lia.
  match goal with |- context [map ?f (seq 0 (2 ^ S (m - a)))] => set (hf := map f (seq 0 (2 ^ S (m - a)))) end.
  assert (Lf : length hf = (2 ^ S (m - a))%nat) by apply length_map_seq.
  match goal with |- (let* h := (let* _ := for_range 0 _ ?bd ?s0 in _) in _) = _ => set (body := bd); set (st := s0) end.
  assert (Ls : length st = (2 ^ S (m' - a))%nat) by apply repeat_length.
  assert (G : for_range 0 (2 ^ S (m' - a)) body st = Panic).
  { unfold for_range. rewrite Nat.sub_0_r. replace (2 ^ S (m' - a))%nat with (2 ^ S (m - a) + S (2 ^ S (m' - a) - 2 ^ S (m - a) - 1))%nat by lia.
    rewrite for_app.
    destruct (for_range_inv (fun _ (h : list (PG1 P)) => length h = (2 ^ S (m' - a))%nat) body 0%nat (2 ^ S (m - a))%nat st) as (h & E & Lh); auto; [lia| |].
    - intros j h Hj Lh. unfold body. rewrite (idx_ok h j g0) by lia. cbn [bind]. rewrite (idx_ok hf j g0) by lia. cbn [bind].
      rewrite upd_ok by lia. eexists. split; [reflexivity|]. now rewrite set_length.
    - unfold for_range in E. rewrite Nat.sub_0_r in E. rewrite E. cbn [bind for_]. unfold body at 1.
      rewrite (idx_ok h _ g0) by lia. cbn [bind]. rewrite idx_panic by lia. reflexivity. }
  rewrite G. reflexivity.
Qed.

Lemma mcl_short_multi a b files (p q : list K) : (S b <= k)%nat -> (b < a)%nat -> length p = (2 ^ b)%nat -> length q = (2 ^ b)%nat ->
  mcl_fk20_multi_da_opt (mkMFKM files (2 ^ a) ks) (p ++ q) = Panic.
Proof.
  intros Hb Hab L Lq. unfold mcl_fk20_multi_da_opt. cbn [mfkm_kzg mfkm_chunk_len mfkm_files]. rewrite mcl_width, app_length, L, Lq.
  assert (P2 := pow2_pos b). assert (Pa := pow2_pos a).
  assert (2 ^ S b <= 2 ^ k)%nat by (apply Nat.pow_le_mono_r; lia).
  assert (2 ^ b < 2 ^ a)%nat by (apply Nat.pow_lt_mono_r; lia).
  assert (E2 : (2 ^ b * 2 = 2 ^ S b)%nat) by (simpl; lia).
  assert (DD : ((2 ^ b + 2 ^ b) / 2 = 2 ^ b)%nat) by (replace (2 ^ b + 2 ^ b)%nat with (2 ^ b * 2)%nat by lia; now apply Nat.div_mul).
  rewrite DD, E2. destruct (Nat.eqb_spec (2 ^ a) 0); [lia|]. cbn [bind]. rewrite mcl_is_pow_pow. cbn [bind negb].
  destruct (Nat.ltb_spec (2 ^ k) (2 ^ S b)); [lia|].
  rewrite firstn_app, L, Nat.sub_diag, firstn_O, app_nil_r, firstn_all2 by lia.
  set (l := (2 ^ a)%nat) in *. unfold for_range at 1. rewrite Nat.sub_0_r.
  destruct l as [|l'] eqn:El; [lia|]. cbn [for_]. rewrite <- El in *.
  unfold mcl_toeplitz_coeffs. destruct (Nat.eqb_spec l 0); [lia|]. cbn [bind]. rewrite L, (Nat.div_small (2 ^ b) l) by lia.
  rewrite usub_ok by lia. cbn [bind]. rewrite usub_ok by lia. cbn [bind]. rewrite (idx_ok p _ f0) by lia. reflexivity.
Qed.

Lemma mcl_short_single (c : K) : (2 <= k)%nat ->
  mcl_fk20_single_da_opt (mkMFKS ks (dft (W 2) (2 ^ 2) (xvec s (2 ^ 1) 1 0 ++ repeat g0 (2 ^ 1)))) [c] = Ok [smul c gen1; smul c gen1].
Proof.
  intros Hk. unfold mcl_fk20_single_da_opt. cbn [mfks_kzg mfks_x_ext_fft]. rewrite mcl_width. change (length [c] * 2)%nat with (2 ^ 1)%nat.
  assert (2 ^ 2 <= 2 ^ k)%nat by (apply Nat.pow_le_mono_r; lia). change (2 ^ 2)%nat with 4%nat in *.
  rewrite mcl_is_pow_pow. cbn [bind negb].
  destruct (Nat.ltb_spec (2 ^ k) (2 ^ 1)) as [L|L]; [simpl in L; lia|].
  rewrite (mcl_stride_spec k HK [c] 1 1 0) by (auto; lia). cbn [bind].
  rewrite (mcl_part2_zip (kzg_fs ks) k w HF HK 1) by (auto; lia). cbn [unwrap bind].
  rewrite dft_length.
  assert (X : map (fun u => smul (peval (map (tcoef [c] 1 1 0) (seq 0 (1 * 2))) ((w ^ (2 ^ (k - 1))) ^ u)) (nth u (dft (W 2) 4 (@xvec K P s (2 ^ 1) 1 0 ++ repeat g0 (2 ^ 1))) g0))
     (seq 0 (Nat.min 4 (2 ^ 1))) = dft (w ^ (2 ^ (k - 1))) (2 ^ 1) [smul c (gen1 : PG1 P); g0]).
  { set (w1 := w ^ (2 ^ (k - 1))). cbn [dft Nat.pow Nat.mul Nat.add Nat.min seq map gsum xvec app repeat nth Nat.ltb Nat.leb Nat.sub fpow tcoef Nat.eqb peval coef].
    rewrite !smul_0_r, !gadd_0_l, !gadd_0_r, !smul_1.
    replace (c + 1 * (0 + 1 * 0)) with c by ring. replace (c + w1 * 1 * (0 + w1 * 1 * 0)) with c by ring. reflexivity. }
  match goal with |- context [map ?f (seq 0 (Nat.min 4 (2 ^ 1)))] =>
    replace (map f (seq 0 (Nat.min 4 (2 ^ 1)))) with (dft (w ^ (2 ^ (k - 1))) (2 ^ 1) [smul c (gen1 : PG1 P); g0]) by (symmetry; exact X) end.
  rewrite (mcl_part3_eq (kzg_fs ks) k w HF HK 0) by (auto; lia). cbn [unwrap bind].
  rewrite (mcl_fft_g1_spec (kzg_fs ks) k w 1) by (auto; lia). f_equal.
  set (w1 := w ^ (2 ^ (k - 1))). clearbody w1.
  cbn [dft firstn Nat.pow Nat.mul Nat.add seq map gsum app repeat nth fpow].
  rewrite !smul_0_r, !gadd_0_l, !gadd_0_r, !smul_1. reflexivity.
Qed.
End Batch.
