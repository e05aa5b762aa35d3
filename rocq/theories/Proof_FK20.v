(** * Proof_FK20: Toeplitz products and batch proofs, over an arbitrary field *)
From Coq Require Import List Arith Lia Bool NArith Field.
From Verif Require Import Base Fld Poly Loops Model_Utils Proof_Utils Model_FFT Spec Proof_FFT.
From Verif Require Import Model_Poly Proof_Poly1 Proof_Poly2 Model_KZG Model_FK20 Proof_Recovery Proof_KZG.
Import ListNotations.

Lemma push_const {A} (x : A) a b l : a <= b -> for_range a b (fun _ e => Ok (e ++ [x])) l = Ok (l ++ repeat x (b - a)).
Proof.
  intros H. destruct (for_range_inv (fun t e => e = l ++ repeat x (t - a)) (fun _ e => Ok (e ++ [x])) a b l) as (e & E & ->); auto.
  - rewrite Nat.sub_diag. cbn [repeat]. now rewrite app_nil_r.
  - intros j t Hj ->. eexists. split; [reflexivity|]. rewrite <- app_assoc. f_equal.
    replace (S j - a) with ((j - a) + 1) by lia. now rewrite repeat_app.
Qed.

Lemma map_nth_seq {A} (l : list A) d : map (fun i => nth i l d) (seq 0 (length l)) = l.
Proof.
  apply (nth_ext' d); rewrite length_map_seq; auto. intros i Hi. now rewrite nth_map_seq.
Qed.

Section Sums.
Context {K : fld} {M : gmod K}.
Add Field Kff0 : (fld_field K).
Local Open Scope fld_scope.

(** cyclic shift of a sum *)
Lemma gsum_cycle N j (f : nat -> M) : (j <= N)%nat -> gsum N (fun i => f ((i + j) mod N)%nat) = gsum N f.
Proof.
  intros H. destruct (Nat.eq_dec N 0) as [->|NZ]; [reflexivity|].
  set (g := fun i => f ((i + j) mod N)%nat).
  transitivity (gsum ((N - j) + j)%nat g); [f_equal; lia|]. transitivity (gsum (j + (N - j))%nat f); [|f_equal; lia].
  rewrite !gsum_split, gadd_comm. unfold g. f_equal; apply gsum_ext; intros i Hi; f_equal.
  - replace (N - j + i + j)%nat with (i + 1 * N)%nat by lia. rewrite Nat.mod_add by lia. apply Nat.mod_small. lia.
  - rewrite Nat.mod_small by lia. lia.
Qed.

(** a sum by blocks *)
Lemma sum_blocks k l (f : nat -> K) : sum (k * l)%nat f = sum k (fun u => sum l (fun v => f (u * l + v)%nat)).
Proof.
  induction k; [reflexivity|]. cbn [sum]. rewrite <- IHk. replace (S k * l)%nat with (k * l + l)%nat by lia.
  apply sum_split.
Qed.
End Sums.

(** the cyclic convolution of coefficients with group elements *)
Definition cyc {K : fld} {M : gmod K} (N : nat) (c : list K) (x : list M) : list M :=
  map (fun i => gsum N (fun j => smul (coef c ((i + N - j) mod N)) (nth j x g0))) (seq 0 N).

Section Toeplitz.
Context {K : fld} {M : gmod K}.
Add Field Kff : (fld_field K).
Local Open Scope fld_scope.

Lemma dft_cyc (w : K) N (c : list K) (x : list M) : (0 < N)%nat -> w ^ N = 1 -> length c = N ->
  dft w N (cyc N c x) = map (fun u => smul (peval c (w ^ u)) (nth u (dft w N x) g0)) (seq 0 N).
Proof.
  intros HN Hw Lc. unfold dft at 1. apply map_ext_seq. intros u Hu. unfold dft. rewrite nth_map_seq by auto.
  rewrite <- gsum_smul.
  rewrite (gsum_ext N _ (fun i => gsum N (fun j => smul (w ^ (u * i) * coef c ((i + N - j) mod N)) (nth j x g0)))).
  2: { intros i Hi. unfold cyc. rewrite nth_map_seq by auto. rewrite <- gsum_smul. apply gsum_ext. intros j _. apply smul_smul. }
  rewrite gsum_swap. apply gsum_ext. intros j Hj.
  rewrite <- (gsum_cycle N j (fun i => smul (w ^ (u * i) * coef c ((i + N - j) mod N)) (nth j x g0))) by lia.
  rewrite gsum_scal, smul_smul. f_equal. rewrite (peval_sum_n c _ N) by lia. rewrite <- sum_mul_r. apply sum_ext. intros i Hi.
  replace ((((i + j) mod N) + N - j) mod N)%nat with i.
  - rewrite fpow_mul, fpow_mod by (try lia; rewrite <- fpow_mul, Nat.mul_comm, fpow_mul, Hw; apply fpow_1_l).
    rewrite fpow_add, (fpow_mul w u j). ring.
  - destruct (Nat.lt_ge_cases (i + j) N) as [L|L].
    + rewrite (Nat.mod_small (i + j)) by lia. replace (i + j + N - j)%nat with (i + 1 * N)%nat by lia.
      rewrite Nat.mod_add by lia. now rewrite Nat.mod_small.
    + replace (i + j)%nat with ((i + j - N) + 1 * N)%nat by lia. rewrite Nat.mod_add by lia.
      rewrite (Nat.mod_small (i + j - N)) by lia. replace (i + j - N + N - j)%nat with i by lia. now rewrite Nat.mod_small.
Qed.

Variables (fs : fft_settings K) (k : nat) (w : K).
Hypothesis HF : settings_ok fs k w.

Lemma part1_spec m (x : list M) : (S m <= k)%nat -> length x = (2 ^ m)%nat ->
  toeplitz_part_1 fs x = Ok (dft (w ^ (2 ^ (k - S m))) (2 ^ S m) (x ++ repeat g0 (2 ^ m))).
Proof.
  intros Hm L. unfold toeplitz_part_1.
  rewrite (push_loop _ (fun i => nth i x g0)) by (intros i l Hi; rewrite (idx_ok x i g0) by lia; reflexivity).
  cbn [bind]. rewrite map_nth_seq, push_const by lia. cbn [bind].
  replace (length x * 2 - length x)%nat with (2 ^ m)%nat by lia.
  rewrite (fft_g1_spec fs k w (S m)); auto. rewrite app_length, repeat_length, L. simpl. lia.
Qed.

Lemma part2_spec m (c : list K) (x : list M) : (m <= k)%nat -> length c = (2 ^ m)%nat -> length x = (2 ^ m)%nat ->
  toeplitz_part_2 fs c (dft (w ^ (2 ^ (k - m))) (2 ^ m) x) = Ok (dft (w ^ (2 ^ (k - m))) (2 ^ m) (cyc (2 ^ m) c x)).
Proof.
  intros Hm Lc Lx. unfold toeplitz_part_2. rewrite (fft_fr_spec fs k w m) by auto. cbn [unwrap bind].
  rewrite (push_loop _ (fun u => smul (peval c ((w ^ (2 ^ (k - m))) ^ u)) (nth u (dft (w ^ (2 ^ (k - m))) (2 ^ m) x) g0))).
  - f_equal. rewrite Lc. symmetry. apply dft_cyc; auto using pow2_pos.
    destruct (primitive_fold w k m Hm ltac:(apply HF)) as (E & _). exact E.
  - intros i l Hi. rewrite (idx_ok _ i g0) by (rewrite dft_length; lia). cbn [bind].
    rewrite (idx_ok _ i 0) by (rewrite length_map_seq; lia). cbn [bind]. now rewrite nth_map_seq by lia.
Qed.

Lemma part2_short_panics (m j : nat) (c : list K) (x : list M) : (m <= k)%nat -> length c = (2 ^ m)%nat -> (length x < 2 ^ m)%nat ->
  toeplitz_part_2 fs c x = Panic.
Proof.
  intros Hm Lc Lx. unfold toeplitz_part_2. rewrite (fft_fr_spec fs k w m) by auto. cbn [unwrap bind].
  unfold for_range. rewrite Nat.sub_0_r. replace (length c) with (length x + S (length c - length x - 1))%nat by lia.
  rewrite for_app.
  assert (E := push_loop (fun i ret => let* x0 := idx x i in
    let* c0 := idx (map (fun i : nat => peval c ((w ^ (2 ^ (k - m))) ^ i)) (seq 0 (2 ^ m))) i in Ok (ret ++ [smul c0 x0]))
    (fun i => smul (peval c ((w ^ (2 ^ (k - m))) ^ i)) (nth i x g0)) (length x)).
  unfold for_range in E. rewrite Nat.sub_0_r in E. rewrite E.
  - cbn [bind for_ Nat.add]. rewrite idx_panic by lia. reflexivity.
  - intros i l Hi. rewrite (idx_ok _ i g0) by lia. cbn [bind].
    rewrite (idx_ok _ i 0) by (rewrite length_map_seq; lia). cbn [bind]. now rewrite nth_map_seq by lia.
Qed.

Lemma ifft_dft m (h : list M) : (m <= k)%nat -> length h = (2 ^ m)%nat ->
  fft_g1 fs (dft (w ^ (2 ^ (k - m))) (2 ^ m) h) true = Ok h.
Proof.
  intros Hm L. destruct (fft_g1_roundtrip fs k w m h HF Hm L) as (E & _).
  rewrite (fft_g1_spec fs k w m) in E by auto. exact E.
Qed.

Lemma part3_spec m (h : list M) : (S m <= k)%nat -> length h = (2 ^ S m)%nat ->
  toeplitz_part_3 fs (dft (w ^ (2 ^ (k - S m))) (2 ^ S m) h) = Ok (firstn (2 ^ m) h ++ repeat g0 (2 ^ m)).
Proof.
  intros Hm L. unfold toeplitz_part_3. rewrite dft_length, ifft_dft by auto. cbn [unwrap bind].
  assert (E2 : (2 ^ S m = 2 ^ m + 2 ^ m)%nat) by (simpl; lia).
  assert (D : (2 ^ S m / 2 = 2 ^ m)%nat) by (rewrite E2; replace (2 ^ m + 2 ^ m)%nat with (2 ^ m * 2)%nat by lia; now apply Nat.div_mul).
  rewrite D. unfold clear_range. rewrite L.
  destruct (Nat.leb_spec (2 ^ m) (2 ^ S m)); [|lia]. rewrite Nat.leb_refl. cbn [andb].
  rewrite skipn_all2 by lia. rewrite app_nil_r. do 3 f_equal. lia.
Qed.

(** ** the circulant vector of a polynomial *)
Definition tcoef (p : list K) (kk l off i : nat) : K :=
  if (i =? 0)%nat then coef p (kk * l - 1 - off) else if (i <? kk + 2)%nat then 0 else coef p ((i - kk) * l - off - 1).

Lemma stride_spec (p : list K) kk l off : (0 < kk)%nat -> (off < l)%nat -> length p = (kk * l)%nat ->
  toeplitz_coeffs_stride p off l = Ok (map (tcoef p kk l off) (seq 0 (kk * 2))).
Proof.
  intros Hk Ho L. unfold toeplitz_coeffs_stride. destruct (Nat.eqb_spec l 0); [lia|]. cbn [bind].
  assert (D : (length p / l = kk)%nat) by (rewrite L; apply Nat.div_mul; lia). rewrite D.
  assert (LL : (l <= length p)%nat) by nia.
  rewrite usub_ok by lia. cbn [bind]. rewrite usub_ok by lia. cbn [bind].
  rewrite (idx_ok p _ 0) by lia. cbn [bind].
  assert (NZ : (if (kk + 2 <? kk * 2)%nat then Ok (kk + 1)%nat else usub (kk * 2) 1) = Ok (Nat.min (kk + 1) (kk * 2 - 1))).
  { destruct (Nat.ltb_spec (kk + 2) (kk * 2)); [f_equal; lia|]. rewrite usub_ok by lia. f_equal. lia. }
  rewrite NZ. cbn [bind]. rewrite push_const by lia. cbn [bind]. rewrite Nat.sub_0_r.
  rewrite usub_ok by lia. cbn [bind]. rewrite usub_ok by lia. cbn [bind].
  set (z := Nat.min (kk + 1) (kk * 2 - 1)).
  assert (Init : [nth (length p - 1 - off) p 0] ++ repeat 0 z = map (tcoef p kk l off) (seq 0 (Nat.min (kk + 2) (kk * 2)))).
  { apply (nth_ext' 0); [rewrite length_map_seq, app_length, repeat_length; cbn [length]; unfold z; lia|].
    intros i Hi. rewrite app_length, repeat_length in Hi. cbn [length] in Hi. rewrite nth_map_seq by (unfold z in *; lia).
    unfold tcoef. destruct (Nat.eqb_spec i 0) as [->|]; [cbn [app nth]; unfold coef; f_equal; lia|].
    destruct (Nat.ltb_spec i (kk + 2)); [|unfold z in *; lia].
    rewrite app_nth2 by (cbn [length]; lia). cbn [length]. apply nth_repeat'. unfold z in *. lia. }
  rewrite Init.
  match goal with |- context [while_ ?fu ?cond ?bd ?s0] =>
    destruct (while_inv (fun st : nat * nat * list K => let '(i, j, ret) := st in
       (kk + 2 <= i)%nat /\ (i <= Nat.max (kk + 2) (kk * 2))%nat /\ j = ((i - kk) * l - off - 1)%nat /\ ret = map (tcoef p kk l off) (seq 0 (Nat.min i (kk * 2))))
       (fun st => let '(i, _, _) := st in (kk * 2 - i)%nat) cond bd fu s0) as (((i & j) & ret) & E & I & C) end.
  - split; [lia|]. split; [lia|]. split; [f_equal; f_equal; f_equal; lia|reflexivity].
  - lia.
  - intros ((i & j) & ret) (I1 & I2 & I3 & I4) C. apply Nat.ltb_lt in C.
    assert (B : ((i - kk) * l <= kk * l - l)%nat) by nia.
    rewrite (idx_ok p j 0) by nia. cbn [bind]. eexists. split; [reflexivity|]. split; [|lia].
    split; [lia|]. split; [lia|]. split.
    + rewrite I3. assert ((i + 1 - kk) * l = (i - kk) * l + l)%nat by nia. assert (l <= (i - kk) * l)%nat by nia. lia.
    + rewrite I4. replace (Nat.min (i + 1) (kk * 2)) with (S i) by lia. replace (Nat.min i (kk * 2)) with i by lia.
      rewrite seq_S, map_app. cbn [map Nat.add]. do 2 f_equal. unfold tcoef. destruct (Nat.eqb_spec i 0); [lia|].
      destruct (Nat.ltb_spec i (kk + 2)); [lia|]. now rewrite I3.
  - rewrite E. cbn [bind]. destruct I as (I1 & I2 & I3 & ->). apply Nat.ltb_ge in C. do 3 f_equal. lia.
Qed.

(** entry (i, j) of the Toeplitz matrix, for i, j below kk *)
Lemma tcoef_entry p kk l off i j : (i < kk)%nat -> (j < kk)%nat -> (off < l)%nat ->
  coef (map (tcoef p kk l off) (seq 0 (kk * 2))) ((i + kk * 2 - j) mod (kk * 2))
  = if (i =? j)%nat || ((i <? j) && (j <? i + (kk - 1)))%nat then coef p ((kk - (j - i)) * l - 1 - off) else 0.
Proof.
  intros Hi Hj Ho.
  assert (E : ((i + kk * 2 - j) mod (kk * 2) = if (j <=? i)%nat then i - j else kk * 2 - (j - i))%nat).
  { destruct (Nat.leb_spec j i).
    - replace (i + kk * 2 - j)%nat with ((i - j) + 1 * (kk * 2))%nat by lia. rewrite Nat.mod_add by lia. apply Nat.mod_small. lia.
    - rewrite Nat.mod_small by lia. lia. }
  rewrite E. rewrite coef_map_seq. unfold tcoef.
  destruct (Nat.leb_spec j i).
  - destruct (Nat.ltb_spec (i - j) (kk * 2)); [|lia]. destruct (Nat.eqb_spec (i - j) 0).
    + replace j with i by lia. rewrite Nat.eqb_refl. cbn [orb]. f_equal. do 3 f_equal. lia.
    + destruct (Nat.ltb_spec (i - j) (kk + 2)); [|lia]. destruct (Nat.eqb_spec i j); [lia|]. destruct (Nat.ltb_spec i j); [lia|]. reflexivity.
  - destruct (Nat.ltb_spec (kk * 2 - (j - i)) (kk * 2)); [|lia]. destruct (Nat.eqb_spec (kk * 2 - (j - i)) 0); [lia|].
    destruct (Nat.ltb_spec i j); [|lia]. destruct (Nat.eqb_spec i j); [lia|]. cbn [andb orb].
    destruct (Nat.ltb_spec (kk * 2 - (j - i)) (kk + 2)), (Nat.ltb_spec j (i + (kk - 1))); try lia; auto.
    f_equal. replace (kk * 2 - (j - i) - kk)%nat with (kk - (j - i))%nat by lia. lia.
Qed.
End Toeplitz.

Section Batch.
Context {K : fld} {P : pairing K}.
Add Field Kffb : (fld_field K).
Local Open Scope fld_scope.
Implicit Types (ks : kzg_settings P).

Lemma dft_add (w : K) N (a b : list (PG1 P)) :
  map (fun u => gadd (nth u (dft w N a) g0) (nth u (dft w N b) g0)) (seq 0 N)
  = dft w N (map (fun u => gadd (nth u a g0) (nth u b g0)) (seq 0 N)).
Proof.
  unfold dft at 3. apply map_ext_seq. intros u Hu. unfold dft. rewrite !nth_map_seq by auto. rewrite <- gsum_add.
  apply gsum_ext. intros j Hj. rewrite nth_map_seq by auto. now rewrite smul_add_r.
Qed.

Lemma add_loop N (h hf : list (PG1 P)) : length h = N -> length hf = N ->
  for_range 0 N (fun j (h : list (PG1 P)) => let* a := idx h j in let* b := idx hf j in upd h j (gadd a b)) h
  = Ok (map (fun u => gadd (nth u h g0) (nth u hf g0)) (seq 0 N)).
Proof.
  intros L L'.
  match goal with |- for_range 0 N ?bd ?s0 = _ =>
    destruct (for_range_inv (fun t (e : list (PG1 P)) => length e = N /\ forall u, (u < N)%nat ->
       nth u e g0 = if (u <? t)%nat then gadd (nth u h g0) (nth u hf g0) else nth u h g0) bd 0%nat N s0) as (e & E & Le & I) end.
  - lia.
  - split; auto.
  - intros j e Hj (Le & I). rewrite (idx_ok e j g0) by lia. cbn [bind]. rewrite (idx_ok hf j g0) by lia. cbn [bind].
    rewrite upd_ok by lia. eexists. split; [reflexivity|]. split; [now rewrite set_length|]. intros u Hu.
    destruct (Nat.eq_dec u j) as [->|Nu].
    + rewrite nth_set_same by lia. rewrite I by lia. destruct (Nat.ltb_spec j j); [lia|]. destruct (Nat.ltb_spec j (S j)); [reflexivity|lia].
    + rewrite nth_set_other by lia. rewrite I by lia. destruct (Nat.ltb_spec u j), (Nat.ltb_spec u (S j)); auto; lia.
  - rewrite E. f_equal. apply (nth_ext' g0); [now rewrite length_map_seq|]. intros u Hu. rewrite nth_map_seq by lia.
    rewrite I by lia. destruct (Nat.ltb_spec u N); [reflexivity|lia].
Qed.

(** the vectors of setup elements *)
Definition xvec (s : K) (kk l off : nat) : list (PG1 P) :=
  map (fun j => if (j <? kk - 1)%nat then smul (s ^ ((kk - 1 - j) * l - 1 - off)) gen1 else g0) (seq 0 kk).

Lemma xvec_snoc s kk l off : (0 < kk)%nat ->
  xvec s kk l off = map (fun i => smul (s ^ ((kk - 1 - i) * l - 1 - off)) (gen1 : PG1 P)) (seq 0 (kk - 1)) ++ [g0].
Proof.
  intros H. destruct kk as [|n]; [lia|]. unfold xvec. cbn [Nat.sub]. rewrite Nat.sub_0_r. rewrite seq_S, map_app. cbn [map Nat.add].
  f_equal.
  - apply map_ext_seq. intros i Hi. destruct (Nat.ltb_spec i n); [reflexivity|lia].
  - destruct (Nat.ltb_spec n n); [lia|reflexivity].
Qed.

Lemma xvec_ext_nth s kk l off j : nth j (xvec s kk l off ++ repeat g0 kk) g0
  = if (j <? kk - 1)%nat then smul (s ^ ((kk - 1 - j) * l - 1 - off)) gen1 else g0.
Proof.
  destruct (Nat.lt_ge_cases j kk) as [L|L].
  - rewrite app_nth1 by (unfold xvec; rewrite length_map_seq; lia). unfold xvec. now rewrite nth_map_seq.
  - rewrite app_nth2 by (unfold xvec; rewrite length_map_seq; lia). rewrite nth_repeat_same.
    destruct (Nat.ltb_spec j (kk - 1)); [lia|reflexivity].
Qed.

(** one entry of the summed Toeplitz products *)
Lemma toeplitz_entry (s : K) (p : list K) kk l i : (0 < l)%nat -> (i < kk)%nat -> length p = (kk * l)%nat ->
  gsum l (fun off => nth i (cyc (kk * 2) (map (tcoef p kk l off) (seq 0 (kk * 2))) (xvec s kk l off ++ repeat g0 kk)) g0)
  = smul (peval (skipn ((i + 1) * l) p) s) (gen1 : PG1 P).
Proof.
  intros Hl Hi L.
  transitivity (gsum l (fun off => smul (sum (kk - 1 - i) (fun u => coef p ((u + i + 2) * l - 1 - off) * s ^ ((u + 1) * l - 1 - off))) (gen1 : PG1 P))).
  - apply gsum_ext. intros off Ho. unfold cyc. rewrite nth_map_seq by lia.
    rewrite (gsum_extend (kk - 1) (kk * 2)); [|lia|].
    2: { intros j Hj. rewrite xvec_ext_nth. destruct (Nat.ltb_spec j (kk - 1)); [lia|]. apply smul_0_r. }
    transitivity (gsum (kk - 1) (fun j => if (j <? i)%nat then (g0 : PG1 P) else smul (coef p ((kk - (j - i)) * l - 1 - off) * s ^ ((kk - 1 - j) * l - 1 - off)) gen1)).
    { apply gsum_ext. intros j Hj. rewrite xvec_ext_nth. destruct (Nat.ltb_spec j (kk - 1)); [|lia].
      rewrite tcoef_entry by lia. destruct (Nat.ltb_spec j i).
      - destruct (Nat.eqb_spec i j); [lia|]. destruct (Nat.ltb_spec i j); [lia|]. apply smul_0_l.
      - destruct (Nat.eqb_spec i j), (Nat.ltb_spec i j), (Nat.ltb_spec j (i + (kk - 1))); try lia; cbn [orb andb]; apply smul_smul. }
    destruct (Nat.eq_dec i (kk - 1)) as [Ei|Ni].
    { replace (kk - 1 - i)%nat with 0%nat by lia. cbn [sum]. rewrite smul_0_l. apply gsum_0. intros j Hj.
      destruct (Nat.ltb_spec j i); [reflexivity|lia]. }
    replace (kk - 1)%nat with (i + (kk - 1 - i))%nat at 1 by lia. rewrite gsum_split.
    rewrite (gsum_0 i) by (intros j Hj; destruct (Nat.ltb_spec j i); [reflexivity|lia]). rewrite gadd_0_l.
    rewrite <- gsum_scal, gsum_rev. apply gsum_ext. intros u Hu. destruct (Nat.ltb_spec (i + (kk - 1 - i - 1 - u)) i); [lia|].
    f_equal. f_equal.
    + f_equal. do 3 f_equal. lia.
    + f_equal. do 3 f_equal. lia.
  - rewrite gsum_scal. f_equal. rewrite sum_swap.
    rewrite (sum_ext (kk - 1 - i) _ (fun u => sum l (fun v => coef p ((i + 1) * l + (u * l + v)) * s ^ (u * l + v)))).
    2: { intros u Hu. rewrite sum_rev. apply sum_ext. intros v Hv. f_equal; f_equal; nia. }
    rewrite <- (sum_blocks (kk - 1 - i) l (fun e => coef p ((i + 1) * l + e) * s ^ e)).
    rewrite peval_sum, skipn_length, L. replace (kk * l - (i + 1) * l)%nat with ((kk - 1 - i) * l)%nat by nia.
    apply sum_ext. intros e He. now rewrite coef_skipn.
Qed.

(** ** the quotient by z^l - y *)
Lemma quotient_value (p q : list K) kk l (y s : K) : (0 < l)%nat -> length p = (kk * l)%nat -> euclid p (binomial l y) q ->
  peval q s = sum kk (fun i => y ^ i * peval (skipn ((i + 1) * l) p) s).
Proof.
  intros Hl L Hq.
  set (q' := map (fun e => sum kk (fun i => y ^ i * coef p ((i + 1) * l + e))) (seq 0 (length p - l))).
  assert (Cq : forall e, coef q' e = sum kk (fun i => y ^ i * coef p ((i + 1) * l + e))).
  { intros e. unfold q'. rewrite coef_map_seq. destruct (Nat.ltb_spec e (length p - l)); [reflexivity|].
    symmetry. apply sum_0. intros i Hi. rewrite coef_over by nia. ring. }
  assert (CB : forall i, coef (binomial l y) i = if (i =? 0)%nat then - y else if (i =? l)%nat then 1 else 0).
  { intros i. unfold binomial. rewrite !coef_app, repeat_length. cbn [length]. destruct (Nat.eqb_spec i 0) as [->|N].
    - reflexivity.
    - destruct (Nat.ltb_spec i 1); [lia|]. destruct (Nat.eqb_spec i l) as [->|N'].
      + destruct (Nat.ltb_spec (l - 1) (l - 1)); [lia|]. now rewrite Nat.sub_diag.
      + destruct (Nat.ltb_spec (i - 1) (l - 1)); [now rewrite coef_repeat0|]. apply coef_over. cbn [length]. lia. }
  assert (E' : euclid p (binomial l y) q').
  { split; [unfold q'; rewrite length_map_seq, binomial_length by auto; lia|].
    exists (map (fun t => sum kk (fun i => y ^ i * coef p (i * l + t))) (seq 0 l)).
    rewrite length_map_seq, binomial_length by auto. split; [lia|]. intros t. rewrite coef_map_seq.
    assert (Y : forall t, sum kk (fun i => y ^ i * coef p (i * l + t)) - y * coef q' t = coef p t).
    { clear t. intros t. rewrite Cq, <- sum_mul_l.
      destruct kk as [|k']; [cbn [sum]; rewrite coef_over by lia; ring|].
      rewrite sum_S_l. cbn [sum]. rewrite (sum_ext k' (fun i => y ^ S i * coef p (S i * l + t)) (fun i => y * (y ^ i * coef p ((i + 1) * l + t)))).
      - rewrite (coef_over p ((k' + 1) * l + t)) by nia. cbn [fpow Nat.mul Nat.add]. ring.
      - intros i Hi. replace (S i * l)%nat with ((i + 1) * l)%nat by lia. cbn [fpow]. ring. }
    rewrite convol_comm. unfold convol.
    destruct (Nat.ltb_spec t l) as [Lt|Lt].
    - rewrite (sum_single _ 0).
      + rewrite CB. cbn [Nat.eqb]. rewrite Nat.sub_0_r. rewrite <- (Y t). ring.
      + lia.
      + intros j Hj Nj. rewrite CB. destruct (Nat.eqb_spec j 0); [lia|]. destruct (Nat.eqb_spec j l); [lia|]. ring.
    - rewrite sum_S_l, CB. cbn [Nat.eqb]. rewrite Nat.sub_0_r. rewrite (sum_single _ (l - 1)).
      + replace (S (l - 1)) with l by lia. rewrite CB, Nat.eqb_refl. destruct (Nat.eqb_spec l 0); [lia|].
        rewrite (Cq (t - l)%nat). rewrite <- (Y t).
        rewrite (sum_ext kk (fun i => y ^ i * coef p ((i + 1) * l + (t - l))) (fun i => y ^ i * coef p (i * l + t))); [ring|].
        intros i Hi. f_equal. f_equal. lia.
      + lia.
      + intros j Hj Nj. rewrite CB. destruct (Nat.eqb_spec (S j) 0); [lia|]. destruct (Nat.eqb_spec (S j) l); [lia|]. ring. }
  assert (Eq : q = q').
  { apply (euclid_fun p (binomial l y)); auto.
    - intros EE. apply (f_equal (@length K)) in EE. rewrite binomial_length in EE by auto. discriminate.
    - rewrite binomial_length by auto. replace (S l - 1)%nat with l by lia. rewrite binomial_monic by auto. apply f1_neq_0. }
  rewrite Eq, (peval_sum_n q' s (length p)) by (unfold q'; rewrite length_map_seq; lia).
  rewrite (sum_ext (length p) _ (fun e => sum kk (fun i => y ^ i * (coef p ((i + 1) * l + e) * s ^ e)))).
  2: { intros e He. rewrite Cq, <- sum_mul_r. apply sum_ext. intros i Hi. ring. }
  rewrite sum_swap. apply sum_ext. intros i Hi. rewrite sum_mul_l. f_equal.
  rewrite (peval_sum_n (skipn ((i + 1) * l) p) s (length p)) by (rewrite skipn_length; lia).
  apply sum_ext. intros e He. now rewrite coef_skipn.
Qed.

Variable table : list K.
Hypothesis HT : table_ok table.
Hypothesis HT0 : (0 < length table)%nat.

Lemma kzg_clone_ok ks : kzg_clone table ks = Ok ks.
Proof. unfold kzg_clone. rewrite fft_settings_clone_ok by auto. cbn [bind]. now destruct ks. Qed.

Section Fixed.
Variables (ks : kzg_settings P) (s : K) (len k : nat) (w : K).
Hypothesis HS : setup_powers ks s len.
Hypothesis HF : settings_ok (kzg_fs ks) k w.
Lemma sg1_nth i : (i < len)%nat -> idx (secret_g1 ks) i = Ok (smul (s ^ i) gen1).
Proof. intros H. destruct HS as (S1 & _). rewrite S1. rewrite (idx_ok _ i g0) by (rewrite length_map_seq; auto). now rewrite nth_map_seq. Qed.

Lemma width : max_width (kzg_fs ks) = (2 ^ k)%nat.
Proof. apply HF. Qed.

Let W m := w ^ (2 ^ (k - m)).

Lemma single_new_gen m : (S m <= k)%nat -> (2 ^ m <= S len)%nat ->
  fk20_single_new table ks (2 ^ S m) = Ok (mkFKS ks (dft (W (S m)) (2 ^ S m) (xvec s (2 ^ m) 1 0 ++ repeat g0 (2 ^ m)))).
Proof.
  intros Hm HL. unfold fk20_single_new. rewrite width. assert (P2 := pow2_pos m).
  assert (2 ^ S m <= 2 ^ k)%nat by (apply Nat.pow_le_mono_r; lia).
  assert (E2 : (2 ^ S m = 2 ^ m * 2)%nat) by (simpl; lia).
  destruct (Nat.ltb_spec (2 ^ k) (2 ^ S m)); [lia|]. rewrite is_pow2_pow. cbn [negb].
  destruct (Nat.ltb_spec (2 ^ S m) 2); [lia|].
  assert (D : (2 ^ S m / 2 = 2 ^ m)%nat) by (rewrite E2; now apply Nat.div_mul). rewrite D.
  rewrite usub_ok by lia. cbn [bind].
  rewrite (push_loop _ (fun i => smul (s ^ (2 ^ m - 2 - i)) gen1)).
  2: { intros i l Hi. rewrite usub_ok by lia. cbn [bind]. rewrite usub_ok by lia. cbn [bind]. now rewrite sg1_nth by lia. }
  cbn [bind].
  assert (X : map (fun i => smul (s ^ (2 ^ m - 2 - i)) (gen1 : PG1 P)) (seq 0 (2 ^ m - 1)) ++ [g0] = xvec s (2 ^ m) 1 0).
  { rewrite xvec_snoc by auto. f_equal. apply map_ext_seq. intros i Hi. f_equal. f_equal. lia. }
  rewrite X. rewrite (part1_spec (kzg_fs ks) k w HF m) by (auto; unfold xvec; apply length_map_seq). cbn [bind].
  rewrite kzg_clone_ok. reflexivity.
Qed.

Lemma multi_new_gen m a : (S m <= k)%nat -> (a <= m)%nat -> (2 ^ m <= 2 ^ a + len)%nat ->
  fk20_multi_new table ks (2 ^ S m) (2 ^ a) = Ok (mkFKM ks (2 ^ a) (map (fun off =>
     dft (W (S (m - a))) (2 ^ S (m - a)) (xvec s (2 ^ (m - a)) (2 ^ a) off ++ repeat g0 (2 ^ (m - a)))) (seq 0 (2 ^ a)))).
Proof.
  intros Hm Ha HL. unfold fk20_multi_new. rewrite width. assert (P2 := pow2_pos m). assert (Pa := pow2_pos a). assert (Pk := pow2_pos (m - a)).
  assert (2 ^ S m <= 2 ^ k)%nat by (apply Nat.pow_le_mono_r; lia).
  assert (E2 : (2 ^ S m = 2 ^ m * 2)%nat) by (simpl; lia).
  assert (EM : (2 ^ m = 2 ^ (m - a) * 2 ^ a)%nat) by (rewrite <- Nat.pow_add_r; f_equal; lia).
  destruct (Nat.ltb_spec (2 ^ k) (2 ^ S m)); [lia|]. rewrite is_pow2_pow. cbn [negb].
  destruct (Nat.ltb_spec (2 ^ S m) 2); [lia|].
  assert (D : (2 ^ S m / 2 = 2 ^ m)%nat) by (rewrite E2; now apply Nat.div_mul). rewrite D.
  destruct (Nat.ltb_spec (2 ^ m) (2 ^ a)); [nia|]. rewrite is_pow2_pow. cbn [negb].
  assert (Dk : (2 ^ m / 2 ^ a = 2 ^ (m - a))%nat) by (rewrite EM; apply Nat.div_mul; lia). rewrite Dk.
  set (kk := (2 ^ (m - a))%nat) in *. set (l := (2 ^ a)%nat) in *.
  rewrite (push_loop _ (fun off => dft (W (S (m - a))) (2 ^ S (m - a)) (xvec s kk l off ++ repeat g0 kk))).
  { cbn [bind]. rewrite kzg_clone_ok. reflexivity. }
  intros off fl Ho.
  match goal with |- context [while_ ?fu ?cond ?bd ?s0] =>
    destruct (while_inv (fun st : nat * nat * list (PG1 P) => let '(i, j, x) := st in
       (i <= kk - 1)%nat /\ ((i < kk - 1)%nat -> j = ((kk - 1 - i) * l - 1 - off)%nat) /\ x = map (fun i => smul (s ^ ((kk - 1 - i) * l - 1 - off)) gen1) (seq 0 i))
       (fun st => let '(i, _, _) := st in (kk - i)%nat) cond bd fu s0) as (((i & j) & x) & E & I & C) end.
  - split; [lia|]. split; [|reflexivity]. intros Hk. rewrite Nat.sub_0_r.
    assert (2 * l <= kk * l)%nat by nia. destruct (Nat.leb_spec (l + 1 + off) (2 ^ m)); [|lia]. rewrite EM. nia.
  - lia.
  - intros ((i & j) & x) (I1 & I2 & ->) C. apply Nat.ltb_lt in C. specialize (I2 ltac:(lia)).
    rewrite sg1_nth by nia. cbn [bind]. eexists. split; [reflexivity|]. split; [|lia]. split; [lia|]. split.
    + intros Hi. replace (kk - 1 - i)%nat with (S (kk - 1 - (i + 1))) in I2 by lia. cbn [Nat.mul] in I2.
      assert (l <= (kk - 1 - (i + 1)) * l)%nat by (replace (kk - 1 - (i + 1))%nat with (S (kk - 1 - (i + 2))) by lia; cbn [Nat.mul]; apply Nat.le_add_r).
      destruct (Nat.leb_spec l j); lia.
    + replace (i + 1)%nat with (S i) by lia. rewrite seq_S, map_app. cbn [map Nat.add]. now rewrite I2.
  - rewrite E. cbn [bind]. destruct I as (I1 & _ & ->). apply Nat.ltb_ge in C. replace i with (kk - 1)%nat by lia.
    assert (X : map (fun i => smul (s ^ ((kk - 1 - i) * l - 1 - off)) (gen1 : PG1 P)) (seq 0 (kk - 1)) ++ [g0] = xvec s kk l off).
    { now rewrite xvec_snoc by auto. }
    rewrite X. rewrite (part1_spec (kzg_fs ks) k w HF (m - a)) by (try lia; unfold xvec; apply length_map_seq). reflexivity.
Qed.

(** the final transform *)
Lemma final_fft m (p : list K) l : (S m <= k)%nat -> (0 < l)%nat -> length p = (2 ^ m * l)%nat ->
  fft_g1 (kzg_fs ks) (map (fun i => smul (peval (skipn ((i + 1) * l) p) s) (gen1 : PG1 P)) (seq 0 (2 ^ m)) ++ repeat g0 (2 ^ m)) false
  = Ok (map (fun i => smul (sum (2 ^ m) (fun j => (W (S m) ^ i) ^ j * peval (skipn ((j + 1) * l) p) s)) gen1) (seq 0 (2 ^ S m))).
Proof.
  intros Hm Hl L. rewrite (fft_g1_spec (kzg_fs ks) k w (S m)) by (auto; rewrite app_length, length_map_seq, repeat_length; simpl; lia).
  f_equal. unfold dft. apply map_ext_seq. intros i Hi. rewrite (gsum_extend (2 ^ m) (2 ^ S m)); [|simpl; lia|].
  - rewrite <- gsum_scal. apply gsum_ext. intros j Hj. rewrite app_nth1 by (rewrite length_map_seq; auto). rewrite nth_map_seq by auto.
    rewrite smul_smul. f_equal. f_equal. apply fpow_mul.
  - intros j Hj. rewrite app_nth2 by (rewrite length_map_seq; lia). rewrite nth_repeat_same. apply smul_0_r.
Qed.

Lemma multi_da_opt_gen m a (p : list K) : (S m <= k)%nat -> (a <= m)%nat -> length p = (2 ^ m)%nat ->
  fk20_multi_da_opt (mkFKM ks (2 ^ a) (map (fun off =>
     dft (W (S (m - a))) (2 ^ S (m - a)) (xvec s (2 ^ (m - a)) (2 ^ a) off ++ repeat g0 (2 ^ (m - a)))) (seq 0 (2 ^ a)))) p
  = Ok (map (fun i => smul (sum (2 ^ (m - a)) (fun j => (W (S (m - a)) ^ i) ^ j * peval (skipn ((j + 1) * 2 ^ a) p) s)) gen1) (seq 0 (2 ^ S (m - a)))).
Proof.
  intros Hm Ha L. unfold fk20_multi_da_opt. cbn [fkm_kzg fkm_chunk_len fkm_files]. rewrite width, L.
  assert (P2 := pow2_pos m). assert (Pa := pow2_pos a). assert (Pk := pow2_pos (m - a)).
  assert (2 ^ S m <= 2 ^ k)%nat by (apply Nat.pow_le_mono_r; lia).
  assert (E2 : (2 ^ m * 2 = 2 ^ S m)%nat) by (simpl; lia).
  assert (Ek : (2 ^ (m - a) * 2 = 2 ^ S (m - a))%nat) by (simpl; lia).
  assert (EM : (2 ^ m = 2 ^ (m - a) * 2 ^ a)%nat) by (rewrite <- Nat.pow_add_r; f_equal; lia).
  rewrite E2. destruct (Nat.ltb_spec (2 ^ k) (2 ^ S m)); [lia|]. rewrite is_pow2_pow. cbn [negb].
  destruct (Nat.eqb_spec (2 ^ a) 0); [lia|]. cbn [bind].
  assert (D : (2 ^ S m / 2 = 2 ^ m)%nat) by (rewrite <- E2; now apply Nat.div_mul). rewrite D.
  assert (Dk : (2 ^ m / 2 ^ a = 2 ^ (m - a))%nat) by (rewrite EM; apply Nat.div_mul; lia). rewrite Dk.
  set (kk := (2 ^ (m - a))%nat) in *. set (l := (2 ^ a)%nat) in *. set (N := (2 ^ S (m - a))%nat) in *.
  set (cv := fun off => cyc N (map (tcoef p kk l off) (seq 0 N)) (xvec s kk l off ++ repeat g0 kk)).
  match goal with |- context [for_range 0 l ?bd ?s0] =>
    destruct (for_range_inv (fun t (h : list (PG1 P)) => h = dft (W (S (m - a))) N (map (fun u => gsum t (fun off => nth u (cv off) g0)) (seq 0 N))) bd 0%nat l s0) as (h & E & ->) end.
  - lia.
  - rewrite Ek. unfold dft. apply (nth_ext' g0); [now rewrite length_map_seq, repeat_length|].
    intros i Hi. rewrite repeat_length in Hi. rewrite nth_map_seq by auto. rewrite nth_repeat_same. symmetry. apply gsum_0.
    intros j Hj. rewrite nth_map_seq by auto. cbn [gsum]. apply smul_0_r.
  - intros off h Ho ->. rewrite (stride_spec p kk l off) by lia. cbn [bind].
    rewrite (idx_ok _ off []) by (rewrite length_map_seq; lia). cbn [bind]. rewrite nth_map_seq by lia. rewrite Ek.
    unfold W. fold N. unfold N at 1. rewrite (part2_spec (kzg_fs ks) k w HF (S (m - a))).
    + cbn [bind]. fold N. rewrite add_loop by apply dft_length. eexists. split; [reflexivity|]. fold (W (S (m - a))).
      rewrite dft_add. f_equal. apply map_ext_seq. intros u Hu. rewrite nth_map_seq by auto. cbn [gsum]. reflexivity.
    + lia.
    + apply length_map_seq.
    + unfold xvec. rewrite app_length, length_map_seq, repeat_length. fold N. lia.
  - rewrite E. cbn [bind]. unfold W, N. rewrite (part3_spec (kzg_fs ks) k w HF (m - a)) by (try lia; apply length_map_seq).
    cbn [bind]. fold kk N.
    assert (F : firstn kk (map (fun u => gsum l (fun off => nth u (cv off) g0)) (seq 0 N))
       = map (fun i => smul (peval (skipn ((i + 1) * l) p) s) (gen1 : PG1 P)) (seq 0 kk)).
    { apply (nth_ext' g0); [rewrite firstn_length, !length_map_seq; lia|]. intros i Hi. rewrite firstn_length, length_map_seq in Hi.
      rewrite nth_firstn', !nth_map_seq by lia. unfold cv. rewrite <- Ek. apply toeplitz_entry; lia. }
    rewrite F. unfold clear_range. rewrite app_length, length_map_seq, repeat_length.
    destruct (Nat.leb_spec kk N); [|lia]. destruct (Nat.leb_spec (kk * 2) (kk + kk)); [|lia]. destruct (Nat.leb_spec kk (kk * 2)); [|lia]. cbn [andb bind].
    rewrite skipn_all2 by (rewrite app_length, length_map_seq, repeat_length; lia). rewrite app_nil_r.
    rewrite firstn_app, length_map_seq, Nat.sub_diag, firstn_O, app_nil_r, firstn_all2 by (rewrite length_map_seq; lia).
    replace (kk * 2 - kk)%nat with kk by lia. unfold kk at 1 2. rewrite final_fft by (fold kk; lia). reflexivity.
Qed.

Lemma single_da_opt_gen m (p : list K) : (S m <= k)%nat -> length p = (2 ^ m)%nat ->
  fk20_single_da_opt (mkFKS ks (dft (W (S m)) (2 ^ S m) (xvec s (2 ^ m) 1 0 ++ repeat g0 (2 ^ m)))) p
  = Ok (map (fun i => smul (sum (2 ^ m) (fun j => (W (S m) ^ i) ^ j * peval (skipn ((j + 1) * 1) p) s)) gen1) (seq 0 (2 ^ S m))).
Proof.
  intros Hm L. unfold fk20_single_da_opt. cbn [fks_kzg fks_x_ext_fft]. rewrite width, L.
  assert (P2 := pow2_pos m). assert (2 ^ S m <= 2 ^ k)%nat by (apply Nat.pow_le_mono_r; lia).
  assert (E2 : (2 ^ m * 2 = 2 ^ S m)%nat) by (simpl; lia). rewrite E2.
  destruct (Nat.ltb_spec (2 ^ k) (2 ^ S m)); [lia|]. rewrite is_pow2_pow. cbn [negb].
  unfold toeplitz_coeffs_step. rewrite (stride_spec p (2 ^ m) 1 0) by lia. cbn [bind]. rewrite E2.
  unfold W. rewrite (part2_spec (kzg_fs ks) k w HF (S m)).
  - cbn [bind]. rewrite (part3_spec (kzg_fs ks) k w HF m) by (auto; apply length_map_seq). cbn [bind].
    assert (F : firstn (2 ^ m) (cyc (2 ^ S m) (map (tcoef p (2 ^ m) 1 0) (seq 0 (2 ^ S m))) (xvec s (2 ^ m) 1 0 ++ repeat g0 (2 ^ m)))
       = map (fun i => smul (peval (skipn ((i + 1) * 1) p) s) (gen1 : PG1 P)) (seq 0 (2 ^ m))).
    { apply (nth_ext' g0); [unfold cyc; rewrite firstn_length, !length_map_seq; lia|]. intros i Hi.
      unfold cyc in Hi. rewrite firstn_length, length_map_seq in Hi.
      rewrite nth_firstn', nth_map_seq by lia. rewrite <- E2. rewrite <- (toeplitz_entry s p (2 ^ m) 1 i) by lia.
      cbn [gsum]. now rewrite gadd_0_l. }
    rewrite F. rewrite final_fft by lia. reflexivity.
  - lia.
  - apply length_map_seq.
  - unfold xvec. rewrite app_length, length_map_seq, repeat_length. lia.
Qed.

(** settings whose setup covers the whole width *)
Hypothesis HL : (2 ^ k <= len)%nat.

Lemma half_width m : (S m <= k)%nat -> (2 ^ m <= S len)%nat.
Proof. intros Hm. assert (2 ^ m <= 2 ^ k)%nat by (apply Nat.pow_le_mono_r; lia). lia. Qed.

Lemma single_new_ok m : (S m <= k)%nat ->
  fk20_single_new table ks (2 ^ S m) = Ok (mkFKS ks (dft (W (S m)) (2 ^ S m) (xvec s (2 ^ m) 1 0 ++ repeat g0 (2 ^ m)))).
Proof. intros Hm. apply single_new_gen; auto using half_width. Qed.

Lemma multi_new_ok m a : (S m <= k)%nat -> (a <= m)%nat ->
  fk20_multi_new table ks (2 ^ S m) (2 ^ a) = Ok (mkFKM ks (2 ^ a) (map (fun off =>
     dft (W (S (m - a))) (2 ^ S (m - a)) (xvec s (2 ^ (m - a)) (2 ^ a) off ++ repeat g0 (2 ^ (m - a)))) (seq 0 (2 ^ a)))).
Proof. intros Hm Ha. apply multi_new_gen; auto. assert (A := half_width m Hm). assert (B := pow2_pos a). lia. Qed.
End Fixed.
End Batch.
