(** * Proof_FFT: lemmas about [Model_FFT] *)
From Coq Require Import List Arith Lia Bool Field NArith.
From Verif Require Import Base Fld Poly Model_Utils Proof_Utils Model_FFT Spec.
Import ListNotations.

Section Proofs.
Context {K : fld}.
Local Open Scope fld_scope.
Add Field KfF : (fld_field K).

(** *** the root table *)
Lemma expand_inv_last (w : K) m : last (map (fpow w) (seq 0 (S m))) f0 = w ^ m.
Proof.
  rewrite seq_S, map_app. simpl map. apply last_last.
Qed.

Lemma expand_snoc (w : K) m :
  map (fpow w) (seq 0 (S m)) ++ [w ^ m * w] = map (fpow w) (seq 0 (S (S m))).
Proof.
  rewrite (seq_S (S m)), map_app. simpl map. f_equal. f_equal. simpl. ring.
Qed.

Lemma expand_loop (w : K) width fuel : forall m,
  (1 <= m)%nat -> (m <= S width)%nat -> (width + 2 < fuel + m)%nat ->
  match while_ fuel (fun l => negb (feqb (last l f0) f1))
    (fun l => if (width <? length l)%nat then Err else Ok (l ++ [fmul (last l f0) w]))
    (map (fpow w) (seq 0 (S m))) with
  | Ok l => exists n, (m <= n)%nat /\ (n = m \/ n <= width)%nat /\
       w ^ n = 1 /\ (forall i, (m <= i < n)%nat -> w ^ i <> 1) /\ l = map (fpow w) (seq 0 (S n))
  | Err => forall i, (m <= i <= width)%nat \/ i = m -> w ^ i <> 1
  | _ => False
  end.
Proof.
  induction fuel; intros m H1 H2 H3; [lia|].
  cbn [while_]. rewrite expand_inv_last.
  destruct (feqb (w ^ m) 1) eqn:E; cbn [negb].
  - apply feqb_spec in E. exists m. repeat split; auto. intros; lia.
  - apply feqb_false in E. rewrite length_map_seq.
    destruct (Nat.ltb_spec width (S m)).
    + cbn [bind]. intros i [Hi| ->]; auto. replace i with m by lia. auto.
    + cbn [bind]. rewrite expand_snoc.
      specialize (IHfuel (S m)). destruct (while_ _ _ _ _) eqn:W.
      * destruct IHfuel as (n & A & B & C & D & F); try lia.
        exists n. split; [lia|]. split; [lia|]. split; auto. split; auto.
        intros i Hi. destruct (Nat.eq_dec i m) as [->|]; auto. apply D. lia.
      * intros i Hi. destruct (Nat.eq_dec i m) as [->|]; auto. apply IHfuel; lia.
      * apply IHfuel; lia.
      * apply IHfuel; lia.
Qed.

(** complete description of [expand_root_of_unity] for every root and width *)
Theorem expand_root_of_unity_spec (w : K) width :
  match expand_root_of_unity w width with
  | Ok l => exists n, (1 <= n)%nat /\ (n = 1 \/ n <= width)%nat /\ primitive w n /\
              l = map (fpow w) (seq 0 (S n))
  | Err => forall i, (1 <= i <= width)%nat -> w ^ i <> 1
  | _ => False
  end.
Proof.
  unfold expand_root_of_unity.
  assert (E : [f1; w] = map (fpow w) (seq 0 2)).
  { simpl. f_equal. f_equal. ring. }
  rewrite E. assert (L := expand_loop w width (width + 2) 1).
  destruct (while_ _ _ _ _).
  - destruct L as (n & A & B & C & D & F); try lia. exists n. split; auto. split; auto.
    split; auto. split; auto. 
  - intros i Hi. apply L; lia.
  - apply L; lia.
  - apply L; lia.
Qed.

Lemma primitive_unique (w : K) n m : (0 < n)%nat -> (0 < m)%nat -> primitive w n -> primitive w m -> n = m.
Proof.
  intros Hn Hm [A B] [C D].
  destruct (Nat.lt_trichotomy n m) as [H|[H|H]]; auto; exfalso.
  - apply (D n); auto.
  - apply (B m); auto.
Qed.

Lemma expand_root_of_unity_ok (w : K) n :
  (0 < n)%nat -> primitive w n -> expand_root_of_unity w n = Ok (map (fpow w) (seq 0 (S n))).
Proof.
  intros Hn Hw. assert (S := expand_root_of_unity_spec w n).
  destruct (expand_root_of_unity w n) as [l| | |]; try contradiction.
  - destruct S as (m & A & _ & B & ->). now rewrite (primitive_unique w m n).
  - exfalso. apply (S n); [lia|]. apply Hw.
Qed.

Lemma pow2_pos k : (0 < 2 ^ k)%nat.
Proof. apply Nat.neq_0_lt_0, Nat.pow_nonzero. lia. Qed.

Lemma rev_map_seq {A} (f : nat -> A) n : rev (map f (seq 0 (S n))) = map (fun i => f (n - i)%nat) (seq 0 (S n)).
Proof.
  apply (nth_ext' (f O)).
  - rewrite rev_length, !length_map_seq. auto.
  - rewrite rev_length, length_map_seq. intros i Hi.
    rewrite rev_nth by (rewrite length_map_seq; auto).
    rewrite length_map_seq, !nth_map_seq by lia. reflexivity.
Qed.

Theorem fft_settings_new_ok (table : list K) k :
  table_ok table -> (k < length table)%nat ->
  exists s, fft_settings_new table k = Ok s /\ settings_ok s k (nth k table f0).
Proof.
  intros HT Hk. unfold fft_settings_new.
  destruct (Nat.leb_spec (length table) k); [lia|].
  rewrite (idx_ok table k f0) by auto. cbn [bind].
  rewrite expand_root_of_unity_ok; auto using pow2_pos. cbn [unwrap bind].
  eexists. split; [reflexivity|]. unfold settings_ok. cbn [max_width expanded_roots reverse_roots root_of_unity].
  repeat split; try apply (HT k Hk). apply rev_map_seq.
Qed.

Theorem fft_settings_new_err (table : list K) k :
  (length table <= k)%nat -> fft_settings_new table k = Err.
Proof. intros H. unfold fft_settings_new. apply Nat.leb_le in H. now rewrite H. Qed.

Lemma fft_settings_clone_ok (table : list K) s :
  table_ok table -> (0 < length table)%nat -> fft_settings_clone table s = Ok s.
Proof.
  intros HT Hl. unfold fft_settings_clone.
  destruct (fft_settings_new_ok table 0 HT Hl) as (o & -> & _). cbn. now destruct s.
Qed.

(** *** the butterfly loop *)
Section GFFT.
Context {M : gmod K}.

Lemma butterfly (ret : list M) roots rs half (w : K) :
  length ret = (2 * half)%nat ->
  (forall i, (i < half)%nat -> idx roots (i * rs) = Ok (w ^ i)) ->
  exists ret',
    for_range 0 half (fun i ret =>
        let* y := idx ret (i + half)%nat in
        let* r := idx roots (i * rs)%nat in
        let y_times_root := smul r y in
        let* x := idx ret i in
        let* ret := upd ret (i + half)%nat (gsub x y_times_root) in
        let* x := idx ret i in
        upd ret i (gadd x y_times_root)) ret = Ok ret' /\
    length ret' = length ret /\
    forall i, (i < half)%nat ->
      nth i ret' g0 = gadd (nth i ret g0) (smul (w ^ i) (nth (i + half) ret g0)) /\
      nth (i + half) ret' g0 = gsub (nth i ret g0) (smul (w ^ i) (nth (i + half) ret g0)).
Proof.
  intros HL HR.
  destruct (for_range_inv (fun t r => length r = length ret /\
     forall p, (p < half)%nat ->
       (nth p r g0 = if (p <? t)%nat then gadd (nth p ret g0) (smul (w ^ p) (nth (p + half) ret g0)) else nth p ret g0) /\
       (nth (p + half) r g0 = if (p <? t)%nat then gsub (nth p ret g0) (smul (w ^ p) (nth (p + half) ret g0)) else nth (p + half) ret g0))
    (fun i ret =>
        let* y := idx ret (i + half)%nat in
        let* r := idx roots (i * rs)%nat in
        let y_times_root := smul r y in
        let* x := idx ret i in
        let* ret := upd ret (i + half)%nat (gsub x y_times_root) in
        let* x := idx ret i in
        upd ret i (gadd x y_times_root)) 0 half ret) as (r' & E & L & I).
  - lia.
  - split; auto.
  - intros t r Ht (Lr & Ir).
    rewrite (idx_ok r (t + half) g0) by lia. cbn [bind].
    rewrite HR by lia. cbn [bind].
    rewrite (idx_ok r t g0) by lia. cbn [bind].
    rewrite upd_ok by lia. cbn [bind].
    rewrite (idx_ok _ t g0) by (rewrite set_length; lia). cbn [bind].
    rewrite upd_ok by (rewrite set_length; lia).
    eexists. split; [reflexivity|]. split; [now rewrite !set_length|].
    intros p Hp. destruct (Ir p Hp) as [I1 I2]. destruct (Ir t) as [T1 T2]; [lia|].
    assert (TT : (t <? t)%nat = false) by (apply Nat.ltb_ge; lia).
    rewrite TT in T1, T2.
    destruct (Nat.eq_dec p t) as [->|N].
    + assert ((t <? S t)%nat = true) as -> by (apply Nat.ltb_lt; lia). split.
      * rewrite nth_set_same by (rewrite set_length; lia).
        rewrite nth_set_other by lia. now rewrite T1, T2.
      * rewrite nth_set_other by (try rewrite set_length; lia).
        rewrite nth_set_same by lia. now rewrite T1, T2.
    + replace (p <? S t)%nat with (p <? t)%nat by (apply eq_true_iff_eq; rewrite !Nat.ltb_lt; lia).
      rewrite !nth_set_other by (try rewrite set_length; lia). auto.
  - exists r'. split; [exact E|]. split; auto. intros i Hi.
    destruct (I i Hi) as [I1 I2]. apply Nat.ltb_lt in Hi. rewrite Hi in I1, I2. auto.
Qed.

(** *** the recursion *)
Lemma fft_g1_fast_spec k : forall fuel ret data stride roots rs (w : K),
  (k < fuel)%nat -> length ret = (2 ^ k)%nat ->
  ((2 ^ k - 1) * stride < length data)%nat ->
  (forall i, (2 * i < 2 ^ k)%nat -> idx roots (i * rs) = Ok (w ^ i)) ->
  ((0 < k)%nat -> w ^ (2 ^ (k - 1)) = - (1)) ->
  fft_g1_fast_ (M := M) fuel ret data stride roots rs =
  Ok (map (fun i => gsum (2 ^ k) (fun j => smul (w ^ (i * j)) (nth (j * stride) data g0))) (seq 0 (2 ^ k))).
Proof.
  induction k as [|k IH]; intros fuel ret data stride roots rs w Hf HL HD HR HW.
  - destruct fuel; [lia|]. cbn [fft_g1_fast_]. change (2 ^ 0)%nat with 1%nat in *.
    rewrite HL. change (1 / 2)%nat with 0%nat. change (0 <? 0)%nat with false. cbn iota.
    rewrite (idx_ok data 0 g0) by lia. cbn [bind]. rewrite upd_ok by lia.
    destruct ret as [|x [|]]; simpl in HL; try discriminate. simpl.
    rewrite smul_1. rewrite gadd_0_l. reflexivity.
  - destruct fuel; [lia|]. cbn [fft_g1_fast_].
    set (h := (2 ^ k)%nat) in *.
    assert (Eh : (2 ^ S k = 2 * h)%nat) by (unfold h; simpl; lia).
    assert (Hh : (0 < h)%nat) by apply pow2_pos.
    rewrite Eh in *. rewrite HL.
    replace (2 * h / 2)%nat with h by (rewrite Nat.mul_comm, Nat.div_mul; lia).
    assert ((0 <? h)%nat = true) as -> by (apply Nat.ltb_lt; lia). cbn iota.
    assert (HW2 : w ^ h = - (1)).
    { replace (S k - 1)%nat with k in HW by lia. apply HW. lia. }
    assert (HR' : forall i, (2 * i < h)%nat -> idx roots (i * (rs * 2)) = Ok ((w * w) ^ i)).
    { intros i Hi. replace (i * (rs * 2))%nat with ((2 * i) * rs)%nat by lia.
      rewrite HR by lia. rewrite fpow_mul, fpow_2. reflexivity. }
    assert (HW' : (0 < k)%nat -> (w * w) ^ (2 ^ (k - 1)) = - (1)).
    { intros Hk. rewrite <- fpow_2, <- fpow_mul.
      replace (2 * 2 ^ (k - 1))%nat with h; auto.
      unfold h. replace k with (S (k - 1)) at 1 by lia. reflexivity. }
    rewrite (IH fuel (firstn h ret) data (stride * 2)%nat roots (rs * 2)%nat (w * w)); auto; try lia.
    2:{ rewrite firstn_length. lia. }
    2:{ nia. }
    cbn [bind]. rewrite slice_from_ok by nia. cbn [bind].
    rewrite (IH fuel (skipn h ret) (skipn stride data) (stride * 2)%nat roots (rs * 2)%nat (w * w)); auto; try lia.
    2:{ rewrite skipn_length. lia. }
    2:{ rewrite skipn_length. nia. }
    cbn [bind].
    match goal with |- context [for_range _ _ _ (?lo ++ ?hi)] => set (lo0 := lo); set (hi0 := hi) end.
    assert (Llo : length lo0 = h) by apply length_map_seq.
    assert (Lhi : length hi0 = h) by apply length_map_seq.
    destruct (butterfly (lo0 ++ hi0) roots rs h w) as (r' & E & L' & I).
    { rewrite app_length. lia. }
    { intros i Hi. apply HR. lia. }
    transitivity (Ok r'); [exact E|]. f_equal. rewrite app_length in L'.
    assert (Hlo : forall i, (i < h)%nat -> nth i (lo0 ++ hi0) g0 =
         gsum h (fun j => smul (w ^ (i * (2 * j))) (nth (2 * j * stride) data g0))).
    { intros i Hi. rewrite app_nth1 by lia. unfold lo0. rewrite nth_map_seq by auto.
      apply gsum_ext. intros j Hj. f_equal.
      - rewrite <- fpow_2, <- fpow_mul. f_equal. lia.
      - f_equal. lia. }
    assert (Hhi : forall i, (i < h)%nat -> smul (w ^ i) (nth (i + h) (lo0 ++ hi0) g0) =
         gsum h (fun j => smul (w ^ (i * (2 * j + 1))) (nth ((2 * j + 1) * stride) data g0))).
    { intros i Hi. rewrite app_nth2 by lia. rewrite Llo, Nat.add_sub.
      unfold hi0. rewrite nth_map_seq by auto. rewrite <- gsum_smul.
      apply gsum_ext. intros j Hj. rewrite smul_smul. f_equal.
      - rewrite <- fpow_2, <- fpow_mul, <- fpow_add. f_equal. lia.
      - rewrite nth_skipn'. f_equal. lia. }
    apply (nth_ext' g0).
    + rewrite length_map_seq. lia.
    + intros p Hp.
      assert (Hp2 : (p < 2 * h)%nat) by lia.
      rewrite nth_map_seq by auto.
      rewrite gsum_even_odd.
      destruct (Nat.lt_ge_cases p h) as [Hlt|Hge].
      * rewrite (proj1 (I p Hlt)), Hlo, Hhi by auto. reflexivity.
      * destruct (I (p - h)%nat) as [_ I2]; [lia|].
        replace (p - h + h)%nat with p in I2 by lia.
        assert (Hhi' := Hhi (p - h)%nat ltac:(lia)).
        replace (p - h + h)%nat with p in Hhi' by lia.
        rewrite I2, Hlo, Hhi' by lia.
        unfold gsub. rewrite <- gsum_neg. f_equal.
        -- apply gsum_ext. intros j Hj. f_equal.
           replace (p * (2 * j))%nat with ((p - h) * (2 * j) + h * 2 * j)%nat by nia.
           rewrite fpow_add, (fpow_mul w (h * 2) j), (fpow_mul w h 2), HW2, fpow_2.
           replace (- (1) * - (1)) with (1 : K) by ring. rewrite fpow_1_l. ring.
        -- apply gsum_ext. intros j Hj. rewrite <- smul_neg_l. f_equal.
           replace (p * (2 * j + 1))%nat with ((p - h) * (2 * j + 1) + h + h * 2 * j)%nat by nia.
           rewrite !fpow_add, (fpow_mul w (h * 2) j), (fpow_mul w h 2), HW2, fpow_2.
           replace (- (1) * - (1)) with (1 : K) by ring. rewrite fpow_1_l. ring.
Qed.

Lemma pow2_div k m : (k <= m)%nat -> (2 ^ m / 2 ^ k = 2 ^ (m - k))%nat.
Proof.
  intros H. replace m with (m - k + k)%nat at 1 by lia.
  rewrite Nat.pow_add_r. apply Nat.div_mul. apply Nat.pow_nonzero. lia.
Qed.

Lemma pow2_le_inv k m : (2 ^ k <= 2 ^ m)%nat -> (k <= m)%nat.
Proof. intros H. apply (Nat.pow_le_mono_r_iff 2); auto; lia. Qed.

(** the root actually used for a transform of size [2^m] under settings of width [2^k] *)
Lemma fft_g1_fast_settings s k (w : K) m (data : list M) (inverse : bool) :
  settings_ok s k w -> (m <= k)%nat -> length data = (2 ^ m)%nat ->
  fft_g1_fast (repeat g0 (length data)) data 1
     (if inverse then reverse_roots s else expanded_roots s) (max_width s / length data) =
  Ok (dft (if inverse then finv w ^ (2 ^ (k - m)) else w ^ (2 ^ (k - m))) (2 ^ m) data).
Proof.
  intros (Hmw & Hw & _ & Hexp & Hrev) Hm HL. unfold fft_g1_fast, dft.
  rewrite repeat_length, HL, Hmw, pow2_div by auto.
  assert (P := pow2_pos m). assert (Pk := pow2_pos k). assert (Pkm := pow2_pos (k - m)).
  assert (Ek : (2 ^ k = 2 ^ m * 2 ^ (k - m))%nat) by (rewrite <- Nat.pow_add_r; f_equal; lia).
  assert (Nz : w <> 0) by (apply (primitive_neq_0 w (2 ^ k)); auto).
  rewrite (fft_g1_fast_spec m) with (w := if inverse then finv w ^ (2 ^ (k - m)) else w ^ (2 ^ (k - m))).
  - f_equal. apply map_ext_seq. intros i Hi. apply gsum_ext. intros j Hj.
    now rewrite Nat.mul_1_r.
  - assert (m < 2 ^ m)%nat by (apply Nat.pow_gt_lin_r; lia). lia.
  - apply repeat_length.
  - rewrite HL. lia.
  - intros i Hi.
    assert (Hlt : (i * 2 ^ (k - m) < S (2 ^ k))%nat) by nia.
    destruct inverse; [rewrite Hrev|rewrite Hexp]; rewrite (idx_ok _ _ 0) by (rewrite length_map_seq; auto);
      rewrite nth_map_seq by auto; f_equal.
    + rewrite <- fpow_mul, fpow_inv.
      rewrite (Nat.mul_comm (2 ^ (k - m)) i).
      symmetry. apply finv_unique. rewrite <- fpow_add.
      replace (i * 2 ^ (k - m) + (2 ^ k - i * 2 ^ (k - m)))%nat with (2 ^ k)%nat by lia. apply Hw.
    + rewrite <- fpow_mul. f_equal. lia.
  - intros Hm0. replace m with (S (m - 1)) in Ek by lia.
    assert (Hh : w ^ (2 ^ (k - 1)) = - (1)).
    { apply primitive_half; auto using pow2_pos.
      replace (2 * 2 ^ (k - 1))%nat with (2 ^ k)%nat; auto.
      replace k with (S (k - 1)) at 1 by lia. reflexivity. }
    assert (E2 : (2 ^ (k - m) * 2 ^ (m - 1) = 2 ^ (k - 1))%nat).
    { rewrite <- Nat.pow_add_r. f_equal. lia. }
    destruct inverse; rewrite <- fpow_mul, E2; auto.
    rewrite fpow_inv, Hh. apply finv_unique. ring.
Qed.

Theorem fft_g1_spec s k (w : K) m (data : list M) :
  settings_ok s k w -> (m <= k)%nat -> length data = (2 ^ m)%nat ->
  fft_g1 s data false = Ok (dft (w ^ (2 ^ (k - m))) (2 ^ m) data).
Proof.
  intros HS Hm HL. unfold fft_g1.
  destruct (Nat.ltb_spec (max_width s) (length data)) as [C|C].
  { exfalso. destruct HS as (E & _). rewrite E, HL in C.
    assert (2 ^ m <= 2 ^ k)%nat by (apply Nat.pow_le_mono_r; lia). lia. }
  replace (is_pow2 (length data)) with true by (rewrite HL, is_pow2_pow; auto). cbn [negb].
  rewrite (fft_g1_fast_settings s k w m data false); auto.
Qed.

Theorem ifft_g1_spec s k (w : K) m (data : list M) :
  settings_ok s k w -> (m <= k)%nat -> length data = (2 ^ m)%nat ->
  fft_g1 s data true = Ok (map (smul (finv (fnat (2 ^ m)))) (dft (finv w ^ (2 ^ (k - m))) (2 ^ m) data)).
Proof.
  intros HS Hm HL. unfold fft_g1.
  destruct (Nat.ltb_spec (max_width s) (length data)) as [C|C].
  { exfalso. destruct HS as (E & _). rewrite E, HL in C.
    assert (2 ^ m <= 2 ^ k)%nat by (apply Nat.pow_le_mono_r; lia). lia. }
  replace (is_pow2 (length data)) with true by (rewrite HL, is_pow2_pow; auto). cbn [negb].
  rewrite (fft_g1_fast_settings s k w m data true) by auto. cbn [bind].
  rewrite slice_ok; [|lia|]. 2:{ unfold dft. rewrite length_map_seq. lia. }
  cbn [bind]. now rewrite HL.
Qed.

(** *** inversion of the DFT *)
Lemma primitive_fold (w : K) k m : (m <= k)%nat -> primitive w (2 ^ k) -> primitive (w ^ (2 ^ (k - m))) (2 ^ m).
Proof.
  intros Hm Hw. apply primitive_pow; auto using pow2_pos.
  rewrite <- Nat.pow_add_r. now replace (m + (k - m))%nat with k by lia.
Qed.

Lemma primitive_diff_sum (w : K) n i l :
  (0 < n)%nat -> primitive w n -> (i < n)%nat -> (l < n)%nat ->
  sum n (fun j => finv w ^ (i * j) * w ^ (j * l)) = if (i =? l)%nat then fnat n else 0.
Proof.
  intros Hn Hw Hi Hl. assert (Nz := primitive_neq_0 w n Hn Hw).
  assert (Hcancel : forall a, finv w ^ a * w ^ a = 1).
  { intros a. rewrite <- fpow_mul_base, finv_l, fpow_1_l; auto. }
  destruct (Nat.eqb_spec i l) as [->|N].
  - rewrite (sum_ext n _ (fun _ => 1)).
    + rewrite sum_const. ring.
    + intros j Hj. rewrite (Nat.mul_comm j l). apply Hcancel.
  - destruct (Nat.lt_ge_cases i l).
    + rewrite (sum_ext n _ (fun j => w ^ ((l - i) * j))).
      * apply root_sum_0; auto. lia.
      * intros j Hj. replace (j * l)%nat with (i * j + (l - i) * j)%nat by nia.
        rewrite fpow_add. transitivity (finv w ^ (i * j) * w ^ (i * j) * w ^ ((l - i) * j)); [ring|].
        rewrite Hcancel. ring.
    + rewrite (sum_ext n _ (fun j => finv w ^ ((i - l) * j))).
      * apply root_sum_0; [|lia]. now apply primitive_inv.
      * intros j Hj. replace (i * j)%nat with ((i - l) * j + j * l)%nat by nia.
        rewrite fpow_add. transitivity (finv w ^ (j * l) * w ^ (j * l) * finv w ^ ((i - l) * j)); [ring|].
        rewrite Hcancel. ring.
Qed.

Lemma dft_inverse (w : K) n (data : list M) :
  (0 < n)%nat -> primitive w n -> length data = n ->
  dft (finv w) n (dft w n data) = map (smul (fnat n)) data.
Proof.
  intros Hn Hw HL. unfold dft. apply (nth_ext' g0).
  - rewrite length_map_seq, map_length. auto.
  - rewrite length_map_seq. intros i Hi. rewrite nth_map_seq by auto.
    rewrite (nth_indep _ g0 (smul (fnat n) g0)) by (rewrite map_length; lia).
    rewrite map_nth.
    transitivity (gsum n (fun l => smul (if (i =? l)%nat then fnat n else 0) (nth l data g0))).
    + rewrite (gsum_ext n _ (fun j => gsum n (fun l => smul (finv w ^ (i * j) * w ^ (j * l)) (nth l data g0)))).
      * rewrite gsum_swap. apply gsum_ext. intros l Hl.
        rewrite gsum_scal. f_equal. now apply primitive_diff_sum.
      * intros j Hj. rewrite nth_map_seq by auto. rewrite <- gsum_smul.
        apply gsum_ext. intros l Hl. apply smul_smul.
    + rewrite (gsum_single n i); auto.
      * now rewrite Nat.eqb_refl.
      * intros l Hl Nl. replace (i =? l)%nat with false by (symmetry; apply Nat.eqb_neq; auto).
        apply smul_0_l.
Qed.

Lemma map_smul_smul x y (l : list M) : map (smul x) (map (smul y) l) = map (smul (x * y)) l.
Proof. rewrite map_map. apply map_ext. intros. apply smul_smul. Qed.

Lemma map_smul_1 (l : list M) : map (smul 1) l = l.
Proof. rewrite <- (map_id l) at 2. apply map_ext. intros. apply smul_1. Qed.

Lemma dft_smul (w : K) n c (data : list M) :
  dft w n (map (smul c) data) = map (smul c) (dft w n data).
Proof.
  unfold dft. rewrite map_map. apply map_ext. intros i. rewrite <- gsum_smul.
  apply gsum_ext. intros j Hj.
  destruct (Nat.lt_ge_cases j (length data)).
  - rewrite (nth_indep _ g0 (smul c g0)) by (rewrite map_length; lia).
    rewrite map_nth, !smul_smul. f_equal. ring.
  - rewrite !nth_overflow by (try rewrite map_length; lia). now rewrite !smul_0_r.
Qed.

Lemma dft_length (w : K) n (data : list M) : length (dft w n data) = n.
Proof. apply length_map_seq. Qed.

Theorem fft_g1_roundtrip s k (w : K) m (data : list M) :
  settings_ok s k w -> (m <= k)%nat -> length data = (2 ^ m)%nat ->
  (let* f := fft_g1 s data false in fft_g1 s f true) = Ok data /\
  (let* f := fft_g1 s data true in fft_g1 s f false) = Ok data.
Proof.
  intros HS Hm HL. assert (P := pow2_pos m).
  assert (Hw : primitive (w ^ (2 ^ (k - m))) (2 ^ m)) by (apply primitive_fold; auto; apply HS).
  assert (Hn : fnat (2 ^ m) <> (0 : K)) by (apply (primitive_fnat_neq_0 _ m Hw)).
  split.
  - rewrite (fft_g1_spec s k w m) by auto. cbn [bind].
    rewrite (ifft_g1_spec s k w m) by (auto using dft_length).
    rewrite fpow_inv, dft_inverse by auto. rewrite map_smul_smul, finv_l by auto.
    now rewrite map_smul_1.
  - rewrite (ifft_g1_spec s k w m) by auto. cbn [bind].
    rewrite (fft_g1_spec s k w m) by (auto; rewrite map_length; apply dft_length).
    rewrite dft_smul. rewrite fpow_inv.
    rewrite <- (finv_involutive (w ^ (2 ^ (k - m)))) at 1.
    rewrite dft_inverse; auto using primitive_inv.
    rewrite map_smul_smul, finv_l by auto. now rewrite map_smul_1.
Qed.

(** *** the slow transform *)
Theorem fft_g1_slow_spec (w : K) n (ret data : list M) stride roots rs :
  length ret = n -> length data = n -> (0 < n)%nat -> ((n - 1) * stride < n)%nat ->
  (forall i, (i < n)%nat -> idx roots (i * rs) = Ok (w ^ i)) -> w ^ n = 1 ->
  fft_g1_slow ret data stride roots rs =
  Ok (map (fun i => gsum n (fun j => smul (w ^ (i * j)) (nth (j * stride) data g0))) (seq 0 n)).
Proof.
  intros HLr HL Hn Hstr HR HW. unfold fft_g1_slow. rewrite HL.
  set (val := fun i => gsum n (fun j => smul (w ^ (i * j)) (nth (j * stride) data g0))).
  match goal with |- for_range _ _ ?b _ = _ => set (body := b) end.
  destruct (for_range_inv (fun t (r : list M) => length r = n /\
     forall p, (p < t)%nat -> nth p r g0 = val p) body 0 n ret) as (r' & E & L & I).
  - lia.
  - split; auto. intros; lia.
  - intros i r Hi (Lr & Ir). unfold body.
    rewrite (idx_ok data 0 g0) by lia. cbn [bind].
    assert (R0 := HR 0%nat ltac:(lia)). change (0 * rs)%nat with 0%nat in R0. rewrite R0. cbn [bind].
    rewrite upd_ok by lia. cbn [bind].
    match goal with |- exists t', for_range _ _ ?b _ = _ /\ _ => set (body2 := b) end.
    destruct (for_range_inv (fun t (r1 : list M) => length r1 = n /\
       nth i r1 g0 = gsum t (fun j => smul (w ^ (i * j)) (nth (j * stride) data g0)) /\
       forall p, p <> i -> nth p r1 g0 = nth p r g0) body2 1 n (set r i (smul (w ^ 0) (nth 0 data g0))))
      as (r1 & E1 & L1 & I1 & I2).
    + lia.
    + rewrite set_length. split; auto. split.
      * rewrite nth_set_same by lia. simpl. rewrite Nat.mul_0_r. simpl. now rewrite gadd_0_l.
      * intros p Hp. now rewrite nth_set_other by lia.
    + intros j r2 Hj (L2 & J1 & J2). unfold body2.
      rewrite (idx_ok data (j * stride) g0) by nia. cbn [bind].
      rewrite HR by (apply Nat.mod_upper_bound; lia). cbn [bind].
      rewrite (idx_ok r2 i g0) by lia. cbn [bind]. rewrite upd_ok by lia.
      eexists. split; [reflexivity|]. rewrite set_length. split; auto. split.
      * rewrite nth_set_same by lia. rewrite J1. simpl. rewrite fpow_mod by (auto; lia). reflexivity.
      * intros p Hp. rewrite nth_set_other by lia. auto.
    + exists r1. split; [exact E1|]. split; auto. intros p Hp.
      destruct (Nat.eq_dec p i) as [->|N]; auto. rewrite I2 by auto. apply Ir. lia.
  - rewrite E. f_equal. apply (nth_ext' g0).
    + now rewrite length_map_seq.
    + intros i Hi. rewrite nth_map_seq by lia. apply I. lia.
Qed.

(** *** argument checks *)
Theorem fft_g1_errors s k (w : K) (data : list M) inverse :
  settings_ok s k w ->
  (2 ^ k < length data)%nat \/ (forall m, length data <> 2 ^ m)%nat -> fft_g1 s data inverse = Err.
Proof.
  intros (E & _) H. unfold fft_g1. rewrite E.
  destruct (Nat.ltb_spec (2 ^ k) (length data)); auto.
  destruct H as [H|H]; [lia|].
  destruct (is_pow2 (length data)) eqn:P; auto.
  apply is_pow2_spec in P as (m & P). now apply H in P.
Qed.
End GFFT.

(** *** the field version is the module version over the field itself *)
Lemma fft_fr_fast_self fuel : forall (ret data : list K) stride roots rs,
  fft_fr_fast_ fuel ret data stride roots rs = fft_g1_fast_ (M := self_mod K) fuel ret data stride roots rs.
Proof.
  induction fuel; intros; [reflexivity|]. cbn [fft_fr_fast_ fft_g1_fast_].
  change (gcar K (self_mod K)) with (car K).
  destruct (0 <? length ret / 2)%nat; [|reflexivity].
  rewrite IHfuel.
  match goal with |- bind ?a _ = bind ?b _ => change b with a; destruct a; cbn [bind]; auto end.
  destruct (slice_from _ _); cbn [bind]; auto. rewrite IHfuel.
  match goal with |- bind ?a _ = bind ?b _ => change b with a; destruct a; cbn [bind]; auto end.
  unfold for_range. apply for_ext. intros j t Hj.
  destruct (idx t (j + length ret / 2)) as [y| | |]; cbn [bind]; auto.
  destruct (idx roots (j * rs)) as [r| | |]; cbn [bind]; auto.
  destruct (idx t j) as [x| | |]; cbn [bind]; auto.
  rewrite gsub_self. cbn [smul self_mod gadd].
  replace (r * y) with (y * r) by ring. reflexivity.
Qed.

Lemma fft_fr_self s (data : list K) inverse :
  fft_fr s data inverse = fft_g1 (M := self_mod K) s data inverse.
Proof.
  unfold fft_fr, fft_g1, fft_fr_fast, fft_g1_fast. rewrite fft_fr_fast_self.
  change (gcar K (self_mod K)) with (car K).
  destruct (_ <? _)%nat; auto. destruct (negb _); auto.
  match goal with |- bind ?a _ = bind ?b _ => change b with a; destruct a; cbn [bind]; auto end.
  destruct inverse; auto.
  change (gcar K (self_mod K)) with (car K).
  destruct (slice _ _ _); cbn [bind]; auto. f_equal. apply map_ext. intros x. simpl. ring.
Qed.

Lemma fft_fr_slow_self (ret data : list K) stride roots rs :
  fft_fr_slow ret data stride roots rs = fft_g1_slow (M := self_mod K) ret data stride roots rs.
Proof.
  unfold fft_fr_slow, fft_g1_slow.
  change (gcar K (self_mod K)) with (car K).
  unfold for_range. apply for_ext. intros i t Hi.
  destruct (idx data 0) as [d| | |]; cbn [bind]; auto.
  destruct (idx roots 0) as [r| | |]; cbn [bind]; auto.
  cbn [smul self_mod]. replace (r * d) with (d * r) by ring.
  destruct (upd t i (d * r)) as [u| | |]; cbn [bind]; auto.
  apply for_ext. intros j v Hj.
  destruct (idx data (j * stride)) as [d'| | |]; cbn [bind]; auto.
  destruct (idx roots _) as [r'| | |]; cbn [bind]; auto.
  cbn [smul gadd self_mod]. replace (r' * d') with (d' * r') by ring. reflexivity.
Qed.

(** the DFT over the field is evaluation at the powers of the root *)
Lemma dft_self (w : K) n (data : list K) : length data = n ->
  dft (M := self_mod K) w n data = map (fun i => peval data (w ^ i)) (seq 0 n).
Proof.
  intros HL. unfold dft. apply map_ext. intros i. rewrite gsum_self.
  rewrite (peval_sum_n data (w ^ i) n) by lia. apply sum_ext. intros j Hj.
  simpl. rewrite fpow_mul. unfold coef. ring.
Qed.

Theorem fft_fr_spec s k (w : K) m (data : list K) :
  settings_ok s k w -> (m <= k)%nat -> length data = (2 ^ m)%nat ->
  fft_fr s data false = Ok (map (fun i => peval data ((w ^ (2 ^ (k - m))) ^ i)) (seq 0 (2 ^ m))).
Proof.
  intros. rewrite fft_fr_self, (fft_g1_spec s k w m) by auto.
  f_equal. now apply dft_self.
Qed.

Theorem ifft_fr_spec s k (w : K) m (data : list K) :
  settings_ok s k w -> (m <= k)%nat -> length data = (2 ^ m)%nat ->
  fft_fr s data true = Ok (map (fun i => finv (fnat (2 ^ m)) * peval data ((finv w ^ (2 ^ (k - m))) ^ i)) (seq 0 (2 ^ m))).
Proof.
  intros. rewrite fft_fr_self, (ifft_g1_spec s k w m) by auto.
  f_equal. change (gcar K (self_mod K)) with (car K). rewrite dft_self by auto.
  rewrite map_map. reflexivity.
Qed.

Theorem fft_fr_roundtrip s k (w : K) m (data : list K) :
  settings_ok s k w -> (m <= k)%nat -> length data = (2 ^ m)%nat ->
  (let* f := fft_fr s data false in fft_fr s f true) = Ok data /\
  (let* f := fft_fr s data true in fft_fr s f false) = Ok data.
Proof.
  intros HS Hm HL. destruct (fft_g1_roundtrip (M := self_mod K) s k w m data HS Hm HL) as [A B].
  rewrite <- fft_fr_self in A, B. change (gcar K (self_mod K)) with (car K) in A, B.
  split; [etransitivity; [|exact A]|etransitivity; [|exact B]].
  - destruct (fft_fr s data false); cbn [bind]; auto using fft_fr_self.
  - destruct (fft_fr s data true); cbn [bind]; auto using fft_fr_self.
Qed.

Theorem fft_fr_errors s k (w : K) (data : list K) inverse :
  settings_ok s k w ->
  (2 ^ k < length data)%nat \/ (forall m, length data <> 2 ^ m)%nat -> fft_fr s data inverse = Err.
Proof. intros. rewrite fft_fr_self. exact (fft_g1_errors (M := self_mod K) s k w data inverse H H0). Qed.

(** the inverse transform interpolates: its output, of size [2^m], evaluates to the
    data at the powers of the root *)
Theorem ifft_fr_interpolates s k (w : K) m (data : list K) :
  settings_ok s k w -> (m <= k)%nat -> length data = (2 ^ m)%nat ->
  exists p, fft_fr s data true = Ok p /\ length p = (2 ^ m)%nat /\
    forall i, (i < 2 ^ m)%nat -> peval p ((w ^ (2 ^ (k - m))) ^ i) = nth i data 0.
Proof.
  intros HS Hm HL. destruct (fft_fr_roundtrip s k w m data HS Hm HL) as [_ H].
  rewrite (ifft_fr_spec s k w m) in * by auto.
  eexists. split; [reflexivity|]. rewrite length_map_seq. split; auto.
  cbn [bind] in H. rewrite (fft_fr_spec s k w m) in H by (auto; apply length_map_seq).
  intros i Hi. assert (H' : forall (a b : list K), Ok a = Ok b -> nth i a 0 = nth i b 0) by (intros; congruence).
  apply H' in H. now rewrite nth_map_seq in H.
Qed.

Theorem fft_fr_slow_spec (w : K) n (ret data : list K) stride roots rs :
  length ret = n -> length data = n -> (0 < n)%nat -> ((n - 1) * stride < n)%nat ->
  (forall i, (i < n)%nat -> idx roots (i * rs) = Ok (w ^ i)) -> w ^ n = 1 ->
  fft_fr_slow ret data stride roots rs =
  Ok (map (fun i => sum n (fun j => w ^ (i * j) * nth (j * stride) data 0)) (seq 0 n)).
Proof.
  intros. rewrite fft_fr_slow_self, (fft_g1_slow_spec w n) by auto.
  f_equal. apply map_ext. intros i. apply gsum_self.
Qed.
End Proofs.
