(** * Proof_Poly1: exponentiation, evaluation, scaling, padding, multiplication *)
From Coq Require Import List Arith Lia Bool NArith Field Ring.
From Verif Require Import Base Fld Poly Loops Model_Utils Proof_Utils Model_FFT Spec Proof_FFT Model_Poly.
Import ListNotations.

Section P1.
Context {K : fld}.
Add Field Kfp1 : (fld_field K).
Local Open Scope fld_scope.
Variable table : list K.

(** ** pow *)
Lemma fr_pow_spec_ fuel : forall n (out temp : K), (n < fuel)%nat ->
  fr_pow_ fuel n out temp = Ok (out * temp ^ n).
Proof.
  induction fuel as [|fuel IH]; intros n out temp H; [lia|]. cbn [fr_pow_].
  assert (D := Nat.div_mod n 2 ltac:(lia)).
  assert (O : Nat.odd n = (n mod 2 =? 1)%nat).
  { rewrite D at 1. rewrite Nat.odd_add_mul_2 || rewrite Nat.add_comm, Nat.odd_add_mul_2.
    assert (B := Nat.mod_upper_bound n 2 ltac:(lia)).
    destruct (n mod 2)%nat as [|[|x]]; try reflexivity; lia. }
  set (q := (n / 2)%nat) in *.
  assert (B := Nat.mod_upper_bound n 2 ltac:(lia)).
  assert (E : temp ^ n = (temp * temp) ^ q * (if Nat.odd n then temp else 1)).
  { rewrite O. rewrite D at 1. rewrite fpow_add, fpow_mul, fpow_2.
    destruct (n mod 2)%nat as [|[|x]]; [simpl; ring|simpl; ring|lia]. }
  destruct (Nat.eqb_spec q 0) as [Z|Z].
  - rewrite E, Z. f_equal. destruct (Nat.odd n); simpl; ring.
  - rewrite IH by (unfold q in *; lia). f_equal. rewrite E. destruct (Nat.odd n); ring.
Qed.

Theorem fr_pow_spec (x : K) n : fr_pow x n = Ok (x ^ n).
Proof. unfold fr_pow. rewrite fr_pow_spec_ by lia. f_equal. ring. Qed.

(** ** eval *)
Lemma eval_loop_spec p (x : K) : forall i ret, (i < length p)%nat ->
  eval_loop p x i ret = Ok (peval (firstn (S i) p) x + x ^ (S i) * ret).
Proof.
  induction i as [|i IH]; intros ret H.
  - cbn [eval_loop]. rewrite (idx_ok p 0 0) by auto. cbn [bind].
    destruct p as [|c p]; [simpl in H; lia|]. simpl. f_equal. ring.
  - cbn [eval_loop]. rewrite (idx_ok p (S i) 0) by auto. cbn [bind].
    rewrite IH by lia. f_equal.
    assert (F : firstn (S (S i)) p = firstn (S i) p ++ [nth (S i) p 0]).
    { apply (nth_ext' (0:K)).
      - rewrite app_length, !firstn_length. simpl length. lia.
      - intros j Hj. rewrite firstn_length in Hj. rewrite nth_firstn' by lia.
        destruct (Nat.eq_dec j (S i)) as [->|Nj].
        + rewrite app_nth2 by (rewrite firstn_length; lia). rewrite firstn_length.
          replace (S i - Nat.min (S i) (length p))%nat with 0%nat by lia. reflexivity.
        + rewrite app_nth1 by (rewrite firstn_length; lia). rewrite nth_firstn' by lia. reflexivity. }
    rewrite F, peval_app. rewrite firstn_length. replace (Nat.min (S i) (length p)) with (S i) by lia.
    cbn [peval]. rewrite (fpow_S x (S i)). ring.
Qed.

Theorem poly_eval_spec p (x : K) : length p <> 1%nat \/ x = 0 -> poly_eval p x = Ok (peval p x).
Proof.
  intros H. unfold poly_eval. destruct (Nat.eqb_spec (length p) 0) as [Z|Z].
  { destruct p; [reflexivity|discriminate]. }
  destruct (feqb x 0) eqn:E.
  - apply feqb_spec in E. subst x. rewrite (idx_ok p 0 0) by lia. f_equal. symmetry. apply peval_0.
  - apply feqb_false in E. destruct H as [H|H]; [|contradiction].
    rewrite (idx_ok p _ 0) by lia. cbn [bind]. rewrite usub_ok by lia. cbn [bind].
    rewrite eval_loop_spec by lia. f_equal.
    replace (S (length p - 2)) with (length p - 1)%nat by lia.
    assert (F : p = firstn (length p - 1) p ++ [nth (length p - 1) p 0]).
    { apply (nth_ext' (0:K)).
      - rewrite app_length, firstn_length. simpl length. lia.
      - intros j Hj. destruct (Nat.eq_dec j (length p - 1)) as [->|Nj].
        + rewrite app_nth2 by (rewrite firstn_length; lia). rewrite firstn_length.
          replace (length p - 1 - Nat.min (length p - 1) (length p))%nat with 0%nat by lia. reflexivity.
        + rewrite app_nth1 by (rewrite firstn_length; lia). rewrite nth_firstn' by lia. reflexivity. }
    transitivity (peval (firstn (length p - 1) p ++ [nth (length p - 1) p 0]) x); [|now rewrite <- F].
    rewrite peval_app, firstn_length.
    replace (Nat.min (length p - 1) (length p)) with (length p - 1)%nat by lia. cbn [peval]. ring.
Qed.

Theorem poly_eval_singleton_panics (c x : K) : x <> 0 -> poly_eval [c] x = Panic.
Proof.
  intros H. apply feqb_false in H. unfold poly_eval. cbn. now rewrite H.
Qed.

(** ** scale and unscale *)
Lemma scale_loop (c : K) p :
  for_range 0 (length p) (fun i (st : list K * K) =>
      let (coeffs, factor_power) := st in
      let factor_power := fmul factor_power c in
      let* x := idx coeffs i in
      let* coeffs := upd coeffs i (fmul x factor_power) in
      Ok (coeffs, factor_power)) (p, f1) =
  Ok (map (fun i => nth i p 0 * c ^ (S i)) (seq 0 (length p)), c ^ (length p)).
Proof.
  apply (acc_map_loop (0:K) (length p) _ (fun i => c ^ i) (fun i x => x * c ^ (S i))); auto.
  intros i r Hi Hr. cbn beta iota. rewrite (idx_ok r i 0) by lia. cbn [bind].
  rewrite upd_ok by lia. cbn [bind].
  replace (c ^ i * c) with (c ^ S i) by (rewrite fpow_S; ring). reflexivity.
Qed.

Theorem poly_scale_spec (p : list K) :
  poly_scale p = Ok (map (fun i => nth i p 0 * finv (fnat 5) ^ (S i)) (seq 0 (length p))).
Proof. unfold poly_scale. cbv zeta. rewrite scale_loop. reflexivity. Qed.

Theorem poly_unscale_spec (p : list K) :
  poly_unscale p = Ok (map (fun i => nth i p 0 * fnat 5 ^ (S i)) (seq 0 (length p))).
Proof. unfold poly_unscale. cbv zeta. rewrite scale_loop. reflexivity. Qed.

Theorem poly_scale_unscale (p : list K) : fnat 5 <> (0:K) ->
  (let* q := poly_scale p in poly_unscale q) = Ok p /\
  (let* q := poly_unscale p in poly_scale q) = Ok p.
Proof.
  intros H. rewrite poly_scale_spec, poly_unscale_spec. cbn [bind].
  rewrite poly_scale_spec, poly_unscale_spec, !length_map_seq.
  assert (C : forall n, finv (fnat 5) ^ n * fnat 5 ^ n = (1:K)).
  { intros n. rewrite <- fpow_mul_base, finv_l, fpow_1_l; auto. }
  split; f_equal; apply (nth_ext' (0:K)); rewrite length_map_seq; auto; intros i Hi; rewrite !nth_map_seq by auto.
  - transitivity (nth i p 0 * (finv (fnat 5) ^ S i * fnat 5 ^ S i)); [ring|]. rewrite C. ring.
  - transitivity (nth i p 0 * (finv (fnat 5) ^ S i * fnat 5 ^ S i)); [ring|]. rewrite C. ring.
Qed.

(** ** normalisation *)
Lemma poly_norm_spec (p : list K) :
  exists q, poly_norm p = Ok q /\ (exists z, p = q ++ repeat 0 z) /\ (q = [] \/ last q 0 <> 0).
Proof.
  unfold poly_norm.
  destruct (while_inv (fun t => (t <= length p)%nat /\ forall i, (t <= i)%nat -> (i < length p)%nat -> nth i p 0 = 0) (fun t => t)
    (fun t => if (0 <? t)%nat then match nth_error p (t - 1) with Some c => feqb c f0 | None => true end else false)
    (fun t => let* _ := idx p (t - 1) in usub t 1) (S (length p)) (length p)) as (t & E & (Ht & Hz) & C).
  - split; auto. intros; lia.
  - lia.
  - intros t (Ht & Hz) C. destruct (Nat.ltb_spec 0 t) as [P|P]; [|discriminate].
    rewrite (nth_error_nth' p 0) in C by lia. apply feqb_spec in C.
    rewrite (idx_ok p (t - 1) 0) by lia. cbn [bind]. rewrite usub_ok by lia.
    eexists. split; [reflexivity|]. split; [|lia]. split; [lia|]. intros i Hi Hl.
    destruct (Nat.eq_dec i (t - 1)) as [->|]; auto. apply Hz; lia.
  - cbv beta in E. match goal with |- context [while_ ?a ?b ?c ?d] => assert (E' : while_ a b c d = Ok t) by exact E; rewrite E' end.
    cbn [bind].
    assert (S : p = firstn t p ++ repeat 0 (length p - t)).
    { apply (nth_ext' (0:K)).
      - rewrite app_length, firstn_length, repeat_length. lia.
      - intros i Hi. destruct (Nat.lt_ge_cases i t).
        + rewrite app_nth1 by (rewrite firstn_length; lia). now rewrite nth_firstn'.
        + rewrite app_nth2 by (rewrite firstn_length; lia). rewrite nth_repeat_same. auto. }
    destruct (Nat.eqb_spec t 0) as [->|N].
    + exists []. split; auto. split; auto. exists (length p). rewrite Nat.sub_0_r in S. exact S.
    + rewrite slice_ok by lia. rewrite Nat.sub_0_r. cbn [skipn].
      eexists. split; [reflexivity|]. split; [eauto|]. right.
      destruct (Nat.ltb_spec 0 t); [|lia]. rewrite (nth_error_nth' p 0) in C by lia. apply feqb_false in C.
      intros L. apply C.
      assert (F : firstn t p = firstn (t - 1) p ++ [nth (t - 1) p 0]).
      { apply (nth_ext' (0:K)).
        - rewrite app_length, !firstn_length. simpl length. lia.
        - intros j Hj. rewrite firstn_length in Hj. rewrite nth_firstn' by lia.
          destruct (Nat.eq_dec j (t - 1)) as [->|Nj].
          + rewrite app_nth2 by (rewrite firstn_length; lia). rewrite firstn_length.
            replace (t - 1 - Nat.min (t - 1) (length p))%nat with 0%nat by lia. reflexivity.
          + rewrite app_nth1 by (rewrite firstn_length; lia). rewrite nth_firstn' by lia. reflexivity. }
      rewrite F, last_last in L. exact L.
Qed.

(** ** pad and flip *)
Lemma min_u64_min a b : min_u64 a b = Nat.min a b.
Proof. unfold min_u64. destruct (Nat.ltb_spec a b); lia. Qed.

Lemma poly_pad_spec (p : list K) n : poly_pad p n = Ok (map (coef p) (seq 0 n)).
Proof.
  unfold poly_pad. rewrite min_u64_min.
  rewrite (map_loop (0:K) _ _ (fun i _ => coef p i)).
  - rewrite repeat_length. f_equal. apply map_ext_seq. intros i Hi.
    destruct (Nat.ltb_spec i (Nat.min (length p) n)); auto.
    rewrite nth_repeat_same. symmetry. apply coef_over. lia.
  - rewrite repeat_length. lia.
  - intros i r Hi Hr. rewrite repeat_length in Hr. rewrite (idx_ok p i 0) by lia. cbn [bind].
    rewrite upd_ok by lia. reflexivity.
Qed.

Lemma poly_flip_spec (p : list K) : poly_flip p = Ok (rev p).
Proof.
  unfold poly_flip. rewrite (copy_loop (0:K) _ _ (fun i => nth (length p - i - 1) p 0)).
  - f_equal. apply (nth_ext' (0:K)).
    + now rewrite length_map_seq, rev_length.
    + rewrite length_map_seq. intros i Hi. rewrite nth_map_seq, rev_nth by auto. f_equal. lia.
  - now rewrite repeat_length.
  - intros i r Hi Hr. rewrite repeat_length in Hr.
    rewrite usub_ok by lia. cbn [bind]. rewrite usub_ok by lia. cbn [bind].
    rewrite (idx_ok p _ 0) by lia. cbn [bind]. now rewrite upd_ok by lia.
Qed.

(** ** direct multiplication *)
Lemma mul_direct_inner_spec (a b : list K) n i (ret : list K) :
  (i < length a)%nat -> (0 < length b)%nat -> length ret = n ->
  exists ret', mul_direct_inner a b n i ret = Ok ret' /\ length ret' = n /\
    forall k, (k < n)%nat -> nth k ret' 0 = nth k ret 0 + coef a i * (if (i <=? k)%nat then coef b (k - i) else 0).
Proof.
  intros Hi Hb Hr. unfold mul_direct_inner.
  set (J := Nat.min (length b) (n - i)).
  destruct (while_inv (fun st : nat * list K => (fst st <= J)%nat /\ length (snd st) = n /\
      forall k, (k < n)%nat -> nth k (snd st) 0 =
        nth k ret 0 + coef a i * (if (i <=? k)%nat then (if (k - i <? fst st)%nat then coef b (k - i) else 0) else 0))
    (fun st => (J - fst st)%nat)
    (fun st : nat * list K => (fst st <=? length b - 1)%nat && (i + fst st <? n)%nat)
    (fun st => let (j, ret) := st in
      let* x := idx a i in
      let* y := idx b j in
      let tmp := fmul x y in
      let* z := idx ret (i + j)%nat in
      let* ret := upd ret (i + j)%nat (fadd z tmp) in
      Ok ((j + 1)%nat, ret)) (S (S (length b - 1))) (0%nat, ret)) as ([j r] & E & (Hj & Lr & Hv) & C).
  - cbn [fst snd]. split; [lia|]. split; auto. intros k Hk.
    destruct (Nat.leb_spec i k); [|ring].
    replace (k - i <? 0)%nat with false by (symmetry; apply Nat.ltb_ge; lia). ring.
  - cbn [fst]. unfold J. lia.
  - intros [j r] (Hj & Lr & Hv) C. cbn [fst snd] in *.
    apply andb_true_iff in C as [C1 C2]. apply Nat.leb_le in C1. apply Nat.ltb_lt in C2.
    rewrite (idx_ok a i 0), (idx_ok b j 0) by lia. cbn [bind].
    rewrite (idx_ok r (i + j) 0) by lia. cbn [bind]. rewrite upd_ok by lia. cbn [bind].
    eexists. split; [reflexivity|]. cbn [fst snd]. split; [|unfold J in *; lia].
    split; [unfold J in *; lia|]. split; [now rewrite set_length|].
    intros k Hk. rewrite nth_set by lia. destruct (Nat.eqb_spec k (i + j)) as [->|Nk].
    + rewrite Hv by lia. destruct (Nat.leb_spec i (i + j)); [|lia].
      replace (i + j - i)%nat with j by lia.
      destruct (Nat.ltb_spec j j); [lia|]. destruct (Nat.ltb_spec j (j + 1)); [|lia].
      unfold coef. ring.
    + rewrite Hv by auto. destruct (Nat.leb_spec i k); auto.
      replace (k - i <? j + 1)%nat with (k - i <? j)%nat; auto.
      apply eq_true_iff_eq. rewrite !Nat.ltb_lt. lia.
  - cbn [fst snd] in *. exists r. split; [|split; auto].
    + transitivity (let* st := Ok (j, r) in Ok (snd st)); [|reflexivity].
      apply (f_equal (fun m => let* st := m in Ok (snd st))) in E. exact E.
    + intros k Hk. rewrite Hv by auto. destruct (Nat.leb_spec i k); auto.
      destruct (Nat.ltb_spec (k - i) j); auto. rewrite (coef_over b (k - i)); [ring|].
      apply andb_false_iff in C as [C|C].
      * apply Nat.leb_gt in C. lia.
      * apply Nat.ltb_ge in C. lia.
Qed.

Lemma convol_by_rows (a b : list K) k :
  sum (length a) (fun i => coef a i * (if (i <=? k)%nat then coef b (k - i) else 0)) = convol a b k.
Proof.
  unfold convol.
  transitivity (sum (Nat.max (length a) (S k)) (fun i => coef a i * (if (i <=? k)%nat then coef b (k - i) else 0))).
  - symmetry. apply sum_extend; [lia|]. intros i Hi. rewrite coef_over by lia. ring.
  - rewrite (sum_extend (S k)); [|lia|intros i Hi; destruct (Nat.leb_spec i k); [lia|ring]].
    apply sum_ext. intros i Hi. destruct (Nat.leb_spec i k); [auto|lia].
Qed.

Theorem mul_direct_spec (a b : list K) n : a <> [] -> b <> [] ->
  mul_direct a b n = Ok (map (convol a b) (seq 0 n)).
Proof.
  intros Ha Hb. unfold mul_direct.
  assert (La : (0 < length a)%nat) by (destruct a; [congruence|simpl; lia]).
  assert (Lb : (0 < length b)%nat) by (destruct b; [congruence|simpl; lia]).
  destruct (Nat.eqb_spec (length a) 0); [lia|]. destruct (Nat.eqb_spec (length b) 0); [lia|]. cbn [orb].
  replace (length a - 1 + 1)%nat with (length a) by lia.
  destruct (for_range_inv (fun t ret => length ret = n /\
     forall k, (k < n)%nat -> nth k ret 0 = sum t (fun i => coef a i * (if (i <=? k)%nat then coef b (k - i) else 0)))
     (mul_direct_inner a b n) 0 (length a) (repeat 0 n)) as (r & E & L & H).
  - lia.
  - split; [apply repeat_length|]. intros k Hk. rewrite nth_repeat_same. reflexivity.
  - intros t ret Ht (L & H). destruct (mul_direct_inner_spec a b n t ret) as (r' & E & L' & H'); auto; [lia|].
    exists r'. split; auto. split; auto. intros k Hk. rewrite H', H by auto. reflexivity.
  - transitivity (Ok r); [exact E|]. f_equal. apply (nth_ext' (0:K)).
    + now rewrite length_map_seq.
    + intros k Hk. rewrite L in Hk. rewrite H, nth_map_seq by auto. apply convol_by_rows.
Qed.

Theorem mul_direct_empty (a b : list K) n : a = [] \/ b = [] -> mul_direct a b n = Ok [].
Proof. intros [->| ->]; unfold mul_direct; cbn; auto. now rewrite orb_true_r. Qed.

(** ** multiplication by transforms *)

Hypothesis HT : table_ok table.
Hypothesis HT32 : length table = 32%nat.

Lemma next_pow2_fits n : (0 < n)%nat -> fits n ->
  exists k, next_pow2 n = Ok (2 ^ k)%nat /\ (n <= 2 ^ k)%nat /\ (k < 32)%nat.
Proof.
  intros Hn Hf. destruct (next_pow2_spec n) as (k & E & L & M); auto.
  { unfold fits in Hf. etransitivity; [exact Hf|]. apply N.pow_le_mono_r; lia. }
  exists k. split; auto. split; auto.
  assert (k <= 31)%nat; [|lia]. apply M.
  unfold fits in Hf.
  assert (H : (N.of_nat n <= N.of_nat (2 ^ 31))%N) by (rewrite Nat2N.inj_pow; exact Hf).
  lia.
Qed.

Lemma log2_pow2_nat k : (k < 32)%nat -> N.to_nat (log2_pow2 (N.of_nat (2 ^ k))) = k.
Proof.
  intros H. replace (N.of_nat (2 ^ k)) with (2 ^ N.of_nat k)%N by (rewrite Nat2N.inj_pow; reflexivity).
  rewrite log2_pow2_spec by lia. lia.
Qed.

Theorem mul_fft_spec (a b : list K) n : a <> [] -> b <> [] -> fits (length a + length b - 1) ->
  mul_fft table a b n = Ok (map (convol a b) (seq 0 n)).
Proof.
  intros Ha Hb HF. unfold mul_fft.
  assert (La : (0 < length a)%nat) by (destruct a; [congruence|simpl; lia]).
  assert (Lb : (0 < length b)%nat) by (destruct b; [congruence|simpl; lia]).
  rewrite usub_ok by lia. cbn [bind].
  destruct (next_pow2_fits (length a + length b - 1)) as (k & E & L & Hk); [lia|auto|].
  rewrite E. cbn [bind]. rewrite log2_pow2_nat by auto.
  destruct (fft_settings_new_ok table k HT) as (s & Es & HS); [lia|].
  rewrite Es. cbn [unwrap bind]. rewrite !poly_pad_spec. cbn [bind].
  set (w := nth k table 0) in *.
  rewrite (fft_fr_spec s k w k) by (auto; apply length_map_seq). cbn [unwrap bind].
  rewrite (fft_fr_spec s k w k) by (auto; apply length_map_seq). cbn [unwrap bind].
  rewrite Nat.sub_diag. cbn [Nat.pow].
  rewrite (copy_loop (0:K) _ _ (fun i => peval a (w ^ i) * peval b (w ^ i))).
  2:{ now rewrite repeat_length. }
  2:{ intros i r Hi Hr. rewrite repeat_length in Hr.
      rewrite !(idx_ok _ i 0) by (rewrite length_map_seq; auto). cbn [bind].
      rewrite !nth_map_seq by auto. rewrite upd_ok by lia. do 2 f_equal.
      rewrite !fpow_1. f_equal; apply peval_ext; intros j; rewrite coef_map_seq;
        destruct (Nat.ltb_spec j (2 ^ k)); auto; symmetry; apply coef_over; lia. }
  cbn [bind].
  match goal with |- context [fft_fr s ?d true] => destruct (ifft_fr_interpolates s k w k d) as (p & Ep & Lp & Hp) end.
  1: auto. 1: auto. 1: apply length_map_seq.
  rewrite Ep. cbn [unwrap bind]. rewrite Nat.sub_diag in Hp. cbn [Nat.pow] in Hp.
  assert (Hc : forall i, coef p i = convol a b i).
  { intros i. rewrite <- coef_pmul.
    apply (interp_unique (map (fpow w) (seq 0 (2 ^ k)))).
    - apply primitive_NoDup. apply HS.
    - rewrite length_map_seq. lia.
    - rewrite length_map_seq, pmul_length. lia.
    - intros x Hx. apply in_map_iff in Hx as (j & <- & Hj). apply in_seq in Hj.
      rewrite peval_pmul. rewrite <- (fpow_1 w) at 1. rewrite Hp by lia. now rewrite nth_map_seq by lia. }
  rewrite min_u64_min. rewrite slice_ok by lia. cbn [bind]. rewrite slice_ok by (rewrite ?repeat_length; lia).
  cbn [bind]. f_equal. rewrite Nat.sub_0_r. cbn [skipn].
  apply (coef_ext (K := K)).
  - rewrite app_length, firstn_length, skipn_length, repeat_length, length_map_seq. lia.
  - rewrite app_length, firstn_length, skipn_length, repeat_length. intros i Hi.
    rewrite coef_app, firstn_length, coef_firstn, coef_skipn, coef_map_seq, coef_repeat0.
    destruct (Nat.ltb_spec i n); [|lia].
    destruct (Nat.ltb_spec i (Nat.min (Nat.min n (2 ^ k)) (length p))).
    + destruct (Nat.ltb_spec i (Nat.min n (2 ^ k))); [auto|lia].
    + symmetry. apply convol_over. lia.
Qed.

Theorem poly_mul_spec (a b : list K) n : a <> [] -> b <> [] -> fits (length a + length b - 1) ->
  poly_mul table a b n = Ok (map (convol a b) (seq 0 n)).
Proof.
  intros Ha Hb HF. unfold poly_mul. destruct (_ || _ || _).
  - now apply mul_direct_spec.
  - now apply mul_fft_spec.
Qed.

(** beyond 2^31 the transform-based product panics *)
Theorem mul_fft_panics (a b : list K) n : a <> [] -> b <> [] ->
  ~ fits (length a + length b - 1) -> (N.of_nat (length a + length b - 1) <= 2 ^ 63)%N ->
  mul_fft table a b n = Panic.
Proof.
  intros Ha Hb HF HM. unfold mul_fft.
  assert (La : (0 < length a)%nat) by (destruct a; [congruence|simpl; lia]).
  assert (Lb : (0 < length b)%nat) by (destruct b; [congruence|simpl; lia]).
  rewrite usub_ok by lia. cbn [bind].
  destruct (next_pow2_spec (length a + length b - 1)) as (k & E & L & Hmin); [lia|auto|].
  rewrite E. cbn [bind].
  assert (Hk : (32 <= k)%nat).
  { destruct (Nat.le_gt_cases 32 k); auto. exfalso. apply HF. unfold fits.
    assert (H1 : (2 ^ N.of_nat k <= 2 ^ 31)%N) by (apply N.pow_le_mono_r; lia).
    assert (H2 : N.of_nat (2 ^ k) = (2 ^ N.of_nat k)%N) by (rewrite Nat2N.inj_pow; reflexivity). lia. }
  assert (Hk64 : (k < 64)%nat).
  { assert (k <= 63)%nat; [|lia]. apply Hmin.
    assert (H2 : N.of_nat (2 ^ 63) = (2 ^ 63)%N) by (rewrite Nat2N.inj_pow; reflexivity). lia. }
  replace (N.of_nat (2 ^ k)) with (2 ^ N.of_nat k)%N by (rewrite Nat2N.inj_pow; reflexivity).
  rewrite log2_pow2_wrong by lia. change (N.to_nat 0) with 0%nat.
  destruct (fft_settings_new_ok table 0 HT) as (s & Es & HS); [lia|].
  rewrite Es. cbn [unwrap bind]. rewrite !poly_pad_spec. cbn [bind].
  rewrite (fft_fr_errors s 0 (nth 0 table 0)); auto.
  left. rewrite length_map_seq. apply Nat.pow_lt_mono_r; lia.
Qed.

End P1.
