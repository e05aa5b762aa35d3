(** * Proof_Das: correctness of the data-availability extension *)
From Coq Require Import List Arith Lia Bool Field Ring.
From Verif Require Import Base Fld Poly Loops Model_Utils Proof_Utils Model_FFT Spec Proof_FFT Model_Das.
Import ListNotations.

Section Das.
Context {K : fld}.
Add Field Kfd : (fld_field K).
Local Open Scope fld_scope.

Lemma das_split_spec (s : fft_settings K) half stride (v : K) evens :
  length evens = (2 * half)%nat ->
  (forall i, (i < half)%nat -> idx (reverse_roots s) (i * 2 * stride) = Ok (v ^ (2 * i))) ->
  das_split s half stride evens =
  Ok (map (fun i => nth i evens 0 + nth (half + i) evens 0) (seq 0 half)
      ++ map (fun i => (nth i evens 0 - nth (half + i) evens 0) * v ^ (2 * i)) (seq 0 half)).
Proof.
  intros HL HR. unfold das_split.
  match goal with |- for_range _ _ ?bd _ = _ => destruct (pair_loop (0:K) half bd) with (l := evens)
    (f := fun (_:nat) (a b : K) => a + b) (g := fun i (a b : K) => (a - b) * v ^ (2 * i)) as (l' & E & L' & H) end.
  - exact HL.
  - intros i r Hi Lr. rewrite (idx_ok r i 0) by lia. cbn [bind].
    rewrite (idx_ok r (half + i) 0) by lia. cbn [bind]. rewrite HR by auto. cbn [bind].
    rewrite upd_ok by lia. cbn [bind]. rewrite upd_ok by (rewrite set_length; lia). f_equal.
    (* commute the two writes *)
    apply (nth_ext' (0:K)); [now rewrite !set_length|]. intros j Hj. rewrite !set_length in Hj.
    rewrite !nth_set by (rewrite ?set_length; lia).
    destruct (Nat.eqb_spec j i), (Nat.eqb_spec j (half + i)); auto; lia.
  - transitivity (Ok l'); [exact E|]. f_equal. apply (list_split_half _ _ _ 0 half).
    + apply length_map_seq.
    + apply length_map_seq.
    + exact L'.
    + intros i Hi. rewrite !nth_map_seq by auto. now apply H.
Qed.

Lemma das_join_spec (s : fft_settings K) half stride (w : K) evens :
  length evens = (2 * half)%nat ->
  (forall i, (i < half)%nat -> idx (expanded_roots s) ((1 + 2 * i) * stride) = Ok (w ^ (1 + 2 * i))) ->
  das_join s half stride evens =
  Ok (map (fun i => nth i evens 0 + nth (half + i) evens 0 * w ^ (1 + 2 * i)) (seq 0 half)
      ++ map (fun i => nth i evens 0 - nth (half + i) evens 0 * w ^ (1 + 2 * i)) (seq 0 half)).
Proof.
  intros HL HR. unfold das_join.
  match goal with |- for_range _ _ ?bd _ = _ => destruct (pair_loop (0:K) half bd) with (l := evens)
    (f := fun i (a b : K) => a + b * w ^ (1 + 2 * i)) (g := fun i (a b : K) => a - b * w ^ (1 + 2 * i)) as (l' & E & L' & H) end.
  - exact HL.
  - intros i r Hi Lr. rewrite (idx_ok r i 0) by lia. cbn [bind].
    rewrite (idx_ok r (half + i) 0) by lia. cbn [bind]. rewrite HR by auto. cbn [bind].
    rewrite upd_ok by lia. cbn [bind]. rewrite upd_ok by (rewrite set_length; lia). reflexivity.
  - transitivity (Ok l'); [exact E|]. f_equal. apply (list_split_half _ _ _ 0 half).
    + apply length_map_seq.
    + apply length_map_seq.
    + exact L'.
    + intros i Hi. rewrite !nth_map_seq by auto. now apply H.
Qed.

(** unnormalised inverse transform followed by evaluation at odd powers *)
Definition das_val (w v : K) n (e : nat -> K) (j : nat) : K :=
  sum n (fun m => w ^ ((2 * j + 1) * m) * sum n (fun i => e i * v ^ (2 * i * m))).

Lemma pow_pow (w : K) a b c : (a * b = c)%nat -> (w ^ a) ^ b = w ^ c.
Proof. intros <-. symmetry. apply fpow_mul. Qed.

Lemma das_val_step (w v : K) h (e : nat -> K) j :
  (0 < h)%nat -> w * v = 1 -> w ^ (2 * h) = - (1) -> (j < h)%nat ->
  let a := fun i => e i + e (h + i)%nat in
  let b := fun i => (e i - e (h + i)%nat) * v ^ (2 * i) in
  let X := das_val (w ^ 2) (v ^ 2) h a j in
  let Y := das_val (w ^ 2) (v ^ 2) h b j in
  das_val w v (2 * h) e j = X + Y * w ^ (1 + 2 * j) /\
  das_val w v (2 * h) e (h + j) = X - Y * w ^ (1 + 2 * j).
Proof.
  intros Hh Hwv Hw Hj a b X Y.
  assert (Hv : v ^ (2 * h) = - (1)).
  { assert (E : w ^ (2 * h) * v ^ (2 * h) = 1) by (rewrite <- fpow_mul_base, Hwv; apply fpow_1_l).
    rewrite Hw in E. transitivity (- (- (1) * v ^ (2 * h))); [ring|]. rewrite E. ring. }
  assert (Hv2 : v ^ (4 * h) = 1).
  { replace (4 * h)%nat with (2 * h + 2 * h)%nat by lia. rewrite fpow_add, Hv. ring. }
  assert (Hw2 : w ^ (4 * h) = 1).
  { replace (4 * h)%nat with (2 * h + 2 * h)%nat by lia. rewrite fpow_add, Hw. ring. }
  assert (EE : forall m, sum (2 * h)%nat (fun i => e i * v ^ (2 * i * (2 * m))) = sum h (fun i => a i * (v ^ 2) ^ (2 * i * m))).
  { intros m. replace (2 * h)%nat with (h + h)%nat by lia. rewrite sum_split, <- sum_add. apply sum_ext. intros i Hi.
    unfold a. rewrite (pow_pow v 2 (2 * i * m) (2 * i * (2 * m))) by lia.
    replace (2 * (h + i) * (2 * m))%nat with (4 * h * m + 2 * i * (2 * m))%nat by lia.
    rewrite fpow_add, (fpow_mul v (4 * h)), Hv2, fpow_1_l. ring. }
  assert (EO : forall m, sum (2 * h)%nat (fun i => e i * v ^ (2 * i * (2 * m + 1))) = sum h (fun i => b i * (v ^ 2) ^ (2 * i * m))).
  { intros m. replace (2 * h)%nat with (h + h)%nat by lia. rewrite sum_split, <- sum_add. apply sum_ext. intros i Hi.
    unfold b. rewrite (pow_pow v 2 (2 * i * m) (2 * i * (2 * m))) by lia.
    replace (2 * i * (2 * m + 1))%nat with (2 * i + 2 * i * (2 * m))%nat by lia.
    replace (2 * (h + i) * (2 * m + 1))%nat with (4 * h * m + (2 * h + (2 * i + 2 * i * (2 * m))))%nat by lia.
    rewrite !fpow_add, (fpow_mul v (4 * h)), Hv2, fpow_1_l, Hv. ring. }
  assert (G : forall jj sg, (forall m, w ^ ((2 * jj + 1) * (2 * m)) = (w ^ 2) ^ ((2 * j + 1) * m)) ->
     w ^ (2 * jj + 1) = sg * w ^ (1 + 2 * j) ->
     das_val w v (2 * h) e jj = X + Y * (sg * w ^ (1 + 2 * j))).
  { intros jj sg H1 H2. unfold das_val at 1. rewrite sum_even_odd.
    rewrite (sum_ext h _ (fun m => (w ^ 2) ^ ((2 * j + 1) * m) * sum h (fun i => a i * (v ^ 2) ^ (2 * i * m)))).
    2:{ intros m Hm. rewrite EE, H1. reflexivity. }
    f_equal. unfold Y, das_val. rewrite <- sum_mul_r. apply sum_ext. intros m Hm. rewrite EO.
    replace ((2 * jj + 1) * (2 * m + 1))%nat with ((2 * jj + 1) * (2 * m) + (2 * jj + 1))%nat by lia.
    rewrite fpow_add, H1, H2. ring. }
  split.
  - rewrite (G j 1).
    + f_equal. ring.
    + intros m. symmetry. apply pow_pow. lia.
    + replace (2 * j + 1)%nat with (1 + 2 * j)%nat by lia. ring.
  - rewrite (G (h + j)%nat (- (1))).
    + ring.
    + intros m. replace ((2 * (h + j) + 1) * (2 * m))%nat with (4 * h * m + 2 * ((2 * j + 1) * m))%nat by lia.
      rewrite fpow_add, (fpow_mul w (4 * h)), Hw2, fpow_1_l.
      rewrite (pow_pow w 2 ((2 * j + 1) * m) (2 * ((2 * j + 1) * m))) by lia. ring.
    + replace (2 * (h + j) + 1)%nat with (2 * h + (1 + 2 * j))%nat by lia. rewrite fpow_add, Hw. ring.
Qed.

Lemma das_stride_spec k : forall fuel s evens stride (w v : K),
  (k < fuel)%nat -> length evens = (2 ^ k)%nat -> w * v = 1 -> w ^ (2 ^ k) = - (1) ->
  (forall i, (i <= 2 ^ k)%nat -> idx (expanded_roots s) (i * stride) = Ok (w ^ i)) ->
  (forall i, (i <= 2 ^ k)%nat -> idx (reverse_roots s) (i * stride) = Ok (v ^ i)) ->
  das_stride_ fuel s evens stride =
  Ok (map (das_val w v (2 ^ k) (fun i => nth i evens 0)) (seq 0 (2 ^ k))).
Proof.
  induction k as [|k IH]; intros fuel s evens stride w v Hf HL Hwv Hw HE HV.
  - destruct fuel; [lia|]. cbn [das_stride_]. rewrite HL. cbn.
    destruct evens as [|x [|]]; try discriminate. do 2 f_equal. unfold das_val. simpl. ring.
  - destruct fuel as [|fuel]; [lia|]. cbn [das_stride_].
    assert (P := pow2_pos k). set (h := (2 ^ k)%nat) in *.
    assert (H2 : (2 ^ S k = 2 * h)%nat) by (unfold h; simpl; lia). rewrite H2 in *.
    destruct (Nat.compare_spec (length evens) 2) as [C|C|C].
    + (* length 2 *)
      assert (h = 1)%nat by lia. destruct evens as [|e0 [|e1 [|]]]; try discriminate C.
      rewrite (idx_ok _ 0 0), (idx_ok _ 1 0) by (simpl; lia). cbn [bind].
      replace stride with (1 * stride)%nat by lia. rewrite HE by lia.
      cbn [bind]. unfold upd. cbn [length Nat.ltb Nat.leb set bind nth].
      rewrite H. cbn [seq map Nat.mul Nat.add].
      destruct (das_val_step w v 1 (fun i => nth i [e0; e1] 0) 0) as [A B]; try lia; auto.
      { now rewrite H in Hw. }
      change (2 * 1)%nat with 2%nat in A, B. change (1 + 0)%nat with 1%nat in B.
      f_equal. f_equal; [|f_equal]; [etransitivity; [|symmetry; exact A]|etransitivity; [|symmetry; exact B]]; unfold das_val; cbn; ring.
    + lia.
    + replace (length evens / 2)%nat with h.
      2:{ rewrite HL, Nat.mul_comm, Nat.div_mul; lia. }
      rewrite (das_split_spec s h stride v); auto.
      2:{ intros i Hi. replace (i * 2 * stride)%nat with (2 * i * stride)%nat by lia. apply HV. lia. }
      cbn [bind].
      set (A := map (fun i => nth i evens 0 + nth (h + i) evens 0) (seq 0 h)).
      set (B := map (fun i => (nth i evens 0 - nth (h + i) evens 0) * v ^ (2 * i)) (seq 0 h)).
      assert (LA : length A = h) by apply length_map_seq.
      assert (LB : length B = h) by apply length_map_seq.
      assert (FA : firstn h (A ++ B) = A) by (rewrite <- LA at 1; now rewrite firstn_app, Nat.sub_diag, firstn_all, app_nil_r).
      assert (FB : skipn h (A ++ B) = B) by (rewrite <- LA at 1; now rewrite skipn_app, Nat.sub_diag, skipn_all).
      rewrite FA, FB.
      assert (Hwv2 : w ^ 2 * v ^ 2 = 1) by (rewrite <- fpow_mul_base, Hwv; apply fpow_1_l).
      assert (Hw2 : (w ^ 2) ^ h = - (1)) by (rewrite <- fpow_mul; exact Hw).
      rewrite (IH fuel s A (stride * 2)%nat (w ^ 2) (v ^ 2)); auto; [|lia| |].
      2:{ intros i Hi. rewrite (pow_pow w 2 i (2 * i)) by lia. replace (i * (stride * 2))%nat with (2 * i * stride)%nat by lia. apply HE. lia. }
      2:{ intros i Hi. rewrite (pow_pow v 2 i (2 * i)) by lia. replace (i * (stride * 2))%nat with (2 * i * stride)%nat by lia. apply HV. lia. }
      rewrite (IH fuel s B (stride * 2)%nat (w ^ 2) (v ^ 2)); auto; [|lia| |].
      2:{ intros i Hi. rewrite (pow_pow w 2 i (2 * i)) by lia. replace (i * (stride * 2))%nat with (2 * i * stride)%nat by lia. apply HE. lia. }
      2:{ intros i Hi. rewrite (pow_pow v 2 i (2 * i)) by lia. replace (i * (stride * 2))%nat with (2 * i * stride)%nat by lia. apply HV. lia. }
      cbn [bind].
      rewrite (das_join_spec s h stride w).
      2:{ rewrite app_length, !length_map_seq. lia. }
      2:{ intros i Hi. apply HE. lia. }
      f_equal.
      replace (2 * h)%nat with (h + h)%nat at 2 by lia. rewrite seq_app, map_app. f_equal.
      * apply map_ext_seq. intros j Hj.
        rewrite app_nth1 by (rewrite length_map_seq; auto).
        rewrite app_nth2 by (rewrite length_map_seq; lia). rewrite length_map_seq.
        replace (h + j - h)%nat with j by lia. rewrite !nth_map_seq by auto.
        destruct (das_val_step w v h (fun i => nth i evens 0) j) as [E _]; auto.
        transitivity (das_val w v (2 * h) (fun i => nth i evens 0) j); [rewrite E|reflexivity].
        f_equal; [|f_equal]; unfold das_val; apply sum_ext; intros m Hm; f_equal; apply sum_ext; intros i Hi;
          unfold A, B; rewrite nth_map_seq by auto; reflexivity.
      * replace (seq (0 + h) h) with (map (fun j => h + j)%nat (seq 0 h)).
        2:{ apply (nth_ext' 0%nat); rewrite length_map_seq; [now rewrite seq_length|].
            intros i Hi. rewrite nth_map_seq, seq_nth by auto. lia. }
        rewrite map_map. apply map_ext_seq. intros j Hj.
        rewrite app_nth1 by (rewrite length_map_seq; auto).
        rewrite app_nth2 by (rewrite length_map_seq; lia). rewrite length_map_seq.
        replace (h + j - h)%nat with j by lia. rewrite !nth_map_seq by auto.
        destruct (das_val_step w v h (fun i => nth i evens 0) j) as [_ E]; auto.
        transitivity (das_val w v (2 * h) (fun i => nth i evens 0) (h + j)); [rewrite E|reflexivity].
        f_equal; [|f_equal]; unfold das_val; apply sum_ext; intros m Hm; f_equal; apply sum_ext; intros i Hi;
          unfold A, B; rewrite nth_map_seq by auto; reflexivity.
Qed.

(** the interpolating polynomial of the even samples *)
Definition das_poly (w : K) n (evens : list K) : list K :=
  map (fun m => finv (fnat n) * peval evens (finv w ^ (2 * m))) (seq 0 n).

Lemma das_poly_length w n evens : length (das_poly w n evens) = n.
Proof. apply length_map_seq. Qed.

Lemma das_extension_eq (s : fft_settings K) k (w : K) m evens :
  settings_ok s k w -> (m < k)%nat -> length evens = (2 ^ m)%nat ->
  let wm := w ^ (2 ^ (k - S m)) in
  das_fft_extension s evens = Ok (map (fun j => peval (das_poly wm (2 ^ m) evens) (wm ^ (2 * j + 1))) (seq 0 (2 ^ m))).
Proof.
  intros HS Hm HL wm. assert (P := pow2_pos m).
  assert (Hp : primitive wm (2 * 2 ^ m)).
  { replace (2 * 2 ^ m)%nat with (2 ^ S m)%nat by (simpl; lia). apply primitive_fold; auto. apply HS. }
  assert (Nw : w <> 0) by (apply (primitive_neq_0 w (2 ^ k)); auto using pow2_pos; apply HS).
  assert (Nz : wm <> 0) by (apply fpow_neq_0; auto).
  destruct HS as (Hmw & Hw & _ & Hexp & Hrev).
  unfold das_fft_extension. rewrite HL.
  destruct (Nat.eqb_spec (2 ^ m) 0); [lia|]. rewrite is_pow2_pow. cbn [negb].
  assert (L2 : (2 ^ m * 2 = 2 ^ S m)%nat) by (simpl; lia). rewrite L2, Hmw.
  assert (Hle : (2 ^ S m <= 2 ^ k)%nat) by (apply Nat.pow_le_mono_r; lia).
  destruct (Nat.ltb_spec (2 ^ k) (2 ^ S m)); [lia|].
  rewrite pow2_div by lia.
  assert (Hst : (2 ^ m * 2 ^ (k - S m) <= 2 ^ k)%nat).
  { rewrite <- Nat.pow_add_r. apply Nat.pow_le_mono_r; lia. }
  unfold das_fft_extension_stride.
  rewrite (das_stride_spec m) with (w := wm) (v := finv wm); auto.
  - cbn [bind]. rewrite length_map_seq. f_equal. rewrite map_map. apply map_ext_seq. intros j Hj.
    rewrite (peval_sum_n (das_poly wm (2 ^ m) evens) _ (2 ^ m)) by (rewrite das_poly_length; auto).
    unfold das_val. rewrite <- sum_mul_r. apply sum_ext. intros t Ht.
    unfold das_poly. rewrite coef_map_seq. destruct (Nat.ltb_spec t (2 ^ m)); [|lia].
    rewrite (peval_sum_n evens _ (2 ^ m)) by lia. rewrite <- fpow_mul.
    transitivity (finv (fnat (2 ^ m)) * sum (2 ^ m) (fun i => nth i evens 0 * finv wm ^ (2 * i * t)) * wm ^ ((2 * j + 1) * t)); [ring|].
    do 2 f_equal. apply sum_ext. intros i Hi. unfold coef. f_equal. rewrite <- fpow_mul. f_equal. lia.
  - rewrite HL. assert (m < 2 ^ m)%nat by (apply Nat.pow_gt_lin_r; lia). lia.
  - apply finv_r; auto.
  - apply primitive_half; auto.
  - intros i Hi. rewrite Hexp. rewrite (idx_ok _ _ 0) by (rewrite length_map_seq; nia).
    rewrite nth_map_seq by nia. f_equal. unfold wm. rewrite <- fpow_mul. f_equal. lia.
  - intros i Hi. rewrite Hrev. rewrite (idx_ok _ _ 0) by (rewrite length_map_seq; nia).
    rewrite nth_map_seq by nia. f_equal.
    symmetry. rewrite fpow_inv. apply finv_unique. unfold wm. rewrite <- fpow_mul, <- fpow_add.
    transitivity (w ^ (2 ^ k)); [f_equal; nia|apply Hw].
Qed.

Lemma das_poly_evens (w : K) m evens i :
  primitive w (2 * 2 ^ m) -> length evens = (2 ^ m)%nat -> (i < 2 ^ m)%nat ->
  peval (das_poly w (2 ^ m) evens) (w ^ (2 * i)) = nth i evens 0.
Proof.
  intros Hw HL Hi. assert (P := pow2_pos m).
  assert (Hp : primitive (w ^ 2) (2 ^ m)) by (apply primitive_pow; [now rewrite Nat.mul_comm|lia]).
  rewrite (peval_sum_n _ _ (2 ^ m)) by (rewrite das_poly_length; auto).
  assert (Nf : fnat (2 ^ m) <> (0:K)) by (apply (primitive_fnat_neq_0 (w ^ 2)); auto).
  transitivity (sum (2 ^ m) (fun t => sum (2 ^ m) (fun l => finv (fnat (2 ^ m)) * nth l evens 0 * (finv (w ^ 2) ^ (l * t) * (w ^ 2) ^ (t * i))))).
  - apply sum_ext. intros t Ht. unfold das_poly. rewrite coef_map_seq. destruct (Nat.ltb_spec t (2 ^ m)); [|lia].
    rewrite (peval_sum_n evens _ (2 ^ m)) by lia. rewrite <- sum_mul_l, <- sum_mul_r. apply sum_ext. intros l Hl.
    unfold coef. rewrite <- (fpow_inv w 2), <- !fpow_mul.
    replace (2 * m * l)%nat with (2 * (m * l))%nat by lia.
    replace (2 * t * l)%nat with (2 * (l * t))%nat by lia. replace (2 * i * t)%nat with (2 * (t * i))%nat by lia. ring.
  - rewrite sum_swap.
    rewrite (sum_ext _ _ (fun l => finv (fnat (2 ^ m)) * nth l evens 0 * (if (l =? i)%nat then fnat (2 ^ m) else 0))).
    2:{ intros l Hl. rewrite sum_mul_l. f_equal. now apply primitive_diff_sum. }
    rewrite (sum_single _ i); auto.
    + rewrite Nat.eqb_refl. field. auto.
    + intros l Hl Nl. apply Nat.eqb_neq in Nl. rewrite Nl. ring.
Qed.

End Das.
