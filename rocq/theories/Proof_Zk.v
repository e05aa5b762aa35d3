(** * Proof_Zk: the zkcrypto backend's transforms and polynomial arithmetic *)
From Coq Require Import List Arith Lia Bool NArith Field Ring.
From Verif Require Import Base Fld Poly Loops Model_Utils Proof_Utils Model_FFT Model_Das Spec Proof_FFT Model_Poly Proof_Poly1 Proof_Poly2
  Proof_Mcl Proof_MclPoly Model_Zk.
Import ListNotations.

(** ** the standard library's integer methods *)
Lemma std_is_pow2_eq n : std_is_pow2 n = negb (n =? 0)%nat && is_pow2 n.
Proof.
  unfold std_is_pow2. destruct (Nat.eqb_spec n 0) as [->|N0]; auto. cbn [negb andb].
  apply eq_true_iff_eq. rewrite N.eqb_eq, is_pow2_spec. split.
  - intros E. exists (N.to_nat (N.log2 (N.of_nat n))). apply Nat2N.inj.
    rewrite Nat2N.inj_pow, N2Nat.id. symmetry. exact E.
  - intros (k & ->). rewrite Nat2N.inj_pow. change (N.of_nat 2) with 2%N. rewrite N.log2_pow2 by lia. reflexivity.
Qed.

Lemma std_is_pow2_spec n : std_is_pow2 n = true <-> exists k, n = (2 ^ k)%nat.
Proof.
  rewrite std_is_pow2_eq, andb_true_iff, is_pow2_spec, negb_true_iff, Nat.eqb_neq. split; [tauto|].
  intros (k & ->). split; eauto. apply Nat.pow_nonzero. lia.
Qed.

Lemma std_next_pow2_min n k : (N.of_nat n <= 2 ^ 63)%N -> (n <= 2 ^ k)%nat -> (k = 0 \/ 2 ^ (k - 1) < n)%nat ->
  std_next_pow2 n = Ok (2 ^ k)%nat.
Proof.
  intros H1 L M. unfold std_next_pow2.
  assert (E : N.log2_up (N.of_nat n) = N.of_nat k).
  { destruct M as [->|M].
    - apply N.log2_up_eqn0. simpl in L. lia.
    - destruct k as [|k]; [simpl in *; apply N.log2_up_eqn0; lia|].
      rewrite Nat.sub_1_r in M. cbn [Nat.pred] in M.
      apply N.log2_up_unique; [lia|]. rewrite Nat2N.inj_succ, N.pred_succ. split.
      + change 2%N with (N.of_nat 2). rewrite <- Nat2N.inj_pow. lia.
      + rewrite <- Nat2N.inj_succ. change 2%N with (N.of_nat 2). rewrite <- Nat2N.inj_pow. lia. }
  rewrite E. destruct (N.leb_spec 64 (N.of_nat k)) as [C|C].
  - exfalso. assert (N.log2_up (N.of_nat n) <= 63)%N; [|lia].
    rewrite <- (N.log2_up_pow2 63) by lia. now apply N.log2_up_le_mono.
  - f_equal. apply Nat2N.inj. rewrite N2Nat.id, Nat2N.inj_pow. reflexivity.
Qed.

Lemma std_next_pow2_eq n : (0 < n)%nat -> (N.of_nat n <= 2 ^ 63)%N -> std_next_pow2 n = next_pow2 n.
Proof.
  intros H0 H1. destruct (next_pow2_spec n H0 H1) as (k & -> & L & M).
  apply std_next_pow2_min; auto. destruct k as [|k]; auto. right.
  rewrite Nat.sub_1_r. cbn [Nat.pred]. apply Nat.nle_gt. intros C. apply M in C. lia.
Qed.

Ltac inv_binds := repeat match goal with
  | H : bind _ _ = Ok _ |- _ => apply bind_inv in H as (? & ? & ?)
  | H : upd _ _ _ = Ok _ |- _ => apply upd_len in H
  end.

Section P.
Context {K : fld}.
Add Field Kfzk : (fld_field K).
Local Open Scope fld_scope.
Hypothesis H2 : fnat 2 <> (0:K).
Variable table : list K.

Lemma zkf_inverse_ok (x : K) : x <> 0 -> zkf_inverse x = Ok (finv x).
Proof. intros H. unfold zkf_inverse. apply feqb_false in H. now rewrite H. Qed.

Lemma zkf_div_eq (x y : K) : zkf_div x y = fr_div x y.
Proof.
  unfold zkf_div, fr_div. destruct (feqb y 0) eqn:E.
  - apply feqb_spec in E. subst. f_equal. rewrite finv0. ring.
  - apply feqb_false in E. now rewrite zkf_inverse_ok.
Qed.

Lemma fnat_pow2_neq_0 m : fnat (2 ^ m) <> (0:K).
Proof. rewrite fnat_pow. now apply fpow_neq_0. Qed.

(** ** transforms *)
Lemma fft_g1_fast_len {M : gmod K} fuel : forall (ret data o : list M) stride roots rs,
  fft_g1_fast_ fuel ret data stride roots rs = Ok o -> length o = length ret.
Proof.
  induction fuel; intros ret data o stride roots rs E; [discriminate|]. cbn [fft_g1_fast_] in E.
  destruct (_ <? _)%nat.
  - apply bind_inv in E as (lo & E1 & E). apply bind_inv in E as (d' & E2 & E). apply bind_inv in E as (hi & E3 & E).
    apply IHfuel in E1, E3. unfold for_range in E. apply for_len in E; [|intros; inv_binds; lia].
    rewrite E, app_length, E1, E3, <- app_length. now rewrite firstn_skipn.
  - inv_binds. lia.
Qed.

Theorem zk_fft_g1_eq {M : gmod K} s (data : list M) inverse : zk_fft_g1 s data inverse = fft_g1 s data inverse.
Proof.
  unfold zk_fft_g1, fft_g1, zk_is_pow2. destruct (_ <? _)%nat; auto.
  destruct (is_pow2 (length data)) eqn:P; cbn [negb]; auto. apply is_pow2_spec in P as (m & P).
  destruct (fft_g1_fast _ _ _ _ _) as [o| | |] eqn:E; cbn [bind]; auto. destruct inverse; auto.
  unfold fft_g1_fast in E. apply fft_g1_fast_len in E. rewrite repeat_length in E.
  rewrite zkf_inverse_ok by (rewrite P; apply fnat_pow2_neq_0). cbn [bind].
  rewrite slice_ok by lia. cbn [bind]. rewrite firstn_all2 by lia. rewrite skipn_all2 by lia. now rewrite app_nil_r.
Qed.

Theorem zk_fft_fr_eq s (data : list K) inverse : zk_fft_fr s data inverse = fft_fr s data inverse.
Proof.
  unfold zk_fft_fr, fft_fr, zk_is_pow2. destruct (_ <? _)%nat; auto.
  destruct (is_pow2 (length data)) eqn:P; cbn [negb]; auto. apply is_pow2_spec in P as (m & P).
  destruct (fft_fr_fast _ _ _ _ _) as [o| | |] eqn:E; cbn [bind]; auto. destruct inverse; auto.
  unfold fft_fr_fast in E. rewrite fft_fr_fast_self in E. apply (fft_g1_fast_len (M := self_mod K)) in E.
  change (gcar K (self_mod K)) with (car K) in E. rewrite repeat_length in E.
  rewrite zkf_inverse_ok by (rewrite P; apply fnat_pow2_neq_0). cbn [bind].
  rewrite slice_ok by lia. cbn [bind]. rewrite firstn_all2 by lia. rewrite skipn_all2 by lia. now rewrite app_nil_r.
Qed.

Theorem zk_das_eq s (val : list K) : zk_das_fft_extension s val = das_fft_extension s val.
Proof.
  unfold zk_das_fft_extension, das_fft_extension. rewrite std_is_pow2_eq.
  destruct (Nat.eqb_spec (length val) 0); auto. cbn [negb andb].
  destruct (is_pow2 (length val)) eqn:P; cbn [negb]; auto. apply is_pow2_spec in P as (m & P).
  destruct (_ <? _)%nat; auto.
  unfold das_fft_extension_stride.
  destruct (das_stride_ _ _ val _) as [o| | |] eqn:E; cbn [bind]; auto.
  apply das_stride_len in E.
  rewrite zkf_inverse_ok by (rewrite P; apply fnat_pow2_neq_0). cbn [bind].
  change (das_stride_ (S (length (@nil K))) s [] (max_width s / (length val * 2))) with (Ok (@nil K)). cbn [bind].
  rewrite (for_range_ext _ (fun i l => Ok (l ++ [fmul (nth i o 0) (finv (fnat (length val)))]))).
  2:{ intros i l Hi. rewrite (idx_ok o i 0) by lia. reflexivity. }
  rewrite (push_loop (fun i => fmul (nth i o 0) (finv (fnat (length val))))).
  f_equal. rewrite E. symmetry. apply (nth_ext' (0:K)).
  - rewrite map_length, length_map_seq. auto.
  - rewrite map_length. intros i Hi. rewrite nth_map_seq by lia.
    set (g := fun f : K => f * finv (fnat (length val))).
    rewrite (nth_indep _ 0 (g 0)) by (rewrite map_length; lia). now rewrite (map_nth g).
Qed.

(** ** padding, flipping *)
Lemma zk_pad_spec (p : list K) n : zk_pad p n = Ok (map (coef p) (seq 0 n)).
Proof.
  unfold zk_pad, zk_min_u64. rewrite min_u64_min. rewrite !slice_ok by (try rewrite repeat_length; lia). cbn [bind skipn].
  f_equal. rewrite Nat.sub_0_r. apply (nth_ext' (0:K)).
  - rewrite app_length, firstn_length, skipn_length, repeat_length, length_map_seq. lia.
  - intros i Hi. rewrite app_length, firstn_length, skipn_length, repeat_length in Hi.
    rewrite nth_map_seq by lia. change (coef p i) with (nth i p 0).
    destruct (Nat.lt_ge_cases i (Nat.min (length p) n)).
    + rewrite app_nth1 by (rewrite firstn_length; lia). apply nth_firstn'. lia.
    + rewrite app_nth2 by (rewrite firstn_length; lia).
      rewrite nth_overflow with (l := p) by lia.
      change (coef (skipn (Nat.min (length p) n) (repeat (0:K) n)) (i - length (firstn (Nat.min (length p) n) p)) = 0).
      rewrite coef_skipn. apply coef_repeat0.
Qed.

Lemma zk_pad_eq (p : list K) n : zk_pad p n = poly_pad p n.
Proof. now rewrite zk_pad_spec, poly_pad_spec. Qed.

Lemma zk_pad__eq (p : list K) n : zk_pad_ p n = Ok (map (coef p) (seq 0 n)).
Proof. apply poly_pad_spec. Qed.

Lemma zk_poly_flip_spec (p : list K) : zk_poly_flip p = Ok (rev p).
Proof.
  unfold zk_poly_flip. set (n := length p).
  destruct (for_range_inv (fun t l => length l = n /\ forall i, (i < n)%nat -> (n <= i + t)%nat -> nth i l 0 = nth (n - 1 - i) p 0)
    (fun i ret => let* a := usub n i in let* a := usub a 1 in let* c := idx p i in upd ret a c) 0 n (repeat 0 n))
    as (l & E & L & H).
  - lia.
  - split; [apply repeat_length|]. intros. lia.
  - intros t l Ht (L & H). rewrite !usub_ok by lia. cbn [bind]. rewrite usub_ok by lia. cbn [bind].
    rewrite (idx_ok p t 0) by (unfold n in *; lia). cbn [bind]. rewrite upd_ok by lia.
    eexists. split; [reflexivity|]. split; [now rewrite set_length|]. intros i Hi Hn.
    rewrite nth_set by lia. destruct (Nat.eqb_spec i (n - t - 1)) as [->|Ni].
    + f_equal. lia.
    + apply H; lia.
  - rewrite E. f_equal. apply (nth_ext' (0:K)).
    + now rewrite rev_length.
    + intros i Hi. rewrite H by lia. rewrite rev_nth by (unfold n in *; lia). f_equal. unfold n. lia.
Qed.

(** ** multiplication *)
Lemma zk_poly_mul_fft_eq out (a b : list K) : zk_poly_mul_fft table out a b = mul_fft table a b out.
Proof.
  unfold zk_poly_mul_fft, mul_fft, zk_next_pow2, zk_log2_pow2, zk_fft_settings_new, zk_min_u64.
  destruct (usub _ _); cbn [bind]; auto. destruct (next_pow2 _) as [len| | |]; cbn [bind]; auto.
  destruct (unwrap _) as [fs| | |]; cbn [bind]; auto.
  rewrite !zk_pad_eq. destruct (poly_pad a len) as [pa| | |]; cbn [bind]; auto. destruct (poly_pad b len) as [pb| | |]; cbn [bind]; auto.
  rewrite zk_fft_fr_eq. destruct (unwrap (fft_fr fs pa false)) as [fa| | |]; cbn [bind]; auto.
  rewrite zk_fft_fr_eq. destruct (unwrap (fft_fr fs pb false)) as [fb| | |]; cbn [bind]; auto.
  rewrite (for_range_ext _ (fun i ab => let* x := idx fa i in let* y := idx fb i in upd ab i (fmul x y))).
  - destruct (for_range _ _ _ _); cbn [bind]; auto. now rewrite zk_fft_fr_eq.
  - intros i l1 Hi. destruct (idx fa i) as [x| | |]; cbn [bind]; auto. destruct (idx fb i) as [y| | |]; cbn [bind]; auto.
    destruct (upd _ _ _); cbn [bind]; auto.
    replace (x * y) with (y * x) by ring. rewrite feqb_refl. reflexivity.
Qed.

Lemma zk_poly_mul_eq (a b : list K) n : zk_poly_mul table a b n = poly_mul table a b n.
Proof. unfold zk_poly_mul, poly_mul, zk_mul_direct. now rewrite zk_poly_mul_fft_eq. Qed.

(** ** inverse *)
Lemma zk_inverse_round_eq p n maxd st : zk_inverse_round table p n maxd st = inverse_round table p n maxd st.
Proof.
  unfold zk_inverse_round, inverse_round, zk_min_u64. destruct st as [[d mask] ret].
  destruct (usub _ _); cbn [bind]; auto. rewrite zk_poly_mul_eq.
  destruct (unwrap _); cbn [bind]; auto. destruct (for_range _ _ _ _); cbn [bind]; auto.
  destruct (idx _ _); cbn [bind]; auto. destruct (upd _ _ _); cbn [bind]; auto. now rewrite zk_poly_mul_eq.
Qed.

Theorem zk_poly_inverse_eq p n : n <> 0%nat -> zk_poly_inverse table p n = poly_inverse table p n.
Proof.
  intros Hn. unfold zk_poly_inverse, poly_inverse. destruct (Nat.eqb_spec n 0); [contradiction|].
  destruct (_ =? _)%nat; [reflexivity|]. destruct (idx p 0) as [c0| | |]; cbn [bind]; [|reflexivity..].
  destruct (feqb c0 0) eqn:Z; [reflexivity|]. apply feqb_false in Z. rewrite zkf_inverse_ok by auto. cbn [bind].
  destruct (_ =? _)%nat; [reflexivity|]. rewrite usub_ok by lia. cbn [bind].
  destruct (upd _ _ _); cbn [bind]; [|reflexivity..]. unfold zk_log2_u64. destruct (log2_u64 _); cbn [bind]; [|reflexivity..].
  rewrite (while_ext _ (fun st : nat * N * list K => negb (snd (fst st) =? 0)%N) _ (inverse_round table p n (n - 1))); [reflexivity|reflexivity|].
  intros; apply zk_inverse_round_eq.
Qed.

Theorem zk_poly_inverse_0 p : zk_poly_inverse table p 0 = if feqb (coef p 0) 0 then Err else Panic.
Proof.
  unfold zk_poly_inverse. destruct p as [|c p]; [cbn; now rewrite feqb_refl|].
  cbn [length Nat.eqb idx nth_error bind coef nth]. destruct (feqb c 0) eqn:Z; auto.
  apply feqb_false in Z. rewrite zkf_inverse_ok by auto. cbn [bind repeat].
  destruct (length p =? 0)%nat; auto.
Qed.

(** ** division *)
Lemma zk_long_div_step_eq (b : list K) n st : zk_long_div_step b n st = long_div_step b n st.
Proof.
  unfold zk_long_div_step, long_div_step. destruct st as [[[out a] diff] a_pos].
  destruct (idx _ _); cbn [bind]; auto. destruct (idx _ _); cbn [bind]; auto. now rewrite zkf_div_eq.
Qed.

Theorem zk_long_div_eq (a b : list K) : a <> [] -> coef b (length b - 1) <> 0 -> zk_long_div a b = long_div a b.
Proof.
  intros Ha Hb. unfold zk_long_div, long_div, zk_quotient_length, poly_quotient_length.
  assert (La : (0 < length a)%nat) by (destruct a; [congruence|simpl; lia]).
  destruct (Nat.eqb_spec (length b) 0); auto.
  rewrite (idx_ok b (length b - 1) 0) by lia. cbn [bind]. fold (coef b (length b - 1)).
  apply feqb_false in Hb. rewrite Hb. rewrite !usub_ok by lia. cbn [bind].
  destruct (Nat.leb_spec (length b) (length a)); [|reflexivity].
  destruct (_ =? 0)%nat; auto. rewrite usub_ok by lia. cbn [bind].
  rewrite (while_ext _ (fun st : list K * list K * nat * nat => (0 <? snd (fst st))%nat) _ (long_div_step b (length b - 1))); auto.
  2:{ intros. apply zk_long_div_step_eq. }
  destruct (while_ _ _ _ _) as [[[[out r] d] ap]| | |]; cbn [bind]; auto.
  destruct (idx _ _); cbn [bind]; auto. destruct (idx _ _); cbn [bind]; auto. now rewrite zkf_div_eq.
Qed.

(** an empty dividend: the subtraction 0 - 1 *)
Lemma zk_long_div_empty (b : list K) : zk_long_div [] b = if (length b =? 0)%nat then Err else Panic.
Proof. unfold zk_long_div. destruct (_ =? _)%nat; reflexivity. Qed.

(** a divisor whose last coefficient is zero: every quotient coefficient is computed as zero *)
Theorem zk_long_div_zero_lead (a b : list K) : a <> [] -> b <> [] -> coef b (length b - 1) = 0 ->
  zk_long_div a b = Ok (repeat 0 (poly_quotient_length a b)).
Proof.
  intros Ha Hb Z. unfold zk_long_div, zk_quotient_length, poly_quotient_length.
  assert (La : (0 < length a)%nat) by (destruct a; [congruence|simpl; lia]).
  assert (Lb : (0 < length b)%nat) by (destruct b; [congruence|simpl; lia]).
  destruct (Nat.eqb_spec (length b) 0); [lia|]. rewrite !usub_ok by lia. cbn [bind].
  destruct (Nat.leb_spec (length b) (length a)); [|reflexivity].
  destruct (Nat.eqb_spec (length a - length b + 1) 0); [lia|]. set (nq := (length a - length b + 1)%nat) in *.
  assert (Zd : forall x y : K, y = 0 -> unwrap (zkf_div x y) = Ok 0).
  { intros x y ->. unfold zkf_div. now rewrite feqb_refl. }
  assert (Zs : forall d, (d < nq)%nat -> set (repeat (0:K) nq) d 0 = repeat 0 nq).
  { intros d D. apply (nth_ext' (0:K)); [now rewrite set_length|]. intros i Hi. rewrite nth_set by (rewrite repeat_length; lia).
    rewrite nth_repeat_same. now destruct (i =? d)%nat. }
  destruct (while_inv (fun st : list K * list K * nat * nat => let '(out, r, d, ap) := st in
       out = repeat 0 nq /\ length r = length a /\ (d < nq)%nat /\ ap = (d + (length b - 1))%nat)
     (fun st => snd (fst st)) (fun st : list K * list K * nat * nat => (0 <? snd (fst st))%nat)
     (zk_long_div_step b (length b - 1)) (S (length a - 1 - (length b - 1)))
     (repeat 0 nq, a, (length a - 1 - (length b - 1))%nat, (length a - 1)%nat))
    as ([[[out r] d] ap] & E & (-> & Lr & Hd & ->) & C).
  - repeat split; unfold nq; lia.
  - cbn [fst snd]. lia.
  - intros [[[out r] d] ap] (-> & Lr & Hd & ->) C. cbn [fst snd] in *. apply Nat.ltb_lt in C.
    unfold zk_long_div_step. rewrite (idx_ok r _ 0) by (unfold nq in *; lia). cbn [bind].
    rewrite (idx_ok b _ 0) by lia. cbn [bind]. rewrite Zd by exact Z. cbn [bind].
    rewrite upd_ok by (rewrite repeat_length; lia). cbn [bind]. rewrite Zs by auto.
    rewrite (idx_ok _ d 0) by (rewrite repeat_length; lia). cbn [bind].
    destruct (long_div_inner_spec b d (nth d (repeat 0 nq) 0) r) as (r' & -> & Lr' & _); [unfold nq in *; lia..|].
    cbn [bind]. rewrite !usub_ok by lia. cbn [bind].
    eexists. split; [reflexivity|]. repeat split; cbn [fst snd]; lia.
  - rewrite E. cbn [bind]. cbn [fst snd] in C. apply Nat.ltb_ge in C.
    rewrite (idx_ok r _ 0) by (unfold nq in *; lia). cbn [bind]. rewrite (idx_ok b _ 0) by lia. cbn [bind].
    rewrite Zd by exact Z. cbn [bind]. rewrite upd_ok by (rewrite repeat_length; lia). rewrite Zs by (unfold nq; lia). reflexivity.
Qed.

Theorem zk_fast_div_eq (a b : list K) : coef b (length b - 1) <> 0 -> zk_fast_div table a b = fast_div table a b.
Proof.
  intros Hb. unfold zk_fast_div, fast_div. destruct (Nat.eqb_spec (length b) 0); auto.
  rewrite (idx_ok b (length b - 1) 0) by lia. cbn [bind]. fold (coef b (length b - 1)).
  apply feqb_false in Hb. rewrite Hb. destruct (usub (length a) 1) as [m| | |]; cbn [bind]; auto.
  rewrite usub_ok by lia. cbn [bind]. destruct (_ <? _)%nat; auto. destruct (_ =? _)%nat.
  - apply for_range_ext. intros i l Hi. destruct (idx a i); cbn [bind]; auto. destruct (idx b 0); cbn [bind]; auto.
    now rewrite zkf_div_eq.
  - rewrite !zk_poly_flip_spec, !poly_flip_spec. cbn [unwrap bind].
    rewrite zk_poly_inverse_eq by lia. destruct (unwrap (poly_inverse _ _ _)); cbn [bind]; auto.
    rewrite zk_poly_mul_eq. destruct (unwrap (poly_mul _ _ _ _)); cbn [bind]; auto.
    now rewrite zk_poly_flip_spec, poly_flip_spec.
Qed.

Theorem zk_fast_div_zero_lead (a b : list K) : (2 <= length b <= length a)%nat -> coef b (length b - 1) = 0 ->
  zk_fast_div table a b = Panic.
Proof.
  intros L Z. unfold zk_fast_div. destruct (Nat.eqb_spec (length b) 0); [lia|]. rewrite !usub_ok by lia. cbn [bind].
  destruct (Nat.ltb_spec (length a - 1) (length b - 1)); [lia|]. destruct (Nat.eqb_spec (length b) 1); [lia|].
  rewrite !zk_poly_flip_spec. cbn [unwrap bind]. rewrite zk_poly_inverse_eq by lia.
  rewrite poly_inverse_errors; auto. right. right. rewrite coef_rev by lia. rewrite Nat.sub_0_r. exact Z.
Qed.

(** ** normal forms and Ruffini's rule *)
Lemma zk_truncate_spec (p : list K) :
  exists q, zk_truncate p = Ok q /\ (exists z, p = q ++ repeat 0 z) /\ (q = [] \/ last q 0 <> 0).
Proof.
  unfold zk_truncate.
  destruct (while_inv (fun l => exists z, p = l ++ repeat 0 z) (@length K)
    (fun l => match l with [] => false | _ => feqb (last l 0) 0 end) (fun l => Ok (removelast l)) (S (length p)) p)
    as (q & E & H & C).
  - exists 0%nat. now rewrite app_nil_r.
  - lia.
  - intros l (z & ->) C. destruct l as [|x l0] eqn:El; [discriminate|]. rewrite <- El in *.
    assert (Nl : l <> []) by (rewrite El; discriminate). clear El x l0. apply feqb_spec in C.
    eexists. split; [reflexivity|]. pose proof (app_removelast_last (0:K) Nl) as A. rewrite C in A. split.
    + exists (S z). cbn [repeat]. rewrite A at 1. now rewrite <- app_assoc.
    + rewrite A at 2. rewrite app_length. cbn [length]. lia.
  - exists q. split; [exact E|]. split; [exact H|]. destruct q as [|x q]; auto. right. now apply feqb_false.
Qed.

Lemma coef_pad_r (q : list K) z i : coef (q ++ repeat 0 z) i = coef q i.
Proof.
  rewrite coef_app. destruct (Nat.ltb_spec i (length q)); auto. rewrite coef_repeat0, coef_over; auto.
Qed.

Lemma norm_unique (p q q' : list K) z z' : p = q ++ repeat 0 z -> p = q' ++ repeat 0 z' ->
  (q = [] \/ last q 0 <> 0) -> (q' = [] \/ last q' 0 <> 0) -> q = q'.
Proof.
  intros E E' N N'.
  assert (L : forall a b : list K, (forall i, coef a i = coef b i) -> (b = [] \/ last b 0 <> 0) -> (length b <= length a)%nat).
  { intros a b H [->|Hb]; [simpl; lia|]. assert (Nb : b <> []) by (intros ->; apply Hb; reflexivity).
    apply Nat.nlt_ge. intros C. apply Hb. rewrite <- coef_last by auto. rewrite <- H. apply coef_over. lia. }
  assert (C : forall i, coef q i = coef q' i).
  { intros i. rewrite <- (coef_pad_r q z), <- (coef_pad_r q' z'). now rewrite <- E, <- E'. }
  apply coef_ext; [|auto]. apply Nat.le_antisymm; apply L; auto.
Qed.

Lemma zk_from_coefficients_eq (p : list K) : zk_from_coefficients p = zk_truncate p /\ zk_truncate p = poly_norm p.
Proof.
  destruct (zk_truncate_spec p) as (q & E & (z & Ez) & N). split.
  - unfold zk_from_coefficients. rewrite E. cbn [bind].
    destruct q as [|x q]; auto. destruct N as [|N]; [discriminate|]. apply feqb_false in N. rewrite N. reflexivity.
  - destruct (poly_norm_spec p) as (q' & E' & (z' & Ez') & N'). rewrite E, E'. f_equal. eapply norm_unique; eauto.
Qed.

Lemma zk_is_zero_spec (p : list K) : zk_is_zero p = true <-> forall i, coef p i = 0.
Proof.
  unfold zk_is_zero. rewrite orb_true_iff, Nat.eqb_eq, forallb_forall. split.
  - intros H i. destruct (Nat.lt_ge_cases i (length p)); [|now apply coef_over].
    destruct H as [H|H]; [lia|]. apply feqb_spec. apply H. now apply nth_In.
  - intros H. right. intros x Hx. apply (In_nth _ _ (0:K)) in Hx as (i & _ & <-). apply feqb_spec. apply H.
Qed.

Theorem zk_degree_spec (p : list K) :
  ((forall i, coef p i = 0) -> zk_degree p = Ok 0%nat) /\
  (last p 0 <> 0 -> zk_degree p = Ok (length p - 1)%nat) /\
  (last p 0 = 0 -> (exists i, coef p i <> 0) -> zk_degree p = Panic).
Proof.
  unfold zk_degree. split; [|split].
  - intros H. apply zk_is_zero_spec in H. now rewrite H.
  - intros H. assert (Np : p <> []) by (intros ->; apply H; reflexivity).
    assert (Lp : (0 < length p)%nat) by (destruct p; [congruence|simpl; lia]).
    destruct (zk_is_zero p) eqn:Z.
    + apply zk_is_zero_spec with (i := (length p - 1)%nat) in Z. rewrite coef_last in Z by auto. contradiction.
    + destruct p as [|c p0]; [congruence|]. apply feqb_false in H. rewrite H. cbn [negb assert bind]. apply usub_ok. lia.
  - intros H (i & Hi). destruct (zk_is_zero p) eqn:Z.
    + rewrite zk_is_zero_spec in Z. now destruct (Hi (Z i)).
    + destruct p as [|c p0]; auto. rewrite H, feqb_refl. reflexivity.
Qed.

Lemma peval_skipn (p : list K) z i : peval (skipn i p) z = coef p i + z * peval (skipn (S i) p) z.
Proof.
  revert i. induction p as [|c p IH]; intros i.
  - rewrite !skipn_nil, coef_nil. simpl. ring.
  - destruct i; [reflexivity|]. rewrite coef_cons_S. cbn [skipn]. apply IH.
Qed.

Lemma ruffini_loop (p : list K) z :
  for_range 0 (length p) (fun i (st : list K * K) =>
      let (quotient, k) := st in
      let* coeff := idx (rev p) i in
      let t := fadd coeff k in
      Ok (quotient ++ [t], fmul z t)) ([], 0) =
  Ok (map (fun j => peval (skipn (length p - 1 - j) p) z) (seq 0 (length p)), z * peval p z).
Proof.
  destruct (for_range_inv (fun t (st : list K * K) =>
     st = (map (fun j => peval (skipn (length p - 1 - j) p) z) (seq 0 t), z * peval (skipn (length p - t) p) z))
    (fun i (st : list K * K) =>
      let (quotient, k) := st in
      let* coeff := idx (rev p) i in
      let t := fadd coeff k in
      Ok (quotient ++ [t], fmul z t)) 0 (length p) ([], 0)) as (st & E & H).
  - lia.
  - rewrite Nat.sub_0_r, skipn_all. cbn [seq map peval]. f_equal. ring.
  - intros t st Ht ->. cbn beta iota. rewrite (idx_ok (rev p) t 0) by (rewrite rev_length; lia). cbn [bind].
    rewrite rev_nth by lia. eexists. split; [reflexivity|].
    rewrite seq_S, map_app. cbn [map Nat.add].
    assert (Q : nth (length p - S t) p 0 + z * peval (skipn (length p - t) p) z = peval (skipn (length p - 1 - t) p) z).
    { rewrite (peval_skipn p z (length p - 1 - t)). replace (S (length p - 1 - t)) with (length p - t)%nat by lia. unfold coef.
      replace (length p - 1 - t)%nat with (length p - S t)%nat by lia. reflexivity. }
    rewrite Q. replace (length p - S t)%nat with (length p - 1 - t)%nat by lia. reflexivity.
  - rewrite E, H, Nat.sub_diag. reflexivity.
Qed.

Theorem zk_ruffini_spec (p : list K) z : last p 0 <> 0 \/ (forall i, coef p i = 0) ->
  exists q, zk_ruffini p z = Ok q /\ (q = [] \/ last q 0 <> 0) /\
    coef p 0 = peval p z - z * coef q 0 /\ (forall k, coef p (S k) = coef q k - z * coef q (S k)).
Proof.
  intros H. unfold zk_ruffini. destruct (zk_degree_spec p) as (D1 & D2 & _).
  assert (D : exists d, zk_degree p = Ok d) by (destruct H as [H|H]; eauto). destruct D as (d & ->). cbn [bind].
  rewrite ruffini_loop. cbn [bind].
  set (Q := rev (removelast _)).
  assert (HQ : forall i, coef Q i = peval (skipn (S i) p) z).
  { intros i. unfold Q. destruct (length p) as [|n] eqn:L.
    - destruct p; [|discriminate]. cbn [seq map removelast rev]. rewrite coef_nil, skipn_nil. reflexivity.
    - rewrite seq_S, map_app. cbn [map]. rewrite removelast_last.
      destruct (Nat.lt_ge_cases i n) as [C|C].
      + rewrite coef_rev by (rewrite length_map_seq; lia). rewrite length_map_seq. unfold coef. rewrite nth_map_seq by lia.
        f_equal. f_equal. lia.
      + rewrite coef_over by (rewrite rev_length, length_map_seq; lia). rewrite skipn_all2 by lia. reflexivity. }
  destruct (zk_from_coefficients_eq Q) as (-> & _).
  destruct (zk_truncate_spec Q) as (q & E & (zz & Ez) & N). exists q. split; [exact E|]. split; [exact N|].
  assert (Hq : forall i, coef q i = peval (skipn (S i) p) z) by (intros i; rewrite <- HQ, Ez; symmetry; apply coef_pad_r).
  split.
  - rewrite Hq. pose proof (peval_skipn p z 0) as A. change (skipn 0 p) with p in A. rewrite A. ring.
  - intros k. rewrite !Hq. rewrite (peval_skipn p z (S k)). ring.
Qed.

Theorem zk_ruffini_panics (p : list K) z : last p 0 = 0 -> (exists i, coef p i <> 0) -> zk_ruffini p z = Panic.
Proof. intros H E. unfold zk_ruffini. now rewrite (proj2 (proj2 (zk_degree_spec p))). Qed.

(** ** scaling *)
Lemma zk_poly_scale_eq (p : list K) : fnat 5 <> (0:K) -> zk_poly_scale p = poly_scale p.
Proof. intros H. unfold zk_poly_scale, poly_scale. now rewrite zkf_inverse_ok. Qed.

(** ** the division of the trait: zero coefficients at the top are ignored *)
Hypothesis HT32 : length table = 32%nat.
Hypothesis HT : table_ok table.

Theorem zk_poly_div_spec (a b : list K) : fits (2 * length a) ->
  ((forall i, coef b i = 0) -> zk_poly_div table a b = Err) /\
  ((exists i, coef b i <> 0) -> (forall i, coef a i = 0) -> zk_poly_div table a b = Panic) /\
  ((exists i, coef b i <> 0) -> (exists i, coef a i <> 0) -> exists a' b' q, zk_poly_div table a b = Ok q /\
     (exists z, a = a' ++ repeat 0 z) /\ (exists z, b = b' ++ repeat 0 z) /\
     last a' 0 <> 0 /\ last b' 0 <> 0 /\ euclid a' b' q).
Proof.
  intros F. unfold zk_poly_div, zk_poly_norm.
  destruct (poly_norm_spec a) as (a' & -> & (za & Ea) & Ha'). destruct (poly_norm_spec b) as (b' & -> & (zb & Eb) & Hb').
  cbn [unwrap bind].
  assert (Z : forall p p' z, p = p' ++ repeat (0:K) z -> (p' = [] \/ last p' 0 <> 0) -> (forall i, coef p i = 0) -> p' = []).
  { intros p p' z -> [|H] Hz; auto. destruct p' as [|x p0] eqn:E; auto. rewrite <- E in *. exfalso. apply H.
    rewrite <- coef_last by (rewrite E; discriminate). rewrite <- (coef_pad_r p' z). apply Hz. }
  assert (NZ : forall p p' z, p = p' ++ repeat (0:K) z -> (exists i, coef p i <> 0) -> p' <> []).
  { intros p p' z -> (i & H) ->. apply H. rewrite coef_pad_r. apply coef_nil. }
  split; [|split].
  - intros H. rewrite (Z b b' zb) by auto. cbn [length]. rewrite orb_true_r. reflexivity.
  - intros H H'. rewrite (Z a a' za) by auto. cbn [length Nat.leb orb]. rewrite zk_long_div_empty.
    apply (NZ b b' zb) in H; auto. destruct b'; [congruence|reflexivity].
  - intros H H'. apply (NZ b b' zb) in H; auto. apply (NZ a a' za) in H'; auto.
    destruct Ha' as [|Ha']; [contradiction|]. destruct Hb' as [|Hb']; [contradiction|].
    pose proof Hb' as Hb2. rewrite <- coef_last in Hb2 by auto.
    destruct (long_div_spec a' b' H Hb2) as (q & Eq & Hq).
    destruct (fast_div_spec table HT HT32 a' b') as (q' & Eq' & Hq'); auto.
    { unfold fits in *. etransitivity; [|exact F]. rewrite Ea, app_length. lia. }
    exists a', b', q. split.
    + destruct (_ || _).
      * rewrite zk_long_div_eq; auto.
      * rewrite zk_fast_div_eq; auto. rewrite Eq'. f_equal. exact (euclid_fun a' b' q' q H Hb2 Hq' Hq).
    + repeat split; eauto. all: apply Hq.
Qed.
End P.
