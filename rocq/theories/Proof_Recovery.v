(** * Proof_Recovery: erasure recovery, over an arbitrary field *)
From Coq Require Import List Arith Lia Bool NArith Ring Field.
From Verif Require Import Base Fld Poly Loops Model_Utils Proof_Utils Model_FFT Spec Proof_FFT.
From Verif Require Import Model_Poly Model_ZeroPoly Proof_Zero1 Proof_Zero2 Proof_Zero3 Proof_Zero4 Model_Recovery.
Import ListNotations.

(** ** generic list and loop facts *)
Lemma push_loop {A} (body : nat -> list A -> res (list A)) (f : nat -> A) n :
  (forall i l, i < n -> body i l = Ok (l ++ [f i])) -> for_range 0 n body [] = Ok (map f (seq 0 n)).
Proof.
  intros H. destruct (for_range_inv (fun t l => l = map f (seq 0 t)) body 0 n []) as (l & E & ->); auto; [lia|].
  intros j t Hj ->. rewrite H by lia. eexists. split; [reflexivity|]. rewrite seq_S, map_app. reflexivity.
Qed.

Lemma check_loop (body : nat -> unit -> res unit) n :
  (forall i, i < n -> body i tt = Ok tt) -> for_range 0 n body tt = Ok tt.
Proof.
  intros H. destruct (for_range_inv (fun _ _ => True) body 0 n tt) as ([] & E & _); auto; [lia|].
  intros j [] Hj _. exists tt. split; auto. apply H. lia.
Qed.

Lemma check_loop_inv (body : nat -> unit -> res unit) n u :
  for_range 0 n body tt = Ok u -> forall i, i < n -> body i tt = Ok tt.
Proof.
  unfold for_range. rewrite Nat.sub_0_r. intros H i Hi.
  replace n with (i + Datatypes.S (n - i - 1)) in H by lia. rewrite for_app in H.
  destruct (for_ i 0 body tt) as [[]| | |]; try discriminate. cbn [bind for_ Nat.add] in H.
  destruct (body i tt) as [[]| | |]; try discriminate. reflexivity.
Qed.

Lemma check_loop_panic (body : nat -> unit -> res unit) n : 0 < n -> body 0 tt = Panic -> for_range 0 n body tt = Panic.
Proof. intros Hn H. unfold for_range. rewrite Nat.sub_0_r. destruct n; [lia|]. cbn [for_]. now rewrite H. Qed.

Lemma missing_aux {A} (f : A -> bool) d l : forall a,
  map fst (filter (fun p => f (snd p)) (combine (seq a (length l)) l)) = filter (fun i => f (nth (i - a) l d)) (seq a (length l)).
Proof.
  induction l as [|x l IH]; intros a; [reflexivity|]. cbn [length seq combine filter snd]. rewrite Nat.sub_diag. cbn [nth].
  assert (E : map fst (filter (fun p => f (snd p)) (combine (seq (S a) (length l)) l))
    = filter (fun i => f (nth (i - a) (x :: l) d)) (seq (S a) (length l))).
  { rewrite IH. apply filter_ext_in. intros i Hi. apply in_seq in Hi. replace (i - a) with (S (i - S a)) by lia. reflexivity. }
  destruct (f x); cbn [map fst]; now rewrite E.
Qed.

Lemma missing_spec {A} (f : A -> bool) d l : missing_positions f l = filter (fun i => f (nth i l d)) (seq 0 (length l)).
Proof.
  unfold missing_positions. rewrite (missing_aux f d). apply filter_ext. intros i. now rewrite Nat.sub_0_r.
Qed.

Lemma filter_split_length {A} (f : A -> bool) l : length (filter f l) + length (filter (fun x => negb (f x)) l) = length l.
Proof. induction l as [|x l IH]; [reflexivity|]. cbn [filter]. destruct (f x); cbn [negb length]; lia. Qed.

Section R.
Context {K : fld}.
Add Field Kfr : (fld_field K).
Local Open Scope fld_scope.

(** ** scaling with tables *)
Lemma factor_table_ok tl (c : K) : (0 < tl)%nat -> factor_table tl c = Ok (map (fpow c) (seq 0 tl)).
Proof.
  intros H. unfold factor_table.
  destruct (for_range_inv (fun t l => l = map (fpow c) (seq 0 t)) (fun i temp => let* x := idx temp (i - 1) in Ok (temp ++ [fmul x c]))
     1 tl [f1]) as (l & E & ->).
  - lia.
  - reflexivity.
  - intros j l Hj ->. rewrite (idx_ok _ _ 0) by (rewrite length_map_seq; lia). cbn [bind].
    rewrite nth_map_seq by lia. eexists. split; [reflexivity|]. rewrite seq_S, map_app. cbn [map Nat.add]. do 2 f_equal.
    replace j with (S (j - 1)) at 2 by lia. cbn [fpow]. ring.
  - exact E.
Qed.

Lemma apply_factors_ok tl (c : K) (p : list K) : (length p <= tl)%nat -> (0 < length p)%nat ->
  apply_factors (map (fpow c) (seq 0 tl)) p (length p) = Ok (map (fun i => nth i p 0 * c ^ i) (seq 0 (length p))).
Proof.
  intros H H0. unfold apply_factors.
  destruct (for_range_inv (fun t r => length r = length p /\
      forall i, (i < length p)%nat -> nth i r 0 = if (i <? t)%nat then nth i p 0 * c ^ i else nth i p 0)
    (fun i p => let* x := idx p i in let* f := idx (map (fpow c) (seq 0 tl)) i in upd p i (fmul x f)) 1 (length p) p)
    as (r & E & L & I).
  - lia.
  - split; auto. intros i Hi. destruct (Nat.ltb_spec i 1); auto. replace i with 0%nat by lia. cbn [fpow]. ring.
  - intros j r Hj (L & I). rewrite (idx_ok r j 0) by lia. cbn [bind].
    rewrite (idx_ok _ j 0) by (rewrite length_map_seq; lia). cbn [bind]. rewrite nth_map_seq by lia.
    rewrite upd_ok by lia. eexists. split; [reflexivity|]. split; [now rewrite set_length|].
    intros i Hi. destruct (Nat.eq_dec i j) as [->|N].
    + rewrite nth_set_same by lia. rewrite I by lia. destruct (Nat.ltb_spec j j); [lia|]. destruct (Nat.ltb_spec j (S j)); [auto|lia].
    + rewrite nth_set_other by lia. rewrite I by lia.
      destruct (Nat.ltb_spec i j), (Nat.ltb_spec i (S j)); auto; lia.
  - rewrite E. f_equal. apply (nth_ext' 0); [rewrite length_map_seq; lia|]. intros i Hi. rewrite I by lia.
    rewrite nth_map_seq by lia. destruct (Nat.ltb_spec i (length p)); auto; lia.
Qed.

Lemma apply_factors_nil tl (c : K) : apply_factors (map (fpow c) (seq 0 tl)) [] 0 = Ok [].
Proof. reflexivity. Qed.

Lemma scale_poly_spec tl (p : list K) : (0 < tl)%nat -> (length p <= tl)%nat ->
  scale_poly tl p (length p) = Ok (map (fun i => nth i p 0 * (finv (fnat 5)) ^ i) (seq 0 (length p))).
Proof.
  intros H0 H. unfold scale_poly. rewrite factor_table_ok by auto. cbn [bind].
  destruct p; [reflexivity|]. apply apply_factors_ok; auto. cbn [length]. lia.
Qed.
Lemma unscale_poly_spec tl (p : list K) : (0 < tl)%nat -> (length p <= tl)%nat ->
  unscale_poly tl p (length p) = Ok (map (fun i => nth i p 0 * (fnat 5) ^ i) (seq 0 (length p))).
Proof.
  intros H0 H. unfold unscale_poly. rewrite factor_table_ok by auto. cbn [bind].
  destruct p; [reflexivity|]. apply apply_factors_ok; auto. cbn [length]. lia.
Qed.

(** beyond the table the code indexes out of bounds *)
Lemma apply_factors_panic tl (c : K) (p : list K) : (0 < tl)%nat -> (tl < length p)%nat ->
  apply_factors (map (fpow c) (seq 0 tl)) p (length p) = Panic.
Proof.
  intros H0 H. unfold apply_factors, for_range.
  set (body := fun i p => let* x := idx p i in let* f := idx (map (fpow c) (seq 0 tl)) i in upd p i (fmul x f)).
  replace (length p - 1)%nat with ((tl - 1) + S (length p - tl - 1))%nat by lia. rewrite for_app.
  destruct (for_range_inv (fun t (r : list K) => length r = length p) body 1 tl p) as (r & E & L).
  - lia.
  - auto.
  - intros j r Hj L. unfold body. rewrite (idx_ok r j 0) by lia. cbn [bind].
    rewrite (idx_ok _ j 0) by (rewrite length_map_seq; lia). cbn [bind].
    rewrite upd_ok by lia. eexists. split; [reflexivity|]. now rewrite set_length.
  - unfold for_range in E. rewrite E. cbn [bind for_].
    replace (1 + (tl - 1))%nat with tl by lia. unfold body at 1. rewrite (idx_ok r tl 0) by lia. cbn [bind].
    rewrite idx_panic by (rewrite length_map_seq; lia). reflexivity.
Qed.

Lemma peval_geom0 (p : list K) (c x : K) :
  peval (map (fun i => nth i p 0 * c ^ i) (seq 0 (length p))) x = peval p (c * x).
Proof.
  rewrite (peval_sum_n _ _ (length p)) by (now rewrite length_map_seq).
  rewrite (peval_sum_n p _ (length p)) by auto. apply sum_ext. intros i Hi. rewrite coef_map_seq.
  destruct (Nat.ltb_spec i (length p)); [|lia]. unfold coef. rewrite fpow_mul_base. ring.
Qed.

Lemma table_unscale_scale tl (p : list K) : fnat 5 <> (0 : K) -> (0 < tl)%nat -> (length p <= tl)%nat ->
  (let* q := scale_poly tl p (length p) in unscale_poly tl q (length q)) = Ok p /\
  (let* q := unscale_poly tl p (length p) in scale_poly tl q (length q)) = Ok p.
Proof.
  intros H5 H0 H. rewrite scale_poly_spec, unscale_poly_spec by auto. cbn [bind].
  rewrite scale_poly_spec, unscale_poly_spec by (auto; rewrite length_map_seq; auto). rewrite length_map_seq.
  split; f_equal; apply (nth_ext' 0); rewrite ?length_map_seq; auto; intros i Hi; rewrite !nth_map_seq by auto.
  - transitivity (nth i p 0 * (finv (fnat 5) * fnat 5) ^ i); [rewrite fpow_mul_base; ring|].
    replace (finv (fnat 5) * fnat 5) with (1 : K) by (field; auto). rewrite fpow_1_l. ring.
  - transitivity (nth i p 0 * (finv (fnat 5) * fnat 5) ^ i); [rewrite fpow_mul_base; ring|].
    replace (finv (fnat 5) * fnat 5) with (1 : K) by (field; auto). rewrite fpow_1_l. ring.
Qed.

(** ** existence of an interpolating polynomial *)
Lemma interp_exists (pt y : nat -> K) (I : list nat) :
  NoDup I -> (forall i j, In i I -> In j I -> pt i = pt j -> i = j) ->
  exists p, length p = length I /\ forall i, In i I -> peval p (pt i) = y i.
Proof.
  induction I as [|a I IH]; intros ND INJ.
  - exists []. split; auto. intros i [].
  - inversion ND as [|? ? Hn ND']; subst. destruct IH as (p & L & H); auto.
    { intros i j Hi Hj. apply INJ; simpl; auto. }
    set (V := vanish_poly (map pt I)).
    assert (HV : vanish (map pt I) (pt a) <> 0).
    { intros E. apply vanish_0_iff, in_map_iff in E as (j & Ej & Hj). apply INJ in Ej; simpl; auto. subst; auto. }
    set (c := (y a - peval p (pt a)) * finv (vanish (map pt I) (pt a))).
    exists (map (fun j => coef p j + c * coef V j) (seq 0 (S (length I)))).
    split; [apply length_map_seq|].
    assert (PE : forall x, peval (map (fun j => coef p j + c * coef V j) (seq 0 (S (length I)))) x = peval p x + c * vanish (map pt I) x).
    { intros x. rewrite peval_map_seq. rewrite (peval_sum_n p x (S (length I))) by lia.
      rewrite <- vanish_poly_eval. fold V. rewrite (peval_sum_n V x (S (length I))) by (unfold V; rewrite vanish_poly_length, map_length; auto).
      rewrite <- sum_mul_l, <- sum_add. apply sum_ext. intros. ring. }
    intros i [<-|Hi]; rewrite PE.
    + unfold c. field. exact HV.
    + rewrite H by auto. replace (vanish (map pt I) (pt i)) with (0 : K); [ring|].
      symmetry. apply vanish_0_iff. apply in_map. exact Hi.
Qed.

Section Core.
Variables (s : fft_settings K) (ks : nat) (w : K) (m tl : nat).
Hypothesis HS : settings_ok s ks w.
Hypothesis Hm : (m <= ks)%nat.
Hypothesis Htl : (2 ^ m <= tl)%nat.
Hypothesis H5 : fnat 5 <> (0 : K).
Hypothesis H5n : (fnat 5 : K) ^ (2 ^ m) <> 1.
Notation n := (2 ^ m)%nat.
Notation wd := (w ^ (2 ^ (ks - m))).
Notation c := (finv (fnat 5) : K).

Let pr : primitive wd n.
Proof. apply (primitive_fold w ks m); auto. apply HS. Qed.
Let n0 : (0 < n)%nat.
Proof. apply pow2_pos. Qed.

Lemma domain_unique (p q : list K) : (length p <= n)%nat -> (length q <= n)%nat ->
  (forall i, (i < n)%nat -> peval p (wd ^ i) = peval q (wd ^ i)) -> forall i, coef p i = coef q i.
Proof.
  intros Lp Lq H. apply (interp_unique (map (fpow wd) (seq 0 n))).
  - apply primitive_NoDup, pr.
  - now rewrite length_map_seq.
  - now rewrite length_map_seq.
  - intros x Hx. apply in_map_iff in Hx as (i & <- & Hi). apply in_seq in Hi. apply H. lia.
Qed.

Lemma scaled_not_root i (rs : list K) : (forall r, In r rs -> r ^ n = 1) -> vanish rs (c * wd ^ i) <> 0.
Proof.
  intros HR E. apply vanish_0_iff in E. apply HR in E.
  rewrite fpow_mul_base in E. rewrite <- fpow_mul in E. rewrite (Nat.mul_comm i), fpow_mul in E.
  replace (wd ^ n) with (1 : K) in E by (symmetry; apply pr). rewrite fpow_1_l in E.
  apply H5n. replace ((fnat 5 : K) ^ n) with ((fnat 5 : K) ^ n * (c ^ n * 1)) by (rewrite E; ring).
  transitivity ((fnat 5 * c) ^ n); [rewrite fpow_mul_base; ring|].
  replace (fnat 5 * c) with (1 : K) by (field; auto). apply fpow_1_l.
Qed.

Lemma recover_core_spec (evals Z rs D : list K) :
  length evals = n -> length Z = n -> (forall j, coef Z j = coef (vanish_poly rs) j) ->
  (forall r, In r rs -> r ^ n = 1) -> (length D + length rs <= n)%nat ->
  (forall i, (i < n)%nat -> nth i evals 0 = peval D (wd ^ i) * vanish rs (wd ^ i)) ->
  recover_core tl s n evals Z = Ok (map (fun i => peval D (wd ^ i)) (seq 0 n)).
Proof.
  intros LE LZ CZ HR HD HE. unfold recover_core.
  destruct (ifft_fr_interpolates s ks w m evals HS Hm LE) as (P & EP & LP & HP).
  rewrite EP. cbn [unwrap bind].
  assert (PZ : forall x, peval Z x = vanish rs x).
  { intros x. rewrite <- vanish_poly_eval. now apply peval_ext. }
  assert (PD : forall x, peval P x = peval D x * vanish rs x).
  { intros x. rewrite <- vanish_poly_eval, <- peval_pmul. apply peval_ext. apply domain_unique.
    - lia.
    - rewrite pmul_length, vanish_poly_length. lia.
    - intros i Hi. rewrite HP by auto. rewrite HE by auto. now rewrite peval_pmul, vanish_poly_eval. }
  rewrite <- LP at 1. rewrite scale_poly_spec by lia. cbn [bind].
  rewrite scale_poly_spec by lia. cbn [bind].
  rewrite (fft_fr_spec s ks w m) by (auto; rewrite length_map_seq; auto). cbn [unwrap bind].
  rewrite (fft_fr_spec s ks w m) by (auto; rewrite length_map_seq; auto). cbn [unwrap bind].
  match goal with |- context [for_range 0 n ?bd ?l0] =>
    assert (EL : for_range 0 n bd l0 = Ok (map (fun i => peval D (c * wd ^ i)) (seq 0 n))) end.
  { match goal with |- for_range 0 n ?bd ?l0 = _ =>
      rewrite (map_loop_all 0 n bd (fun i _ => peval D (c * wd ^ i)) l0) end.
    - reflexivity.
    - now rewrite length_map_seq.
    - intros i r Hi Lr. rewrite length_map_seq in Lr.
      rewrite !(idx_ok _ i 0) by (rewrite length_map_seq; auto). cbn [bind].
      rewrite !nth_map_seq by auto. rewrite !peval_geom0. rewrite PD, PZ.
      unfold fr_div. cbn [unwrap bind]. rewrite upd_ok by lia. f_equal. f_equal.
      assert (NZ := scaled_not_root i rs HR). field. exact NZ. }
  rewrite EL. cbn [bind].
  destruct (ifft_fr_interpolates s ks w m (map (fun i => peval D (c * wd ^ i)) (seq 0 n)) HS Hm ltac:(apply length_map_seq)) as (Q & EQ & LQ & HQ).
  rewrite EQ. cbn [unwrap bind].
  assert (CQ : forall i, coef Q i = coef (map (fun i => nth i D 0 * c ^ i) (seq 0 (length D))) i).
  { apply domain_unique; [lia|rewrite length_map_seq; lia|]. intros i Hi. rewrite HQ by auto.
    rewrite nth_map_seq by auto. now rewrite peval_geom0. }
  rewrite <- LQ at 1. rewrite unscale_poly_spec by lia. cbn [bind].
  rewrite (fft_fr_spec s ks w m) by (auto; rewrite length_map_seq; auto). cbn [unwrap].
  f_equal. apply map_ext. intros i. rewrite peval_geom0.
  rewrite (peval_ext _ _ _ CQ), peval_geom0. f_equal. field. exact H5.
Qed.
End Core.

(** ** the two entry points *)
Section Entry.
Variables (s : fft_settings K) (ks : nat) (w : K) (m tl : nat).
Hypothesis HS : settings_ok s ks w.
Hypothesis Hks : (ks < 32)%nat.
Hypothesis Hm : (m <= ks)%nat.
Hypothesis Htl : (2 ^ m <= tl)%nat.
Hypothesis H5 : fnat 5 <> (0 : K).
Hypothesis H5n : (fnat 5 : K) ^ (2 ^ m) <> 1.
Notation n := (2 ^ m)%nat.
Notation wd := (w ^ (2 ^ (ks - m))).

(** positions at which [sm] has no value *)
Definition gaps (sm : nat -> option K) (n : nat) : list nat :=
  filter (fun i => match sm i with None => true | Some _ => false end) (seq 0 n).

Lemma in_gaps sm N i : In i (gaps sm N) <-> (i < N)%nat /\ sm i = None.
Proof.
  unfold gaps. rewrite filter_In, in_seq. split.
  - intros (A & B). split; [lia|]. destruct (sm i); auto; discriminate.
  - intros (A & ->). split; [lia|auto].
Qed.

Lemma gaps_forall sm N : Forall (fun i => (i < N)%nat) (gaps sm N).
Proof. apply Forall_forall. intros i Hi. now apply in_gaps in Hi. Qed.

Lemma pr' : primitive wd n.
Proof. apply (primitive_fold w ks m); auto. apply HS. Qed.

Lemma recover_interp (sm : nat -> option K) :
  exists D, (length D + length (gaps sm n) = n)%nat /\ forall i v, (i < n)%nat -> sm i = Some v -> peval D (wd ^ i) = v.
Proof.
  set (P := filter (fun i => negb (match sm i with None => true | Some _ => false end)) (seq 0 n)).
  destruct (interp_exists (fpow wd) (fun i => match sm i with Some v => v | None => 0 end) P) as (D & LD & HD).
  - apply NoDup_filter, seq_NoDup.
  - intros i j Hi Hj. apply filter_In in Hi as (Hi & _). apply filter_In in Hj as (Hj & _). apply in_seq in Hi. apply in_seq in Hj.
    apply (primitive_inj wd n); [apply pr'|lia|lia].
  - exists D. split.
    + rewrite LD. unfold P, gaps. assert (X := filter_split_length (fun i => match sm i with None => true | Some _ => false end) (seq 0 n)).
      rewrite seq_length in X. lia.
    + intros i v Hi E. rewrite HD; [now rewrite E|]. apply filter_In. rewrite E. split; [apply in_seq; lia|reflexivity].
Qed.

Section Fix.
Variable sm : nat -> option K.
Hypothesis Hu : (0 < length (gaps sm n) < n)%nat.
Hypothesis Hub : (length (gaps sm n) <= 63 * (n / 64 + 1))%nat.
Variable D : list K.
Hypothesis HD : (length D + length (gaps sm n) <= n)%nat.
Hypothesis HDv : forall i v, (i < n)%nat -> sm i = Some v -> peval D (wd ^ i) = v.
Notation rs := (map (fpow wd) (gaps sm n)).

Lemma gap_roots r : In r rs -> r ^ n = 1.
Proof.
  intros H. apply in_map_iff in H as (i & <- & _). rewrite <- fpow_mul, Nat.mul_comm, fpow_mul.
  destruct pr' as (E & _). rewrite E. apply fpow_1_l.
Qed.

Lemma zero_at i : (i < n)%nat -> (feqb (vanish rs (wd ^ i)) 0 = match sm i with None => true | Some _ => false end).
Proof.
  intros Hi. assert (Q := vanish_zero_iff wd n (gaps sm n) i pr' (gaps_forall sm n) Hi). rewrite in_gaps in Q.
  destruct (sm i) eqn:E.
  - destruct (feqb (vanish rs (wd ^ i)) 0) eqn:F; auto. apply feqb_spec in F. apply Q in F as (_ & F). congruence.
  - apply feqb_spec. apply Q. auto.
Qed.

Lemma evals_ok i : (i < n)%nat ->
  match sm i with None => 0 | Some v => v * vanish rs (wd ^ i) end = peval D (wd ^ i) * vanish rs (wd ^ i).
Proof.
  intros Hi. assert (Z := zero_at i Hi). destruct (sm i) eqn:E.
  - now rewrite (HDv i c).
  - apply feqb_spec in Z. rewrite Z. ring.
Qed.

Lemma core_ok (evals : list K) : length evals = n ->
  (forall i, (i < n)%nat -> nth i evals 0 = match sm i with None => 0 | Some v => v * vanish rs (wd ^ i) end) ->
  recover_core tl s n evals (map (coef (vanish_poly rs)) (seq 0 n)) = Ok (map (fun i => peval D (wd ^ i)) (seq 0 n)).
Proof.
  intros LE HE. apply (recover_core_spec s ks w m tl HS Hm Htl H5 H5n evals _ rs D); auto.
  - apply length_map_seq.
  - intros j. rewrite coef_map_seq. destruct (Nat.ltb_spec j n); auto. symmetry. apply coef_over. rewrite vanish_poly_length, map_length. lia.
  - apply gap_roots.
  - rewrite map_length. exact HD.
  - intros i Hi. rewrite HE by auto. now apply evals_ok.
Qed.

Lemma zp_ok : zero_poly_via_multiplication s n (gaps sm n)
  = Ok (map (fun i => vanish rs (wd ^ i)) (seq 0 n), map (coef (vanish_poly rs)) (seq 0 n)).
Proof.
  destruct Hu as (U0 & U1). exact (zero_poly_spec s ks w m (gaps sm n) HS Hks Hm U0 U1 Hub (gaps_forall sm n)).
Qed.
End Fix.

Theorem recover_opt_spec (samples : list (option K)) (D : list K) :
  length samples = n ->
  let sm := fun i => nth i samples None in
  (0 < length (gaps sm n) < n)%nat -> (length (gaps sm n) <= 63 * (n / 64 + 1))%nat ->
  (length D + length (gaps sm n) <= n)%nat ->
  (forall i v, (i < n)%nat -> sm i = Some v -> peval D (wd ^ i) = v) ->
  recover_opt tl s samples = Ok (map (fun i => peval D (wd ^ i)) (seq 0 n)).
Proof.
  intros L sm Hu Hub HD HDv. unfold recover_opt. rewrite L, is_pow2_pow. cbn [negb].
  rewrite (missing_spec _ None). rewrite L.
  assert (ZP := zp_ok sm Hu Hub). unfold gaps in ZP at 1. unfold sm in ZP at 1. rewrite ZP. cbn [unwrap bind].
  rewrite check_loop.
  2: { intros i Hi. rewrite (idx_ok samples i None) by lia. cbn [bind].
       rewrite (idx_ok _ i 0) by (rewrite length_map_seq; auto). cbn [bind]. rewrite nth_map_seq by auto.
       rewrite (zero_at sm) by auto. unfold sm. destruct (nth i samples None); reflexivity. }
  cbn [bind].
  rewrite (push_loop _ (fun i => match sm i with None => 0 | Some v => v * vanish (map (fpow wd) (gaps sm n)) (wd ^ i) end)).
  2: { intros i l Hi. rewrite (idx_ok samples i None) by lia. cbn [bind]. fold (sm i). destruct (sm i); auto.
       rewrite (idx_ok _ i 0) by (rewrite length_map_seq; auto). cbn [bind]. now rewrite nth_map_seq by auto. }
  cbn [bind].
  rewrite (core_ok sm Hu Hub D HD HDv) by (try apply length_map_seq; intros i Hi; now rewrite nth_map_seq by auto).
  cbn [bind]. rewrite check_loop; [reflexivity|].
  intros i Hi. rewrite (idx_ok samples i None) by lia. cbn [bind]. fold (sm i). destruct (sm i) eqn:E; auto.
  rewrite (idx_ok _ i 0) by (rewrite length_map_seq; auto). cbn [bind]. rewrite nth_map_seq by auto.
  rewrite (HDv i c) by auto. rewrite (proj2 (feqb_spec _ c c)) by auto. reflexivity.
Qed.

Theorem recover_null_spec (null : K) (samples : list K) (D : list K) :
  length samples = n ->
  let sm := fun i => if feqb (nth i samples null) null then None else Some (nth i samples null) in
  (0 < length (gaps sm n) < n)%nat -> (length (gaps sm n) <= 63 * (n / 64 + 1))%nat ->
  (length D + length (gaps sm n) <= n)%nat ->
  (forall i v, (i < n)%nat -> sm i = Some v -> peval D (wd ^ i) = v) ->
  recover_null null tl s samples n = Ok (map (fun i => peval D (wd ^ i)) (seq 0 n)).
Proof.
  intros L sm Hu Hub HD HDv. unfold recover_null. rewrite is_pow2_pow. cbn [negb].
  rewrite (missing_spec _ null). rewrite L.
  assert (EG : filter (fun i => feqb (nth i samples null) null) (seq 0 n) = gaps sm n).
  { unfold gaps, sm. apply filter_ext. intros i. destruct (feqb (nth i samples null) null); reflexivity. }
  rewrite EG. rewrite (zp_ok sm Hu Hub). cbn [unwrap bind].
  rewrite check_loop.
  2: { intros i Hi. rewrite (idx_ok samples i null) by lia. cbn [bind].
       rewrite (idx_ok _ i 0) by (rewrite length_map_seq; auto). cbn [bind]. rewrite nth_map_seq by auto.
       rewrite (zero_at sm) by auto. unfold sm. destruct (feqb (nth i samples null) null); reflexivity. }
  cbn [bind].
  rewrite (push_loop _ (fun i => match sm i with None => 0 | Some v => v * vanish (map (fpow wd) (gaps sm n)) (wd ^ i) end)).
  2: { intros i l Hi. rewrite (idx_ok samples i null) by lia. cbn [bind]. unfold sm. destruct (feqb (nth i samples null) null); auto.
       rewrite (idx_ok _ i 0) by (rewrite length_map_seq; auto). cbn [bind]. now rewrite nth_map_seq by auto. }
  cbn [bind]. rewrite length_map_seq.
  rewrite usub_ok by lia. cbn [bind].
  assert (NP : exists q, next_pow2 (n - 1) = Ok q).
  { destruct (next_pow2_spec (n - 1)) as (q & E & _); [lia| |eauto].
    assert (n <= 2 ^ 31)%nat by (apply Nat.pow_le_mono_r; lia).
    transitivity (N.of_nat n); [lia|]. rewrite N_of_pow2. apply N.pow_le_mono_r; lia. }
  destruct NP as (q & ->). cbn [bind].
  rewrite (core_ok sm Hu Hub D HD HDv) by (try apply length_map_seq; intros i Hi; now rewrite nth_map_seq by auto).
  cbn [bind]. rewrite check_loop; [reflexivity|].
  intros i Hi. rewrite (idx_ok samples i null) by lia. cbn [bind].
  assert (HV := HDv i). unfold sm in HV. destruct (feqb (nth i samples null) null); auto.
  rewrite (idx_ok _ i 0) by (rewrite length_map_seq; auto). cbn [bind]. rewrite nth_map_seq by auto.
  rewrite (HV _ Hi eq_refl). rewrite (proj2 (feqb_spec _ (nth i samples null) _)) by auto. reflexivity.
Qed.
End Entry.

(** ** partial correctness: a result never contradicts a given sample *)
Theorem recover_opt_agrees tl (s : fft_settings K) samples data :
  recover_opt tl s samples = Ok data ->
  forall i v, nth_error samples i = Some (Some v) -> nth_error data i = Some v.
Proof.
  unfold recover_opt. destruct (is_pow2 (length samples)); cbn [negb]; [|discriminate]. intros H.
  destruct (bind_inv _ _ _ H) as ((ze & zp) & _ & H1). clear H.
  destruct (bind_inv _ _ _ H1) as (u & _ & H). clear H1.
  destruct (bind_inv _ _ _ H) as (ev & _ & H1). clear H.
  destruct (bind_inv _ _ _ H1) as (d & _ & H). clear H1.
  destruct (bind_inv _ _ _ H) as (u' & HC & H1). clear H. injection H1 as <-.
  intros i v Hi. assert (Li : (i < length samples)%nat) by (apply nth_error_Some; congruence).
  assert (C := check_loop_inv _ _ _ HC i Li). cbv beta in C.
  unfold idx in C at 1. rewrite Hi in C. cbn [bind] in C.
  destruct (bind_inv _ _ _ C) as (x & Ex & Ea). unfold idx in Ex. destruct (nth_error d i); [|discriminate].
  injection Ex as ->. unfold assert in Ea. destruct (feqb x v) eqn:F; [|discriminate]. apply feqb_spec in F. now subst.
Qed.

Theorem recover_null_agrees null tl (s : fft_settings K) samples n data :
  recover_null null tl s samples n = Ok data ->
  forall i v, (i < n)%nat -> nth_error samples i = Some v -> v <> null -> nth_error data i = Some v.
Proof.
  unfold recover_null. destruct (is_pow2 n); cbn [negb]; [|discriminate]. intros H.
  destruct (bind_inv _ _ _ H) as ((ze & zp) & _ & H1). clear H.
  destruct (bind_inv _ _ _ H1) as (u & _ & H). clear H1.
  destruct (bind_inv _ _ _ H) as (ev & _ & H1). clear H.
  destruct (bind_inv _ _ _ H1) as (l1 & _ & H). clear H1.
  destruct (bind_inv _ _ _ H) as (l2 & _ & H1). clear H.
  destruct (bind_inv _ _ _ H1) as (d & _ & H). clear H1.
  destruct (bind_inv _ _ _ H) as (u' & HC & H1). clear H. injection H1 as <-.
  intros i v Li Hi Hv.
  assert (C := check_loop_inv _ _ _ HC i Li). cbv beta in C.
  unfold idx in C at 1. rewrite Hi in C. cbn [bind] in C.
  destruct (feqb v null) eqn:F; [apply feqb_spec in F; congruence|].
  destruct (bind_inv _ _ _ C) as (x & Ex & Ea). unfold idx in Ex. destruct (nth_error d i); [|discriminate].
  injection Ex as ->. destruct (feqb x v) eqn:G; [|discriminate]. apply feqb_spec in G. now subst.
Qed.

(** ** no missing sample *)
Theorem recover_opt_complete tl (s : fft_settings K) (vs : list K) m : length vs = (2 ^ m)%nat ->
  recover_opt tl s (map Some vs) = Panic.
Proof.
  intros L. unfold recover_opt. rewrite map_length, L, is_pow2_pow. cbn [negb].
  assert (EM : missing_positions (fun o : option K => match o with None => true | Some _ => false end) (map Some vs) = []).
  { rewrite (missing_spec _ None). rewrite map_length. rewrite <- (filter_ext_in (fun _ => false)).
    - clear. induction (seq 0 (length vs)); auto.
    - intros i Hi. apply in_seq in Hi. rewrite (nth_indep _ None (Some 0)) by (rewrite map_length; lia). now rewrite (map_nth Some). }
  rewrite EM. cbn [zero_poly_via_multiplication length Nat.eqb unwrap bind].
  rewrite check_loop_panic; [reflexivity|apply pow2_pos|].
  rewrite (idx_ok (map Some vs) 0 None) by (rewrite map_length, L; apply pow2_pos). reflexivity.
Qed.

Theorem recover_null_complete null tl (s : fft_settings K) (vs : list K) m : length vs = (2 ^ m)%nat ->
  ~ In null vs -> recover_null null tl s vs (2 ^ m) = Panic.
Proof.
  intros L HN. unfold recover_null. rewrite is_pow2_pow. cbn [negb].
  assert (EM : missing_positions (fun v : K => feqb v null) vs = []).
  { rewrite (missing_spec _ null). rewrite <- (filter_ext_in (fun _ => false)).
    - clear. induction (seq 0 (length vs)); auto.
    - intros i Hi. apply in_seq in Hi. destruct (feqb (nth i vs null) null) eqn:F; auto. apply feqb_spec in F.
      exfalso. apply HN. rewrite <- F. apply nth_In. lia. }
  rewrite EM. cbn [zero_poly_via_multiplication length Nat.eqb unwrap bind].
  rewrite check_loop_panic; [reflexivity|apply pow2_pos|].
  rewrite (idx_ok vs 0 null) by (rewrite L; apply pow2_pos). reflexivity.
Qed.
End R.
