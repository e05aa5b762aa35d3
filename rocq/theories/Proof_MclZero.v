(** * Proof_MclZero: vanishing polynomials and recovery of the mcl backend, any field *)
From Coq Require Import List Arith Lia Bool NArith ZArith Field Ring.
From Verif Require Import Base Fld Poly Loops Model_Utils Proof_Utils Model_FFT Spec Proof_FFT Model_Poly Model_ZeroPoly
  Proof_Zero1 Proof_Zero2 Proof_Zero3 Proof_Zero4 Model_Recovery Proof_Recovery
  Model_Mcl Proof_Mcl Proof_MclFr Model_MclPoly Proof_MclPoly Model_MclZero.
Import ListNotations.

(** ** [unwrap] as a morphism *)
Lemma unwrap_idem {A} (a : res A) : unwrap (unwrap a) = unwrap a.
Proof. destruct a; reflexivity. Qed.

Lemma unwrap_Ok {A} (a : res A) x : unwrap a = Ok x -> a = Ok x.
Proof. destruct a; simpl; congruence. Qed.

Lemma ubind {A B} (a b : res A) (f g : A -> res B) : unwrap a = unwrap b ->
  (forall x, a = Ok x -> b = Ok x -> unwrap (f x) = unwrap (g x)) -> unwrap (bind a f) = unwrap (bind b g).
Proof.
  intros E H. destruct a, b; simpl in *; try discriminate; auto. injection E as <-. auto.
Qed.

Lemma ufor {S} (I : nat -> S -> Prop) (b1 b2 : nat -> S -> res S) n : forall i s, I i s ->
  (forall j t, i <= j < i + n -> I j t -> unwrap (b1 j t) = unwrap (b2 j t)) ->
  (forall j t t', i <= j < i + n -> I j t -> b2 j t = Ok t' -> I (Datatypes.S j) t') ->
  unwrap (for_ n i b1 s) = unwrap (for_ n i b2 s).
Proof.
  induction n; intros i s H0 H1 H2; cbn [for_]; auto.
  apply ubind; [apply H1; auto; lia|]. intros x E1 E2. apply IHn.
  - apply (H2 i s); auto; lia.
  - intros j t Hj. apply H1. lia.
  - intros j t t' Hj. apply H2. lia.
Qed.

Lemma for_keep {S} (I : nat -> S -> Prop) (b : nat -> S -> res S) n : forall i s s', I i s ->
  (forall j t t', i <= j < i + n -> I j t -> b j t = Ok t' -> I (Datatypes.S j) t') ->
  for_ n i b s = Ok s' -> I (i + n) s'.
Proof.
  induction n; intros i s s' H0 H E; cbn [for_] in E.
  - rewrite Nat.add_0_r. injection E as <-. auto.
  - apply bind_inv in E as (x & E1 & E2). replace (i + Datatypes.S n) with (Datatypes.S i + n) by lia.
    apply (IHn _ x); auto. { apply (H i s); auto; lia. } intros j t t' Hj. apply H. lia.
Qed.

Lemma uwhile {S} (I : S -> Prop) cond (b1 b2 : S -> res S) : forall fuel s, I s ->
  (forall t, I t -> cond t = true -> unwrap (b1 t) = unwrap (b2 t)) ->
  (forall t t', I t -> cond t = true -> b2 t = Ok t' -> I t') ->
  unwrap (while_ fuel cond b1 s) = unwrap (while_ fuel cond b2 s).
Proof.
  induction fuel; intros s H0 H1 H2; cbn [while_]; auto. destruct (cond s) eqn:C; auto.
  apply ubind; auto. intros x E1 E2. apply IHfuel; auto. now apply (H2 s).
Qed.

(** results other than [Err] *)
Lemma ne_bind {A B} (a : res A) (f : A -> res B) : a <> Err -> (forall x, f x <> Err) -> bind a f <> Err.
Proof. intros H1 H2. destruct a; simpl; auto; discriminate. Qed.
Lemma ne_unwrap {A} (a : res A) : unwrap a <> Err.
Proof. destruct a; simpl; discriminate. Qed.
Lemma ne_for {S} (b : nat -> S -> res S) n : (forall i s, b i s <> Err) -> forall i s, for_ n i b s <> Err.
Proof. intros H. induction n; intros i s; cbn [for_]; [discriminate|]. apply ne_bind; auto. Qed.
Lemma ne_while {S} cond (b : S -> res S) : (forall s, b s <> Err) -> forall fuel s, while_ fuel cond b s <> Err.
Proof. intros H. induction fuel; intros s; cbn [while_]; [discriminate|]. destruct (cond s); [apply ne_bind; auto|discriminate]. Qed.
Lemma ne_idx {A} (l : list A) i : idx l i <> Err.
Proof. unfold idx. destruct (nth_error l i); discriminate. Qed.
Ltac ne := repeat match goal with
  | |- Ok _ <> Err => discriminate
  | |- Panic <> Err => discriminate
  | |- unwrap _ <> Err => apply ne_unwrap
  | |- idx _ _ <> Err => apply ne_idx
  | |- bind _ _ <> Err => apply ne_bind; [|intros]
  | |- for_range _ _ _ _ <> Err => unfold for_range
  | |- for_ _ _ _ _ <> Err => apply ne_for; intros
  | |- while_ _ _ _ _ <> Err => apply ne_while; intros
  | |- (if ?c then _ else _) <> Err => destruct c
  | |- (let (_, _) := ?x in _) <> Err => destruct x
  | |- _ => progress unfold upd, usub, slice, splice, mcl_is_power_of_2
  end.

Lemma filter_nil_all {A} (f : A -> bool) l : (forall x, In x l -> f x = false) -> filter f l = [].
Proof. induction l; simpl; auto. intros H. rewrite (H a) by auto. auto. Qed.

(** ** sizes *)
Lemma mcl_is_pow_eq n : 0 < n -> mcl_is_pow n = Ok (is_pow2 n).
Proof. intros H. unfold mcl_is_pow. rewrite mcl_is_power_of_2_spec by lia. reflexivity. Qed.

Lemma mcl_is_pow_0 : mcl_is_pow 0 = Panic.
Proof. reflexivity. Qed.

Lemma mcl_next_pow_eq n : 0 < n -> (N.of_nat n <= 2 ^ 63)%N -> mcl_next_pow n = next_pow2 n.
Proof.
  intros H0 H. unfold mcl_next_pow. destruct (mcl_next_pow_spec n H) as (m & E & H1 & H2). rewrite E. cbn [bind].
  destruct (next_pow2_spec n H0 H) as (k & E' & L1 & L2). rewrite E'. f_equal. rewrite Nat2N.id. f_equal.
  specialize (L2 m H1). destruct H2 as [->|H2]; [lia|].
  assert (2 ^ (m - 1) < 2 ^ k) by lia. apply Nat.pow_lt_mono_r_iff in H3; lia.
Qed.

Section Z.
Context {K : fld}.
Add Field Kfmz : (fld_field K).
Local Open Scope fld_scope.

Lemma mcl_pad_poly_eq n (p : list K) : mcl_pad_poly n p = pad_poly p n.
Proof. reflexivity. Qed.

(** ** one partial *)
Lemma mcl_zero_inner_eq (w : K) i p : (1 <= i)%nat -> (i < length p)%nat ->
  mcl_zero_inner w i p = zero_inner w i p.
Proof.
  intros Hi Hl. destruct (zero_inner_spec w i p Hi Hl) as (p' & -> & L' & H'). unfold mcl_zero_inner.
  match goal with |- for_range _ _ ?b _ = _ =>
  destruct (for_range_inv (fun t q => length q = length p /\
      forall j, nth j q 0 = if ((i - 1 - t <? j) && (j <? i))%nat then nth j p 0 * w + nth (j - 1) p 0 else nth j p 0)
    b 0 (i - 1) p) as (q & E & L & H) end.
  - lia.
  - split; auto. intros j. destruct (Nat.ltb_spec (i - 1 - 0) j), (Nat.ltb_spec j i); auto. lia.
  - intros t q Ht (L & H). cbv zeta. rewrite !(idx_ok q _ 0) by lia. cbn [bind]. rewrite upd_ok by lia.
    eexists. split; [reflexivity|]. split; [now rewrite set_length|]. intros j. rewrite nth_set by lia.
    destruct (Nat.eqb_spec j (i - 1 - t)) as [->|N].
    + rewrite !H. destruct (Nat.ltb_spec (i - 1 - t) (i - 1 - t)); [lia|].
      destruct (Nat.ltb_spec (i - 1 - t) (i - 1 - t - 1)); [lia|].
      destruct (Nat.ltb_spec (i - 1 - S t) (i - 1 - t)); [|lia]. destruct (Nat.ltb_spec (i - 1 - t) i); [|lia]. reflexivity.
    + rewrite H. replace (i - 1 - S t <? j)%nat with (i - 1 - t <? j)%nat; auto.
      apply eq_true_iff_eq. rewrite !Nat.ltb_lt. lia.
  - rewrite E. f_equal. apply (nth_ext' (0:K)); [lia|]. intros j _. rewrite H, H'.
    replace (i - 1 - (i - 1))%nat with 0%nat by lia. reflexivity.
Qed.

Lemma mcl_zero_step_eq s idxs stride i (p : list K) : (1 <= i)%nat -> (i < length p)%nat ->
  mcl_zero_step s idxs stride i p = zero_step s idxs stride i p.
Proof.
  intros Hi Hl. unfold mcl_zero_step, zero_step.
  destruct (idx idxs i) as [it| | |]; cbn [bind]; auto.
  destruct (idx (expanded_roots s) (it * stride)) as [w| | |]; cbn [bind]; auto.
  rewrite upd_ok by lia. cbn [bind].
  rewrite (idx_ok _ i 0) by (rewrite set_length; lia). cbn [bind].
  rewrite (idx_ok _ (i - 1) 0) by (rewrite set_length; lia). cbn [bind].
  rewrite upd_ok by (rewrite set_length; lia). cbn [bind].
  rewrite mcl_zero_inner_eq by (rewrite ?set_length; lia). reflexivity.
Qed.

Lemma zero_step_length s idxs stride i (p p' : list K) : (1 <= i)%nat -> (i < length p)%nat ->
  zero_step s idxs stride i p = Ok p' -> length p' = length p.
Proof.
  intros Hi Hl. unfold zero_step.
  destruct (idx idxs i) as [it| | |]; cbn [bind]; try discriminate.
  destruct (idx (expanded_roots s) (it * stride)) as [w| | |]; cbn [bind]; try discriminate.
  rewrite upd_ok by lia. cbn [bind].
  rewrite (idx_ok _ i 0) by (rewrite set_length; lia). cbn [bind].
  rewrite (idx_ok _ (i - 1) 0) by (rewrite set_length; lia). cbn [bind].
  rewrite upd_ok by (rewrite set_length; lia). cbn [bind].
  match goal with |- context [zero_inner ?w ?i ?q] => destruct (zero_inner_spec w i q) as (q' & -> & Lq & _) end;
    [lia|rewrite !set_length; lia|]. rewrite !set_length in Lq. cbn [bind].
  rewrite (idx_ok _ 0 0) by lia. cbn [bind]. rewrite upd_ok by lia. intros E. injection E as <-. now rewrite set_length.
Qed.

Lemma mcl_do_zero_eq s idxs stride : mcl_do_zero (K := K) s idxs stride = do_zero_poly_mul_partial s idxs stride.
Proof.
  unfold mcl_do_zero, do_zero_poly_mul_partial. destruct (Nat.eqb_spec (length idxs) 0); auto.
  destruct (idx idxs 0) as [i0| | |]; cbn [bind]; auto.
  destruct (idx (expanded_roots s) (i0 * stride)) as [w| | |]; cbn [bind]; auto.
  rewrite upd_ok by (rewrite repeat_length; lia). cbn [bind].
  assert (H : forall n i (p : list K), (1 <= i)%nat -> (i + n < length p)%nat ->
    for_ n i (mcl_zero_step s idxs stride) p = for_ n i (zero_step s idxs stride) p).
  { induction n0; intros i p Hi Hl; cbn [for_]; auto. rewrite mcl_zero_step_eq by lia.
    destruct (zero_step s idxs stride i p) as [p'| | |] eqn:E; cbn [bind]; auto.
    apply zero_step_length in E; [|lia|lia]. apply IHn0; lia. }
  unfold for_range. apply H; rewrite ?set_length, ?repeat_length; lia.
Qed.

(** ** products *)
Section S.
Variables (s : fft_settings K) (k : nat) (w : K).
Hypothesis HS : settings_ok s k w.
Hypothesis Hk : (k < 32)%nat.

Lemma mcl_fft_eq m (d : list K) inv : (m <= k)%nat -> (m < 31)%nat -> length d = (2 ^ m)%nat ->
  mcl_fft s d inv = fft_fr s d inv.
Proof.
  intros Hm H31 HL.
  assert (HB : (N.of_nat (2 ^ m) < 2 ^ 31)%N) by (change (2 ^ 31)%N with (2 ^ N.of_nat 31)%N; now apply pow2_N_lt).
  rewrite (mcl_fft_exact s k w m) by auto. now apply (mcl_inplace_blst s k w m).
Qed.

Lemma degree_loop_inv (ps : list (list K)) d :
  for_range 0 (length ps) (fun i d => let* p := idx ps i in let* l := usub (length p) 1 in Ok (d + l)%nat) 0%nat = Ok d ->
  d = degsum ps /\ Forall (fun p => p <> []) ps.
Proof. clear HS Hk.
  unfold for_range. intros E.
  apply (for_keep (fun t d => d = degsum (firstn t ps) /\ Forall (fun p => p <> []) (firstn t ps))) in E.
  - rewrite Nat.sub_0_r, Nat.add_0_l, firstn_all in E. exact E.
  - split; [reflexivity|constructor].
  - intros j t t' Hj (-> & HF) E1. rewrite (idx_ok ps j []) in E1 by lia. cbn [bind] in E1.
    apply bind_inv in E1 as (l & E1 & E2). apply Ok_inj in E2. subst t'.
    unfold usub in E1. destruct (Nat.leb_spec 1 (length (nth j ps []))) as [C|C]; [|discriminate].
    apply Ok_inj in E1. subst l.
    rewrite (firstn_snoc ps j []) by lia. rewrite degsum_app. split; [cbn [degsum fold_right]; lia|].
    apply Forall_app. split; auto. constructor; auto. intros Z. rewrite Z in C. simpl in C. lia.
Qed.

Lemma degree_loop_ok (ps : list (list K)) : Forall (fun p => p <> []) ps ->
  for_range 0 (length ps) (fun i d => let* p := idx ps i in let* l := usub (length p) 1 in Ok (d + l)%nat) 0%nat = Ok (degsum ps).
Proof. clear HS Hk.
  intros HF. destruct (for_range_inv (fun t d => d = degsum (firstn t ps))
     (fun i d => let* p := idx ps i in let* l := usub (length p) 1 in Ok (d + l)%nat) 0 (length ps) 0%nat) as (d & E & Ed).
  { lia. } { reflexivity. }
  { intros t d Ht ->. rewrite (idx_ok ps t []) by lia. cbn [bind].
    assert (nth t ps [] <> []) by (rewrite Forall_forall in HF; apply HF; apply nth_In; lia).
    rewrite usub_ok by (destruct (nth t ps []); [congruence|simpl; lia]). cbn [bind].
    eexists. split; [reflexivity|]. rewrite (firstn_snoc ps t []) by lia. rewrite degsum_app. simpl. lia. }
  rewrite firstn_all in Ed. now subst d.
Qed.

Lemma degsum_in (ps : list (list K)) t : (t < length ps)%nat -> (length (nth t ps []) <= degsum ps + 1)%nat.
Proof. clear HS Hk.
  intros Ht. assert (Q : forall l : list (list K), In (nth t ps []) l -> (length (nth t ps []) <= degsum l + 1)%nat).
  { induction l as [|a l IH]; [simpl; tauto|]. intros [<-|I]; simpl; [unfold degsum; lia|]. specialize (IH I). unfold degsum in *. lia. }
  apply Q. now apply nth_In.
Qed.

Lemma split_last (ps : list (list K)) : (0 < length ps)%nat ->
  ps = firstn (length ps - 1) ps ++ [nth (length ps - 1) ps []].
Proof. clear HS Hk.
  intros H. assert (F := firstn_snoc ps (length ps - 1) [] ltac:(lia)).
  replace (S (length ps - 1)) with (length ps) in F by lia. rewrite firstn_all in F. exact F.
Qed.

Theorem mcl_reduce_spec m (ps : list (list K)) :
  (m <= k)%nat -> (m < 31)%nat -> ps <> [] -> Forall (fun p => p <> []) ps -> (degsum ps + 1 <= 2 ^ m)%nat ->
  mcl_reduce_partials s (2 ^ m) ps = Ok (map (coef (pprod ps)) (seq 0 (degsum ps + 1))).
Proof.
  intros Hm H31 Hn HF HD. unfold mcl_reduce_partials. assert (P0 := pow2_pos m).
  rewrite mcl_is_pow_eq by auto. cbn [bind]. rewrite is_pow2_pow. cbn [negb].
  rewrite degree_loop_ok by auto. cbn [bind].
  destruct (Nat.ltb_spec (2 ^ m) (degsum ps + 1)); [lia|].
  assert (Lp : (0 < length ps)%nat) by (destruct ps; [congruence|simpl; lia]).
  set (w' := w ^ (2 ^ (k - m))).
  assert (Hfft : forall t, (t < length ps)%nat -> exists padded, mcl_pad_poly (2 ^ m) (nth t ps []) = Ok padded /\
     mcl_fft s padded false = Ok (map (fun i => peval (nth t ps []) (w' ^ i)) (seq 0 (2 ^ m)))).
  { intros t Ht. rewrite mcl_pad_poly_eq. assert (Hlen := degsum_in ps t Ht). rewrite pad_poly_coef by lia.
    eexists. split; [reflexivity|]. rewrite (mcl_fft_eq m) by (auto; apply length_map_seq).
    rewrite (fft_fr_spec s k w m) by (auto; apply length_map_seq). f_equal. apply map_ext_seq. intros i Hi.
    apply peval_ext. intros j. rewrite coef_map_seq. destruct (Nat.ltb_spec j (2 ^ m)); auto.
    symmetry. apply coef_over. lia. }
  rewrite usub_ok by lia. cbn [bind]. rewrite (idx_ok ps _ []) by lia. cbn [bind].
  destruct (Hfft (length ps - 1)%nat ltac:(lia)) as (pd & -> & E0). cbn [unwrap bind]. rewrite E0. cbn [unwrap bind].
  set (L := nth (length ps - 1) ps []) in *.
  match goal with |- context [for_range 0 (length ps - 1) ?b ?l0] =>
    destruct (for_range_inv (fun t ev => ev = map (fun i => peval L (w' ^ i) *
       fold_right (fun p v => peval p (w' ^ i) * v) 1 (firstn t ps)) (seq 0 (2 ^ m))) b 0 (length ps - 1) l0) as (ev & Eev & Hev) end.
  - lia.
  - apply map_ext_seq. intros i Hi. cbn [firstn fold_right]. ring.
  - intros t ev Ht ->. rewrite (idx_ok ps t []) by lia. cbn [bind].
    destruct (Hfft t ltac:(lia)) as (pt & -> & Et). cbn [unwrap bind]. rewrite Et. cbn [unwrap bind].
    rewrite (map_loop_all (0:K) (2 ^ m) _ (fun j x => x * peval (nth t ps []) (w' ^ j))); [|now rewrite length_map_seq|].
    + eexists. split; [reflexivity|]. apply map_ext_seq. intros i Hi. rewrite nth_map_seq by auto.
      rewrite (firstn_snoc ps t []) by lia. rewrite fold_peval_app. cbn [fold_right]. ring.
    + intros i r Hi Hr. rewrite length_map_seq in Hr. rewrite (idx_ok r i 0) by lia. cbn [bind].
      rewrite (idx_ok _ i 0) by (rewrite length_map_seq; lia). cbn [bind]. rewrite nth_map_seq by auto.
      now rewrite upd_ok by lia.
  - rewrite Eev. cbn [bind].
    assert (EV' : ev = map (fun i => fold_right (fun p v => peval p (w' ^ i) * v) 1 ps) (seq 0 (2 ^ m))).
    { rewrite Hev. apply map_ext_seq. intros i Hi. assert (SL := split_last ps Lp). fold L in SL.
      set (a := firstn (length ps - 1) ps) in *. clearbody a L. subst ps.
      rewrite fold_peval_app. cbn [fold_right]. ring. }
    rewrite EV'. clear EV' Hev Eev ev.
    set (P := map (coef (pprod ps)) (seq 0 (2 ^ m))).
    assert (LP : length P = (2 ^ m)%nat) by apply length_map_seq.
    assert (CP : forall j, coef P j = coef (pprod ps) j).
    { intros j. unfold P. rewrite coef_map_seq. destruct (Nat.ltb_spec j (2 ^ m)); auto.
      symmetry. apply pprod_coef_over; auto. lia. }
    assert (EV : fft_fr s P false = Ok (map (fun i => fold_right (fun p v => peval p (w' ^ i) * v) 1 ps) (seq 0 (2 ^ m)))).
    { rewrite (fft_fr_spec s k w m) by auto. f_equal. apply map_ext_seq. intros i Hi. rewrite <- pprod_eval. now apply peval_ext. }
    destruct (fft_fr_roundtrip s k w m P HS Hm LP) as [RT _]. rewrite EV in RT. cbn [bind] in RT.
    rewrite (mcl_fft_eq m) by (auto; apply length_map_seq). rewrite RT. cbn [unwrap bind].
    rewrite slice_ok by lia. rewrite Nat.sub_0_r. cbn [skipn]. f_equal. unfold P.
    apply (nth_ext' (0:K)).
    + rewrite firstn_length, !length_map_seq. lia.
    + intros i Hi. rewrite firstn_length, length_map_seq in Hi. rewrite nth_firstn' by lia. now rewrite !nth_map_seq by lia.
Qed.

(** everything else *)
Lemma mcl_reduce_bad dom (ps : list (list K)) : ps <> [] -> Forall (fun p => p <> []) ps -> dom <> 0%nat ->
  (forall m, dom <> 2 ^ m)%nat \/ (dom < degsum ps + 1)%nat -> mcl_reduce_partials s dom ps = Err.
Proof.
  intros Hn HF H0 H. unfold mcl_reduce_partials. rewrite mcl_is_pow_eq by lia. cbn [bind].
  destruct (is_pow2 dom) eqn:EP; cbn [negb]; auto. apply is_pow2_spec in EP as (m & ->).
  destruct H as [H|H]; [now specialize (H m)|].
  rewrite degree_loop_ok by auto. cbn [bind]. destruct (Nat.ltb_spec (2 ^ m) (degsum ps + 1)); auto. lia.
Qed.

Lemma mcl_reduce_wide m (ps : list (list K)) : ps <> [] -> Forall (fun p => p <> []) ps ->
  (degsum ps + 1 <= 2 ^ m)%nat -> (2 ^ k < 2 ^ m)%nat -> mcl_reduce_partials s (2 ^ m) ps = Panic.
Proof.
  intros Hn HF HD H. unfold mcl_reduce_partials. assert (P0 := pow2_pos m).
  rewrite mcl_is_pow_eq by auto. cbn [bind]. rewrite is_pow2_pow. cbn [negb].
  rewrite degree_loop_ok by auto. cbn [bind].
  destruct (Nat.ltb_spec (2 ^ m) (degsum ps + 1)); [lia|].
  assert (Lp : (0 < length ps)%nat) by (destruct ps; [congruence|simpl; lia]).
  rewrite usub_ok by lia. cbn [bind]. rewrite (idx_ok ps _ []) by lia. cbn [bind].
  assert (Hlen := degsum_in ps (length ps - 1) ltac:(lia)).
  rewrite mcl_pad_poly_eq, pad_poly_coef by lia. cbn [unwrap bind].
  rewrite mcl_fft_long; [reflexivity|]. rewrite length_map_seq, (proj1 HS). lia.
Qed.

Lemma mcl_reduce_unwrap dom (ps : list (list K)) : (N.of_nat dom < 2 ^ 31)%N ->
  unwrap (mcl_reduce_partials s dom ps) = unwrap (reduce_partials s dom ps).
Proof.
  intros HB. destruct (Nat.eq_dec dom 0) as [->|N0].
  { rewrite reduce_partials_0. unfold mcl_reduce_partials. rewrite mcl_is_pow_0. reflexivity. }
  destruct (is_pow2 dom) eqn:EP.
  2: { unfold mcl_reduce_partials, reduce_partials. rewrite mcl_is_pow_eq by lia. cbn [bind]. rewrite EP. reflexivity. }
  pose proof EP as EP'. apply is_pow2_spec in EP' as (m & Em).
  destruct (for_range 0 (length ps) (fun i d => let* p := idx ps i in let* l := usub (length p) 1 in Ok (d + l)%nat) 0%nat) as [d| | |] eqn:ED.
  2, 3, 4: unfold mcl_reduce_partials, reduce_partials; rewrite mcl_is_pow_eq by lia; cbn [bind]; rewrite EP; cbn [negb]; rewrite ED; reflexivity.
  destruct (degree_loop_inv ps d ED) as (-> & HF).
  destruct ps as [|p0 ps0] eqn:Eps.
  { unfold mcl_reduce_partials, reduce_partials. rewrite mcl_is_pow_eq by lia. cbn [bind]. rewrite EP. cbn [negb].
    rewrite ED. cbn [bind]. match goal with |- context [(dom <? ?x)%nat] => destruct (dom <? x)%nat end; reflexivity. }
  rewrite <- Eps in *. assert (Hn : ps <> []) by (rewrite Eps; discriminate). clear Eps p0 ps0.
  destruct (Nat.lt_ge_cases dom (degsum ps + 1)) as [C|C].
  { rewrite mcl_reduce_bad, (reduce_partials_errors s k w) by auto. reflexivity. }
  subst dom. destruct (Nat.le_gt_cases m k) as [C2|C2].
  - assert (m < 31)%nat.
    { destruct (Nat.lt_ge_cases m 31) as [|G]; auto. exfalso. assert (Q := pow2_N_le 31 m G).
      change (2 ^ N.of_nat m)%N with (2 ^ N.of_nat m)%N in Q. rewrite Nat2N.inj_pow in HB, Q.
      change (N.of_nat 31) with 31%N in Q. change (N.of_nat 2) with 2%N in *. lia. }
    rewrite mcl_reduce_spec, (reduce_partials_spec s k w m) by auto. reflexivity.
  - assert (2 ^ k < 2 ^ m)%nat by (apply Nat.pow_lt_mono_r; lia).
    rewrite mcl_reduce_wide, (reduce_partials_errors s k w) by auto. reflexivity.
Qed.

Lemma reduce_length dom (ps : list (list K)) c : reduce_partials s dom ps = Ok c -> (1 <= length c <= dom)%nat.
Proof. clear HS Hk.
  unfold reduce_partials. destruct (negb (is_pow2 dom)); [discriminate|]. intros H.
  apply bind_inv in H as (d & _ & H). destruct (Nat.ltb_spec dom (d + 1)) as [|C]; [discriminate|].
  apply bind_inv in H as (x1 & _ & H). apply bind_inv in H as (x2 & _ & H). apply bind_inv in H as (x3 & _ & H).
  apply bind_inv in H as (x4 & _ & H). apply bind_inv in H as (x5 & _ & H). unfold slice in H.
  destruct ((0 <=? d + 1)%nat && (d + 1 <=? length x5)%nat) eqn:E; [|discriminate].
  apply andb_true_iff in E as (_ & E). apply Nat.leb_le in E. apply Ok_inj in H. subst c.
  rewrite firstn_length. cbn [skipn]. lia.
Qed.

(** ** the tree *)
Definition len0 (B : nat) (st : list K * list nat * list nat) : Prop :=
  let '(_, lens, _) := st in (0 < length lens)%nat -> (1 <= nth 0 lens 0 <= B)%nat.

Lemma mcl_zp_views_eq work lens size i start num offs :
  mcl_zp_views (K := K) work lens size i start num offs = zp_views work lens size i start num offs.
Proof. reflexivity. Qed.

Section T.
Variables (D C : nat).
Hypothesis HD : (N.of_nat D < 2 ^ 31)%N.

Lemma mcl_group_unwrap count size i st :
  unwrap (mcl_zp_group s D C count size i st) = unwrap (zp_group s D C count size i st).
Proof.
  destruct st as [[work lens] offs]. unfold mcl_zp_group, zp_group.
  apply ubind; auto. intros d _ _. apply ubind; auto. intros rest _ _. apply ubind; auto. intros offs1 _ _.
  rewrite mcl_zp_views_eq. apply ubind; auto. intros (offs2 & pv) _ _.
  destruct (1 <? Nat.min 4 rest)%nat; auto.
  apply ubind; [rewrite unwrap_idem; apply mcl_reduce_unwrap; lia|]. intros red _ _.
  apply ubind; auto. intros lens1 _ _. apply ubind; [now rewrite unwrap_idem, mcl_pad_poly_eq|]. auto.
Qed.

Lemma group_keep count size i st st' : zp_group s D C count size i st = Ok st' -> len0 (Nat.max D 64) st -> len0 (Nat.max D 64) st'.
Proof. clear HD HS Hk.
  destruct st as [[work lens] offs]. unfold zp_group. intros H I.
  apply bind_inv in H as (d & _ & H). apply bind_inv in H as (rest & _ & H). apply bind_inv in H as (offs1 & _ & H).
  apply bind_inv in H as ((offs2 & pv) & _ & H). destruct (1 <? Nat.min 4 rest)%nat.
  - apply bind_inv in H as (red & Er & H). apply reduce_length in Er.
    apply bind_inv in H as (lens1 & El & H). apply bind_inv in H as (red1 & _ & H). apply bind_inv in H as (o & _ & H).
    apply bind_inv in H as (work1 & _ & H). apply Ok_inj in H. subst st'.
    unfold upd in El. destruct (Nat.ltb_spec i (length lens)); [|discriminate]. apply Ok_inj in El. subst lens1.
    cbn [len0] in *. rewrite set_length. intros L. specialize (I L). rewrite nth_set by auto.
    destruct (0 =? i)%nat; lia.
  - apply bind_inv in H as (l & El0 & H). apply bind_inv in H as (lens1 & El & H). apply Ok_inj in H. subst st'.
    unfold upd in El. destruct (Nat.ltb_spec i (length lens)); [|discriminate]. apply Ok_inj in El. subst lens1.
    cbn [len0] in *. rewrite set_length. intros L. specialize (I L). rewrite nth_set by auto.
    destruct (Nat.eqb_spec 0 i) as [<-|]; [|lia]. apply (idx_inv _ _ _ 0%nat) in El0 as (_ & <-). exact I.
Qed.

Lemma level_next (n : nat) : (1 <= n <= Nat.max D 64)%nat -> mcl_next_pow n = next_pow2 n.
Proof.
  intros H. apply mcl_next_pow_eq; [lia|]. transitivity (2 ^ 31)%N; [|apply N.pow_le_mono_r; lia].
  assert (64 <= 2 ^ 31)%N by (change 64%N with (2 ^ 6)%N; apply N.pow_le_mono_r; lia). lia.
Qed.

Lemma mcl_level_unwrap st : len0 (Nat.max D 64) (snd st) ->
  unwrap (mcl_zp_level s D C st) = unwrap (zp_level s D C st).
Proof.
  destruct st as [count [[work lens] offs]]. cbn [snd]. intros I. unfold mcl_zp_level, zp_level.
  apply ubind; auto. intros l0 E _. apply (idx_inv _ _ _ 0%nat) in E as (L & <-).
  rewrite level_next by (apply I; auto). apply ubind; auto. intros size _ _. apply ubind; auto.
  unfold for_range. apply (ufor (fun _ _ => True)); auto. intros j t _ _. apply mcl_group_unwrap.
Qed.

Lemma level_keep st st' : zp_level s D C st = Ok st' -> len0 (Nat.max D 64) (snd st) -> len0 (Nat.max D 64) (snd st').
Proof. clear HD HS Hk.
  destruct st as [count [[work lens] offs]]. unfold zp_level. intros H I.
  apply bind_inv in H as (l0 & _ & H). apply bind_inv in H as (size & _ & H). apply bind_inv in H as (wlo & E & H).
  apply Ok_inj in H. subst st'. cbn [snd]. unfold for_range in E.
  revert E. apply (for_keep (fun _ st => len0 (Nat.max D 64) st)); auto.
  intros j t t' _ It Et. now apply (group_keep _ _ _ _ _ Et).
Qed.

Lemma mcl_partials_unwrap missing stride count (work : list K) :
  unwrap (mcl_zp_partials s missing stride count work) = unwrap (zp_partials s missing stride count work).
Proof.
  unfold mcl_zp_partials, zp_partials. apply ubind.
  - unfold for_range. apply (ufor (fun _ _ => True)); auto. intros j [[[[wk lens] offs] mo] wo] _ _.
    apply ubind; auto. intros sl _ _. apply ubind; [now rewrite unwrap_idem, mcl_do_zero_eq|]. intros p _ _.
    apply ubind; [now rewrite unwrap_idem, mcl_pad_poly_eq|]. auto.
  - intros [[[[wk lens] offs] mo] wo] _ _. reflexivity.
Qed.

Lemma partials_lens missing stride count (work work' : list K) lens offs :
  zp_partials s missing stride count work = Ok (work', lens, offs) -> lens = repeat 64%nat count.
Proof. clear HD HS Hk.
  unfold zp_partials. intros H. apply bind_inv in H as ([[[[wk l] o] mo] wo] & E & H). apply Ok_inj in H.
  assert (El : l = lens) by congruence. subst l. clear H.
  unfold for_range in E. rewrite Nat.sub_0_r in E.
  apply (for_keep (fun t (st : list K * list nat * list nat * nat * nat) =>
    let '(_, l, _, _, _) := st in l = repeat 64%nat t)) in E; auto.
  intros j [[[[wk0 l0] o0] mo0] wo0] t' _ -> E1.
  apply bind_inv in E1 as (sl & _ & E1). apply bind_inv in E1 as (p & _ & E1). apply bind_inv in E1 as (p1 & _ & E1).
  apply bind_inv in E1 as (wk1 & _ & E1). apply Ok_inj in E1. subst t'.
  replace (S j) with (j + 1)%nat by lia. now rewrite repeat_app.
Qed.

Lemma mcl_tree_unwrap count stride missing : (2 <= count)%nat -> (N.of_nat (count * 64) <= 2 ^ 63)%N ->
  unwrap (mcl_zp_tree s D C count stride missing) = unwrap (zp_tree s D C count stride missing).
Proof.
  intros Hc Hb. unfold mcl_zp_tree, zp_tree. rewrite mcl_next_pow_eq by (auto; lia).
  apply ubind; [reflexivity|]. intros wlen _ _. apply ubind; [apply mcl_partials_unwrap|].
  intros [[work lens] offs] _ Ep. apply partials_lens in Ep. subst lens.
  apply ubind; [reflexivity|]. intros l _ _. apply ubind; [reflexivity|]. intros c1 E1 _.
  rewrite usub_ok in E1 by lia. apply Ok_inj in E1. subst c1. rewrite upd_ok by (rewrite repeat_length; lia). cbn [bind].
  apply ubind; [|reflexivity]. apply (uwhile (fun st => len0 (Nat.max D 64) (snd st))).
  - cbn [snd len0]. intros _. rewrite nth_set_other by (rewrite ?repeat_length; lia). rewrite nth_repeat' by lia. lia.
  - intros t It _. now apply mcl_level_unwrap.
  - intros t t' It _ E. now apply (level_keep _ _ E).
Qed.
End T.

Lemma ne_tree D C count stride missing : mcl_zp_tree (K := K) s D C count stride missing <> Err.
Proof. unfold mcl_zp_tree, mcl_next_pow, mcl_next_pow_of_2, mcl_zp_partials, mcl_zp_level, mcl_zp_group, mcl_zp_views, mcl_next_pow, mcl_next_pow_of_2. ne. Qed.

(** ** the whole function *)
Theorem mcl_zero_poly_eq m missing : (m <= k)%nat -> (m < 31)%nat -> (0 < length missing < 2 ^ m)%nat ->
  mcl_zero_poly s (2 ^ m) missing = unwrap (zero_poly_via_multiplication s (2 ^ m) missing).
Proof.
  intros Hm H31 HL. assert (P0 := pow2_pos m).
  assert (HB : (N.of_nat (2 ^ m) < 2 ^ 31)%N) by (change (2 ^ 31)%N with (2 ^ N.of_nat 31)%N; now apply pow2_N_lt).
  assert (NE : mcl_zero_poly s (2 ^ m) missing <> Err).
  { unfold mcl_zero_poly. destruct (Nat.eqb_spec (length missing) 0); [lia|].
    destruct (Nat.leb_spec (2 ^ m) (length missing)); [lia|]. rewrite (proj1 HS).
    destruct (Nat.ltb_spec (2 ^ k) (2 ^ m)) as [Q|_].
    { apply Nat.pow_lt_mono_r_iff in Q; lia. }
    rewrite mcl_is_pow_eq by auto. cbn [bind]. rewrite is_pow2_pow. cbn [negb].
    apply ne_bind; [unfold mcl_next_pow, mcl_next_pow_of_2; ne|]. intros np.
    apply ne_bind; [destruct (_ <=? 63)%nat; [apply ne_unwrap|apply ne_tree]|]. intros zp. ne. }
  replace (mcl_zero_poly s (2 ^ m) missing) with (unwrap (mcl_zero_poly s (2 ^ m) missing))
    by (destruct (mcl_zero_poly s (2 ^ m) missing); simpl; congruence). clear NE.
  unfold mcl_zero_poly, zero_poly_via_multiplication.
  destruct (Nat.eqb_spec (length missing) 0); [lia|].
  destruct (Nat.leb_spec (2 ^ m) (length missing)); auto.
  destruct (Nat.ltb_spec (max_width s) (2 ^ m)); auto.
  rewrite mcl_is_pow_eq by auto. cbn [bind]. rewrite is_pow2_pow. cbn [negb].
  set (count := (1 + (length missing - 1) / 63)%nat).
  assert (Hc : (count * 64 <= 2 ^ 31 * 64)%nat).
  { apply Nat.mul_le_mono_r. unfold count. transitivity (length missing).
    - assert ((length missing - 1) / 63 <= length missing - 1)%nat by (apply Nat.div_le_upper_bound; lia). lia.
    - transitivity (2 ^ m)%nat; [lia|]. apply Nat.pow_le_mono_r; lia. }
  assert (Hc2 : (N.of_nat (count * 64) <= 2 ^ 63)%N).
  { transitivity (2 ^ 37)%N; [|apply N.pow_le_mono_r; lia].
    transitivity (N.of_nat (2 ^ 31 * 64)); [lia|]. rewrite Nat2N.inj_mul, Nat2N.inj_pow. reflexivity. }
  clear Hc.
  rewrite mcl_next_pow_eq by (auto; unfold count; lia).
  apply ubind; auto. intros np _ _. apply ubind.
  - destruct (Nat.leb_spec (length missing) 63).
    + now rewrite unwrap_idem, mcl_do_zero_eq.
    + apply mcl_tree_unwrap; auto. unfold count. assert (1 <= (length missing - 1) / 63)%nat; [|lia].
      apply Nat.div_le_lower_bound; lia.
  - intros zp _ _.
    assert (EP : match Nat.compare (length zp) (2 ^ m) with
      | Lt => pad_poly zp (2 ^ m) | Eq => Ok zp | Gt => slice zp 0 (2 ^ m) end = Ok (mcl_pad zp (length zp) (2 ^ m))).
    { unfold mcl_pad, min_u64. destruct (Nat.compare_spec (length zp) (2 ^ m)) as [E|E|E].
      - rewrite E, Nat.ltb_irrefl, Nat.sub_diag. cbn [repeat]. rewrite <- E, firstn_all, app_nil_r. reflexivity.
      - apply Nat.ltb_lt in E. rewrite E. apply Nat.ltb_lt in E. rewrite pad_poly_spec by lia. now rewrite firstn_all.
      - destruct (Nat.ltb_spec (length zp) (2 ^ m)); [lia|]. rewrite slice_ok by lia.
        rewrite Nat.sub_0_r, Nat.sub_diag. cbn [repeat skipn]. now rewrite app_nil_r. }
    rewrite EP. cbn [bind]. apply ubind; auto. rewrite unwrap_idem, (mcl_fft_eq m); auto.
    unfold mcl_pad, min_u64. rewrite app_length, firstn_length, repeat_length.
    destruct (Nat.ltb_spec (length zp) (2 ^ m)); lia.
Qed.

(** degenerate and rejected arguments *)
Lemma mcl_zero_poly_none d : mcl_zero_poly s d [] = Ok (repeat 0 d, repeat 0 d).
Proof. reflexivity. Qed.

Lemma mcl_zero_poly_errors d missing : missing <> [] ->
  (d <= length missing)%nat \/ (max_width s < d)%nat \/ (forall m, d <> 2 ^ m)%nat -> mcl_zero_poly s d missing = Err.
Proof.
  intros Hn H. unfold mcl_zero_poly.
  assert (0 < length missing)%nat by (destruct missing; [congruence|simpl; lia]).
  destruct (Nat.eqb_spec (length missing) 0); [lia|].
  destruct (Nat.leb_spec d (length missing)); auto. destruct (Nat.ltb_spec (max_width s) d); auto.
  destruct H as [H|[H|H]]; try lia. rewrite mcl_is_pow_eq by lia. cbn [bind].
  destruct (is_pow2 d) eqn:E; auto. apply is_pow2_spec in E as (m & ->). now specialize (H m).
Qed.

(** ** shifts *)
Lemma mcl_shift_spec (c : K) (p : list K) : mcl_shift c p = Ok (map (fun i => nth i p 0 * c ^ i) (seq 0 (length p))).
Proof.
  unfold mcl_shift.
  rewrite (acc_map_loop (0:K) (length p) _ (fpow c) (fun i x => x * c ^ i) p); auto.
  intros i r Hi Hr. rewrite (idx_ok r i 0) by lia. cbn [bind]. rewrite upd_ok by lia. cbn [bind].
  f_equal. f_equal. cbn [fpow]. ring.
Qed.

Lemma mcl_from_int_5 : mcl_from_int 5 = (fnat 5 : K).
Proof. reflexivity. Qed.

Lemma mcl_shift_par_spec tl (c : K) (p : list K) : (0 < tl)%nat -> (length p <= tl)%nat ->
  mcl_shift_par tl c p = Ok (map (fun i => nth i p 0 * c ^ i) (seq 0 (length p))).
Proof.
  intros H0 H. unfold mcl_shift_par. rewrite factor_table_ok by auto. cbn [bind].
  destruct p; [reflexivity|]. apply apply_factors_ok; auto. cbn [length]. lia.
Qed.

Lemma mcl_shift_par_panic tl (c : K) (p : list K) : (0 < tl)%nat -> (tl < length p)%nat -> mcl_shift_par tl c p = Panic.
Proof.
  intros H0 H. unfold mcl_shift_par. rewrite factor_table_ok by auto. cbn [bind]. now apply apply_factors_panic.
Qed.

(** ** recovery *)
Section R.
Variables (shift unshift : list K -> res (list K)) (m : nat).
Hypothesis Hm : (m <= k)%nat.
Hypothesis H31 : (m < 31)%nat.
Notation n := (2 ^ m)%nat.
Notation wd := (w ^ (2 ^ (k - m))).
Notation c := (finv (fnat 5) : K).
Hypothesis Hsh : forall p, length p = n -> shift p = Ok (map (fun i => nth i p 0 * c ^ i) (seq 0 n)).
Hypothesis Hush : forall p, length p = n -> unshift p = Ok (map (fun i => nth i p 0 * (fnat 5) ^ i) (seq 0 n)).

Definition mcl_core (evals Z : list K) : res (list K) :=
  let* pz := unwrap (mcl_fft s evals true) in
  let* pz := shift pz in
  let* zp := shift Z in
  let* e1 := unwrap (mcl_fft s pz false) in
  let* e2 := unwrap (mcl_fft s zp false) in
  let* shifted := unwrap (mcl_fft s (map (fun p : K * K => mcl_div_fr (fst p) (snd p)) (combine e1 e2)) true) in
  let* poly := unshift shifted in
  unwrap (mcl_fft s poly false).

Lemma combine_map_seq {A B} (f : nat -> A) (g : nat -> B) N :
  combine (map f (seq 0 N)) (map g (seq 0 N)) = map (fun i => (f i, g i)) (seq 0 N).
Proof. generalize 0%nat as a. induction N; intros a; cbn [seq map combine]; auto. now rewrite IHN. Qed.

Lemma mcl_core_eq (evals Z : list K) : length evals = n -> length Z = n ->
  mcl_core evals Z = recover_core n s n evals Z.
Proof.
  intros LE LZ. unfold mcl_core, recover_core. assert (P0 := pow2_pos m).
  rewrite (mcl_fft_eq m) by auto.
  destruct (ifft_fr_interpolates s k w m evals HS Hm LE) as (P & EP & LP & _). rewrite EP. cbn [unwrap bind].
  rewrite LZ. rewrite !Hsh by auto. cbn [bind].
  assert (SC : forall q : list K, length q = n -> scale_poly n q n = Ok (map (fun i => nth i q 0 * c ^ i) (seq 0 n))).
  { intros q Lq. rewrite <- Lq. apply scale_poly_spec; lia. }
  assert (US : forall q : list K, length q = n -> unscale_poly n q n = Ok (map (fun i => nth i q 0 * (fnat 5) ^ i) (seq 0 n))).
  { intros q Lq. rewrite <- Lq. apply unscale_poly_spec; lia. }
  rewrite !SC by auto. cbn [bind].
  rewrite !(mcl_fft_eq m) by (auto; apply length_map_seq).
  rewrite !(fft_fr_spec s k w m) by (auto; apply length_map_seq). cbn [unwrap bind].
  rewrite combine_map_seq, map_map. cbn [fst snd].
  match goal with |- context [for_range 0 n ?bd ?l0] =>
    rewrite (copy_loop (0:K) n bd (fun i => nth i l0 0 * finv (peval (map (fun i => nth i Z 0 * c ^ i) (seq 0 n)) (wd ^ i)))) end.
  2: { now rewrite length_map_seq. }
  2: { intros i r Hi Lr. rewrite length_map_seq in Lr.
       rewrite !(idx_ok _ i 0) by (rewrite length_map_seq; auto). cbn [bind]. unfold fr_div. cbn [unwrap bind].
       rewrite upd_ok by lia. do 2 f_equal. rewrite !nth_map_seq by auto. reflexivity. }
  cbn [bind].
  match goal with |- context [map (fun i => mcl_div_fr (@?f i) (@?g i)) (seq 0 n)] =>
    replace (map (fun i => mcl_div_fr (f i) (g i)) (seq 0 n)) with
      (map (fun i => nth i (map f (seq 0 n)) 0 * finv (g i)) (seq 0 n)) end.
  2: { apply map_ext_seq. intros i Hi. rewrite nth_map_seq by auto. reflexivity. }
  rewrite (mcl_fft_eq m) by (auto; apply length_map_seq).
  match goal with |- context [fft_fr s ?d true] => destruct (ifft_fr_interpolates s k w m d HS Hm ltac:(apply length_map_seq)) as (Q & EQ & LQ & _) end.
  rewrite EQ. cbn [unwrap bind]. rewrite Hush by auto.
  rewrite US by auto. cbn [bind].
  rewrite (mcl_fft_eq m) by (auto; apply length_map_seq). reflexivity.
Qed.

Lemma combine_nth_seq {A B} (l : list A) (da : A) (g : nat -> B) :
  combine l (map g (seq 0 (length l))) = map (fun i => (nth i l da, g i)) (seq 0 (length l)).
Proof. rewrite (list_map_nth l da) at 1. apply combine_map_seq. Qed.

Theorem mcl_recover_spec (samples : list (option K)) (D : list K) :
  fnat 5 <> (0 : K) -> (fnat 5 : K) ^ (2 ^ m) <> 1 -> length samples = n ->
  let sm := fun i => nth i samples None in
  (0 < length (gaps sm n) < n)%nat -> (length (gaps sm n) <= 63 * (n / 64 + 1))%nat ->
  (length D + length (gaps sm n) <= n)%nat ->
  (forall i v, (i < n)%nat -> sm i = Some v -> peval D (wd ^ i) = v) ->
  mcl_recover_with shift unshift s samples = Ok (map (fun i => peval D (wd ^ i)) (seq 0 n)).
Proof.
  intros H5 H5n L sm Hu Hub HD HDv. unfold mcl_recover_with. assert (P0 := pow2_pos m).
  rewrite L, mcl_is_pow_eq by auto. cbn [bind]. rewrite is_pow2_pow. cbn [negb].
  rewrite (missing_spec _ None). rewrite L. fold sm.
  change (filter _ (seq 0 n)) with (gaps sm n). rewrite mcl_zero_poly_eq by auto. rewrite unwrap_idem.
  rewrite (zp_ok s k w m n HS Hk Hm (le_n _) sm Hu Hub). cbn [unwrap bind].
  set (rs := map (fpow wd) (gaps sm n)). rewrite <- L at 1. rewrite (combine_nth_seq samples None).
  rewrite L, map_map. cbn [fst snd].
  assert (LE : forall f : nat -> K, length (map f (seq 0 n)) = n) by (intros; apply length_map_seq).
  assert (C := core_ok s k w m n HS Hk Hm (le_n _) H5 H5n sm Hu Hub D HD HDv (map (fun i => match sm i with None => 0 | Some v => v * vanish rs (wd ^ i) end) (seq 0 n)) (LE _)).
  fold rs in C. rewrite <- mcl_core_eq in C by auto. apply C. intros i Hi. now rewrite nth_map_seq.
Qed.

(** nothing missing: zeros come out *)
Lemma peval_zeros (x : K) N : peval (repeat 0 N) x = 0.
Proof. induction N; cbn [repeat peval]; auto. rewrite IHN. ring. Qed.

Lemma map_zeros (f : nat -> K) N : (forall i, (i < N)%nat -> f i = 0) -> map f (seq 0 N) = repeat 0 N.
Proof.
  intros H. apply (nth_ext' (0:K)); [now rewrite length_map_seq, repeat_length|].
  rewrite length_map_seq. intros i Hi. now rewrite nth_map_seq, nth_repeat_same, H.
Qed.

Lemma mcl_fft_zeros inv : mcl_fft s (repeat 0 n) inv = Ok (repeat 0 n).
Proof.
  assert (E : fft_fr s (repeat 0 n) false = Ok (repeat 0 n)).
  { rewrite (fft_fr_spec s k w m) by (auto; apply repeat_length). f_equal. apply map_zeros. intros. apply peval_zeros. }
  rewrite (mcl_fft_eq m) by (auto; apply repeat_length). destruct inv; auto.
  destruct (fft_fr_roundtrip s k w m (repeat 0 n) HS Hm (repeat_length _ _)) as [R _].
  rewrite E in R. exact R.
Qed.

Lemma combine_zeros (l : list (option K)) : map (fun p : option K * K => match fst p with None => 0 | Some v => v * snd p end)
  (combine l (repeat 0 (length l))) = repeat 0 (length l).
Proof. induction l as [|o l IH]; cbn [length repeat combine map]; auto. cbn [fst snd]. rewrite IH. destruct o; f_equal; ring. Qed.

Lemma div_zeros N : map (fun p : K * K => mcl_div_fr (fst p) (snd p)) (combine (repeat 0 N) (repeat 0 N)) = repeat 0 N.
Proof. induction N; cbn [repeat combine map fst snd]; auto. rewrite IHN. f_equal. unfold mcl_div_fr. ring. Qed.

Lemma shift_zeros (c0 : K) : map (fun i => nth i (repeat 0 n) 0 * c0 ^ i) (seq 0 n) = repeat 0 n.
Proof. apply map_zeros. intros i Hi. rewrite nth_repeat_same. ring. Qed.

Theorem mcl_recover_complete (vs : list K) : length vs = n ->
  mcl_recover_with shift unshift s (map Some vs) = Ok (repeat 0 n).
Proof.
  intros L. unfold mcl_recover_with. assert (P0 := pow2_pos m).
  rewrite map_length, L, mcl_is_pow_eq by auto. cbn [bind]. rewrite is_pow2_pow. cbn [negb].
  replace (missing_positions _ (map Some vs)) with (@nil nat).
  2: { rewrite (missing_spec _ None), map_length. symmetry. apply filter_nil_all. intros i Hi. apply in_seq in Hi.
       rewrite (nth_indep _ None (Some 0)) by (rewrite map_length; lia). now rewrite (map_nth Some). }
  rewrite mcl_zero_poly_none. cbn [unwrap bind].
  assert (E := combine_zeros (map Some vs)). rewrite map_length, L in E. rewrite E.
  rewrite mcl_fft_zeros. cbn [unwrap bind].
  rewrite !Hsh by apply repeat_length. cbn [bind]. rewrite !shift_zeros, !mcl_fft_zeros. cbn [unwrap bind].
  rewrite div_zeros, mcl_fft_zeros. cbn [unwrap bind]. rewrite Hush by apply repeat_length. cbn [bind].
  rewrite shift_zeros, mcl_fft_zeros. reflexivity.
Qed.
End R.
End S.
End Z.
