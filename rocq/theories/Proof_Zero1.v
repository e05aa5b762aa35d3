(** * Proof_Zero1: padding, partial vanishing polynomials and their products *)
From Coq Require Import List Arith Lia Bool Field Ring.
From Verif Require Import Base Fld Poly Loops Model_Utils Proof_Utils Model_FFT Spec Proof_FFT Model_ZeroPoly.
Import ListNotations.

Section Z1.
Context {K : fld}.
Add Field Kfz1 : (fld_field K).
Local Open Scope fld_scope.

(** ** pad_poly *)
Lemma pad_poly_spec (p : list K) n : (length p <= n)%nat -> pad_poly p n = Ok (p ++ repeat 0 (n - length p)).
Proof.
  intros H. unfold pad_poly. destruct (Nat.ltb_spec n (length p)); [lia|].
  destruct (for_range_inv (fun t r => r = p ++ repeat 0 (t - length p))
    (fun _ ret => Ok (ret ++ [(0:K)])) (length p) n p) as (r & E & ->).
  - auto.
  - rewrite Nat.sub_diag. simpl. now rewrite app_nil_r.
  - intros t r Ht ->. eexists. split; [reflexivity|]. rewrite <- app_assoc. f_equal.
    replace (S t - length p)%nat with (t - length p + 1)%nat by lia. rewrite repeat_app. reflexivity.
  - exact E.
Qed.

Lemma pad_poly_coef (p : list K) n : (length p <= n)%nat -> pad_poly p n = Ok (map (coef p) (seq 0 n)).
Proof.
  intros H. rewrite pad_poly_spec by auto. f_equal. apply (nth_ext' (0:K)).
  - rewrite app_length, repeat_length, length_map_seq. lia.
  - intros i Hi. rewrite app_length, repeat_length in Hi. rewrite nth_map_seq by lia. unfold coef.
    destruct (Nat.lt_ge_cases i (length p)).
    + now rewrite app_nth1.
    + rewrite app_nth2, nth_repeat_same, nth_overflow by auto. auto.
Qed.

Lemma pad_poly_err (p : list K) n : (n < length p)%nat -> pad_poly p n = Err.
Proof. intros H. unfold pad_poly. apply Nat.ltb_lt in H. now rewrite H. Qed.

(** ** the vanishing polynomial of a list of points *)
Lemma vanish_poly_coef_app (a b : list K) k :
  coef (vanish_poly (a ++ b)) k = convol (vanish_poly a) (vanish_poly b) k.
Proof.
  revert k. induction a as [|r a IH]; intros k.
  - cbn [app]. unfold convol. rewrite (sum_single (S k) 0).
    + rewrite Nat.sub_0_r. change (coef (vanish_poly []) 0) with (1:K). ring.
    + lia.
    + intros i Hi Ni. rewrite (coef_over (vanish_poly [])) by (simpl; lia). ring.
  - cbn [app]. change (vanish_poly (r :: a)) with (pmul [- r; 1] (vanish_poly a)).
    rewrite convol_assoc. rewrite vanish_poly_coef_cons, convol_linear, !coef_pmul, IH.
    destruct k; auto. now rewrite coef_pmul, IH.
Qed.

Lemma vanish_poly_snoc (a : list K) r k :
  coef (vanish_poly (a ++ [r])) k = (- r) * coef (vanish_poly a) k + match k with O => 0 | S k' => coef (vanish_poly a) k' end.
Proof.
  rewrite vanish_poly_coef_app, convol_comm.
  change (vanish_poly [r]) with (pmul [- r; 1] [1]).
  rewrite <- convol_linear. apply convol_ext; auto. intros i _.
  rewrite coef_pmul. destruct i as [|[|i]].
  - unfold convol. cbn. ring.
  - unfold convol. cbn. ring.
  - rewrite convol_over by (simpl; lia). symmetry. apply coef_over. simpl. lia.
Qed.

(** ** do_zero_poly_mul_partial *)
Lemma zero_inner_spec (w : K) i p : (1 <= i)%nat -> (i < length p)%nat ->
  exists p', zero_inner w i p = Ok p' /\ length p' = length p /\
    forall t, nth t p' 0 = if ((0 <? t) && (t <? i))%nat then nth t p 0 * w + nth (t - 1) p 0 else nth t p 0.
Proof.
  intros Hi Hl. unfold zero_inner.
  destruct (while_inv (fun st : nat * list K => let (j, q) := st in (j <= i - 1)%nat /\ length q = length p /\
       forall t, nth t q 0 = if ((j <? t) && (t <? i))%nat then nth t p 0 * w + nth (t - 1) p 0 else nth t p 0)
     (fun st => fst st) (fun st : nat * list K => (0 <? fst st)%nat)
    (fun st => let (j, poly) := st in
       let* x := idx poly j in
       let* poly := upd poly j (fmul x w) in
       let* x := idx poly j in
       let* y := idx poly (j - 1) in
       let* poly := upd poly j (fadd x y) in
       Ok ((j - 1)%nat, poly)) (S i) ((i - 1)%nat, p)) as ([j q] & E & (Hj & Lq & Hq) & C).
  - split; [lia|]. split; auto. intros t.
    destruct (Nat.ltb_spec (i - 1) t), (Nat.ltb_spec t i); auto. lia.
  - cbn [fst]. lia.
  - intros [j q] (Hj & Lq & Hq) C. cbn [fst] in *. apply Nat.ltb_lt in C.
    rewrite (idx_ok q j 0) by lia. cbn [bind]. rewrite upd_ok by lia. cbn [bind].
    rewrite (idx_ok _ j 0) by (rewrite set_length; lia). cbn [bind].
    rewrite (idx_ok _ (j - 1) 0) by (rewrite set_length; lia). cbn [bind].
    rewrite upd_ok by (rewrite set_length; lia). cbn [bind].
    eexists. split; [reflexivity|]. cbn [fst]. split; [|lia]. split; [lia|]. split; [now rewrite !set_length|].
    intros t. rewrite nth_set by (rewrite set_length; lia). rewrite nth_set_same by lia.
    rewrite (nth_set_other _ j _ (j - 1)) by lia.
    destruct (Nat.eqb_spec t j) as [->|Nt].
    + rewrite !Hq. destruct (Nat.ltb_spec j j); [lia|]. destruct (Nat.ltb_spec j (j - 1)); [lia|].
      destruct (Nat.ltb_spec (j - 1) j); [|lia]. destruct (Nat.ltb_spec j i); [|lia]. reflexivity.
    + rewrite nth_set_other by lia. rewrite Hq.
      replace (j - 1 <? t)%nat with (j <? t)%nat; auto.
      apply eq_true_iff_eq. rewrite !Nat.ltb_lt. lia.
  - cbn [fst] in C. apply Nat.ltb_ge in C. assert (j = 0)%nat as -> by lia.
    exists q. split; [|auto].
    match goal with |- bind ?x _ = _ => replace x with (Ok (0%nat, q)) by (symmetry; exact E) end. reflexivity.
Qed.

Lemma do_zero_spec (s : fft_settings K) (rs : list K) (idxs : list nat) stride :
  idxs <> [] -> length rs = length idxs ->
  (forall i, (i < length idxs)%nat -> idx (expanded_roots s) (nth i idxs 0%nat * stride) = Ok (nth i rs 0)) ->
  exists p, do_zero_poly_mul_partial s idxs stride = Ok p /\ length p = S (length idxs) /\
    forall k, coef p k = coef (vanish_poly rs) k.
Proof.
  intros Hn Hr Hi. unfold do_zero_poly_mul_partial.
  set (n := length idxs) in *.
  assert (Ln : (0 < n)%nat) by (destruct idxs; [congruence|simpl in n; unfold n; lia]).
  destruct (Nat.eqb_spec n 0); [lia|].
  rewrite (idx_ok idxs 0 0%nat) by auto. cbn [bind]. rewrite Hi by auto. cbn [bind].
  rewrite upd_ok by (rewrite repeat_length; lia). cbn [bind].
  destruct (for_range_inv (fun t p => length p = (n + 1)%nat /\
     forall k, (k < n + 1)%nat -> nth k p 0 = if (k <? t)%nat then coef (vanish_poly (firstn t rs)) k else 1)
    (zero_step s idxs stride) 1 n (set (repeat 1 (n + 1)) 0 (- nth 0 rs 0))) as (p & E & L & H).
  - lia.
  - split; [now rewrite set_length, repeat_length|]. intros k Hk.
    rewrite nth_set by (rewrite repeat_length; lia).
    destruct k as [|k].
    + cbn [Nat.eqb Nat.ltb Nat.leb]. destruct rs as [|x rs]; [simpl in Hr; lia|].
      change (nth 0 (x :: rs) 0) with x. change (firstn 1 (x :: rs)) with ([] ++ [x]).
      rewrite vanish_poly_snoc. cbn. ring.
    + cbn [Nat.eqb Nat.ltb Nat.leb]. apply nth_repeat'. lia.
  - intros t p Ht (L & H). unfold zero_step.
    rewrite (idx_ok idxs t 0%nat) by lia. cbn [bind]. rewrite Hi by lia. cbn [bind].
    set (w := nth t rs 0). rewrite upd_ok by lia. cbn [bind].
    rewrite (idx_ok _ t 0) by (rewrite set_length; lia). cbn [bind]. rewrite nth_set_same by lia.
    rewrite (idx_ok _ (t - 1) 0) by (rewrite set_length; lia). cbn [bind].
    rewrite (nth_set_other _ t _ (t - 1)) by lia.
    rewrite upd_ok by (rewrite set_length; lia). cbn [bind].
    set (p2 := set (set p t (- w)) t (- w + nth (t - 1) p 0)).
    assert (L2 : length p2 = (n + 1)%nat) by (unfold p2; now rewrite !set_length).
    destruct (zero_inner_spec (- w) t p2) as (p3 & E3 & L3 & H3); [lia|lia|].
    rewrite E3. cbn [bind]. rewrite (idx_ok p3 0 0) by lia. cbn [bind]. rewrite upd_ok by lia.
    eexists. split; [reflexivity|]. split; [rewrite set_length; lia|]. intros k Hk.
    assert (N2 : forall j, (j < n + 1)%nat -> nth j p2 0 = if (j =? t)%nat then - w + nth (t - 1) p 0 else nth j p 0).
    { intros j Hj. unfold p2. rewrite nth_set by (rewrite set_length; lia).
      destruct (Nat.eqb_spec j t); auto. now rewrite nth_set_other by lia. }
    assert (F : firstn (S t) rs = firstn t rs ++ [w]).
    { unfold w. apply firstn_snoc. lia. }
    assert (Lf : length (firstn t rs) = t) by (rewrite firstn_length; lia).
    rewrite F, vanish_poly_snoc. rewrite nth_set by lia.
    destruct (Nat.ltb_spec k (S t)) as [C|C].
    + destruct k as [|k].
      * cbn [Nat.eqb]. rewrite H3. cbn [Nat.ltb Nat.leb andb].
        rewrite N2 by lia. destruct (Nat.eqb_spec 0 t); [lia|]. rewrite H by lia.
        destruct (Nat.ltb_spec 0 t); [|lia]. ring.
      * cbn [Nat.eqb]. rewrite H3. destruct (Nat.ltb_spec 0 (S k)); [|lia]. cbn [andb].
        destruct (Nat.ltb_spec (S k) t).
        -- rewrite !N2 by lia. destruct (Nat.eqb_spec (S k) t); [lia|].
           destruct (Nat.eqb_spec (S k - 1) t); [lia|]. rewrite !H by lia.
           destruct (Nat.ltb_spec (S k) t); [|lia]. destruct (Nat.ltb_spec (S k - 1) t); [|lia].
           replace (S k - 1)%nat with k by lia. ring.
        -- assert (t = S k) as -> by lia. rewrite N2 by lia. rewrite Nat.eqb_refl. rewrite H by lia.
           destruct (Nat.ltb_spec (S k - 1) (S k)); [|lia]. replace (S k - 1)%nat with k by lia.
           assert (M := vanish_poly_monic (firstn (S k) rs)). rewrite Lf in M. rewrite M. ring.
    + destruct (Nat.eqb_spec k 0); [lia|]. rewrite H3.
      destruct (Nat.ltb_spec k t); [lia|]. rewrite andb_false_r. rewrite N2 by lia.
      destruct (Nat.eqb_spec k t); [lia|]. rewrite H by lia. destruct (Nat.ltb_spec k t); [lia|auto].
  - exists p. split; [exact E|]. split; [lia|]. intros k.
    assert (Fn : firstn n rs = rs) by (apply firstn_all2; lia). rewrite Fn in H.
    destruct (Nat.lt_ge_cases k (n + 1)).
    + unfold coef at 1. rewrite H by auto. destruct (Nat.ltb_spec k n); auto.
      assert (k = length rs) as -> by lia. symmetry. apply vanish_poly_monic.
    + rewrite !coef_over; auto; [rewrite vanish_poly_length; lia|lia].
Qed.

Lemma do_zero_empty (s : fft_settings K) stride : do_zero_poly_mul_partial s [] stride = Err.
Proof. reflexivity. Qed.

(** ** reduce_partials *)
Fixpoint pprod (ps : list (list K)) : list K :=
  match ps with [] => [1] | p :: ps' => pmul p (pprod ps') end.
Definition degsum (ps : list (list K)) : nat := fold_right (fun p d => (length p - 1 + d)%nat) 0%nat ps.

Lemma pprod_coef_over ps k : Forall (fun p => p <> []) ps -> (degsum ps < k)%nat -> coef (pprod ps) k = 0.
Proof.
  intros F. revert k. induction F as [|p ps Np F IH]; intros k Hk.
  - apply coef_over. simpl in *. lia.
  - cbn [pprod degsum fold_right] in *. fold (degsum ps) in Hk. rewrite coef_pmul. unfold convol.
    apply sum_0. intros i Hi. destruct (Nat.lt_ge_cases i (length p)) as [C|C].
    + rewrite IH by lia. ring.
    + rewrite coef_over by auto. ring.
Qed.

Lemma degsum_app a b : degsum (a ++ b) = (degsum a + degsum b)%nat.
Proof. induction a; simpl; auto. rewrite IHa. unfold degsum. lia. Qed.

Lemma pprod_eval ps x : peval (pprod ps) x = fold_right (fun p v => peval p x * v) 1 ps.
Proof. induction ps; simpl; [ring|]. now rewrite peval_pmul, IHps. Qed.

Lemma fold_peval_app a b x :
  fold_right (fun (p : list K) v => peval p x * v) 1 (a ++ b)
  = fold_right (fun p v => peval p x * v) 1 a * fold_right (fun p v => peval p x * v) 1 b.
Proof. induction a; simpl; [ring|]. rewrite IHa. ring. Qed.

Theorem reduce_partials_spec (s : fft_settings K) k w m (ps : list (list K)) :
  settings_ok s k w -> (m <= k)%nat -> ps <> [] -> Forall (fun p => p <> []) ps ->
  (degsum ps + 1 <= 2 ^ m)%nat ->
  reduce_partials s (2 ^ m) ps = Ok (map (coef (pprod ps)) (seq 0 (degsum ps + 1))).
Proof.
  intros HS Hm Hn HF HD. unfold reduce_partials. rewrite is_pow2_pow. cbn [negb].
  destruct (for_range_inv (fun t d => d = degsum (firstn t ps))
     (fun i d => let* p := idx ps i in let* l := usub (length p) 1 in Ok (d + l)%nat) 0 (length ps) 0%nat) as (d & E & Ed).
  { lia. } { reflexivity. }
  { intros t d Ht ->. rewrite (idx_ok ps t []) by lia. cbn [bind].
    assert (nth t ps [] <> []) by (rewrite Forall_forall in HF; apply HF; apply nth_In; lia).
    rewrite usub_ok by (destruct (nth t ps []); [congruence|simpl; lia]). cbn [bind].
    eexists. split; [reflexivity|]. rewrite (firstn_snoc ps t []) by lia. rewrite degsum_app. simpl. lia. }
  rewrite firstn_all in Ed. subst d. rewrite E. cbn [bind].
  destruct (Nat.ltb_spec (2 ^ m) (degsum ps + 1)); [lia|].
  assert (Lp : (0 < length ps)%nat) by (destruct ps; [congruence|simpl; lia]).
  set (w' := w ^ (2 ^ (k - m))).
  assert (Hlen : forall t, (t < length ps)%nat -> (length (nth t ps []) <= 2 ^ m)%nat).
  { intros t Ht. assert (Q : forall l : list (list K), In (nth t ps []) l -> (length (nth t ps []) <= degsum l + 1)%nat).
    { induction l as [|a l IH]; [simpl; tauto|]. intros [<-|I]; simpl; [unfold degsum; lia|]. specialize (IH I). unfold degsum in *. lia. }
    specialize (Q ps (nth_In _ _ Ht)). lia. }
  assert (Hfft : forall t, (t < length ps)%nat ->
     (let* padded := pad_poly (nth t ps []) (2 ^ m) in fft_fr s padded false)
     = Ok (map (fun i => peval (nth t ps []) (w' ^ i)) (seq 0 (2 ^ m)))).
  { intros t Ht. rewrite pad_poly_coef by auto. cbn [bind].
    rewrite (fft_fr_spec s k w m) by (auto; apply length_map_seq). f_equal. apply map_ext_seq. intros i Hi.
    apply peval_ext. intros j. rewrite coef_map_seq. destruct (Nat.ltb_spec j (2 ^ m)); auto.
    symmetry. apply coef_over. specialize (Hlen t Ht). lia. }
  rewrite (idx_ok ps 0 []) by auto. cbn [bind].
  assert (H0 := Hfft 0%nat Lp). destruct (pad_poly (nth 0 ps []) (2 ^ m)) as [pd| | |]; try discriminate.
  cbn [bind] in H0 |- *. rewrite H0. cbn [bind].
  destruct (for_range_inv (fun t ev => ev = map (fun i => fold_right (fun p v => peval p (w' ^ i) * v) 1 (firstn t ps)) (seq 0 (2 ^ m)))
    (fun i ev =>
          let* p := idx ps i in
          let* padded := pad_poly p (2 ^ m) in
          let* e := fft_fr s padded false in
          for_range 0 (2 ^ m) (fun j ev =>
            let* x := idx ev j in
            let* y := idx e j in
            upd ev j (fmul x y)) ev) 1 (length ps)
    (map (fun i => peval (nth 0 ps []) (w' ^ i)) (seq 0 (2 ^ m)))) as (ev & Eev & Hev).
  - lia.
  - apply map_ext_seq. intros i Hi. destruct ps as [|p ps]; [congruence|]. simpl. ring.
  - intros t ev Ht ->. rewrite (idx_ok ps t []) by lia. cbn [bind].
    assert (Ht' := Hfft t ltac:(lia)). destruct (pad_poly (nth t ps []) (2 ^ m)) as [pt| | |]; try discriminate.
    cbn [bind] in Ht' |- *. rewrite Ht'. cbn [bind].
    rewrite (map_loop_all (0:K) (2 ^ m) _ (fun j x => x * peval (nth t ps []) (w' ^ j))); [|now rewrite length_map_seq|].
    + eexists. split; [reflexivity|]. apply map_ext_seq. intros i Hi. rewrite nth_map_seq by auto.
      rewrite (firstn_snoc ps t []) by lia. rewrite fold_peval_app. cbn [fold_right]. ring.
    + intros i r Hi Hr. rewrite length_map_seq in Hr. rewrite (idx_ok r i 0) by lia. cbn [bind].
      rewrite (idx_ok _ i 0) by (rewrite length_map_seq; lia). cbn [bind]. rewrite nth_map_seq by auto.
      now rewrite upd_ok by lia.
  - rewrite firstn_all in Hev. subst ev. rewrite Eev. cbn [bind].
    (* the values are those of the product polynomial *)
    set (P := map (coef (pprod ps)) (seq 0 (2 ^ m))).
    assert (LP : length P = (2 ^ m)%nat) by apply length_map_seq.
    assert (CP : forall j, coef P j = coef (pprod ps) j).
    { intros j. unfold P. rewrite coef_map_seq. destruct (Nat.ltb_spec j (2 ^ m)); auto.
      symmetry. apply pprod_coef_over; auto. lia. }
    assert (EV : fft_fr s P false = Ok (map (fun i => fold_right (fun p v => peval p (w' ^ i) * v) 1 ps) (seq 0 (2 ^ m)))).
    { rewrite (fft_fr_spec s k w m) by auto. f_equal. apply map_ext_seq. intros i Hi. rewrite <- pprod_eval. now apply peval_ext. }
    destruct (fft_fr_roundtrip s k w m P HS Hm LP) as [RT _]. rewrite EV in RT. cbn [bind] in RT. rewrite RT. cbn [bind].
    rewrite slice_ok by lia. rewrite Nat.sub_0_r. cbn [skipn]. f_equal. unfold P.
    apply (nth_ext' (0:K)).
    + rewrite firstn_length, !length_map_seq. lia.
    + intros i Hi. rewrite firstn_length, length_map_seq in Hi. rewrite nth_firstn' by lia. now rewrite !nth_map_seq by lia.
Qed.

Theorem reduce_partials_errors (s : fft_settings K) k w dom (ps : list (list K)) :
  settings_ok s k w -> ps <> [] -> Forall (fun p => p <> []) ps ->
  (forall m, dom <> 2 ^ m)%nat \/ (dom < degsum ps + 1)%nat \/ (2 ^ k < dom)%nat ->
  reduce_partials s dom ps = Err.
Proof.
  intros HS Hn HF H. unfold reduce_partials.
  destruct (is_pow2 dom) eqn:EP; [|reflexivity]. cbn [negb].
  destruct (for_range_inv (fun t d => d = degsum (firstn t ps))
     (fun i d => let* p := idx ps i in let* l := usub (length p) 1 in Ok (d + l)%nat) 0 (length ps) 0%nat) as (d & E & Ed).
  { lia. } { reflexivity. }
  { intros t d Ht ->. rewrite (idx_ok ps t []) by lia. cbn [bind].
    assert (nth t ps [] <> []) by (rewrite Forall_forall in HF; apply HF; apply nth_In; lia).
    rewrite usub_ok by (destruct (nth t ps []); [congruence|simpl; lia]). cbn [bind].
    eexists. split; [reflexivity|]. rewrite (firstn_snoc ps t []) by lia. rewrite degsum_app. simpl. lia. }
  rewrite firstn_all in Ed. subst d. rewrite E. cbn [bind].
  destruct (Nat.ltb_spec dom (degsum ps + 1)) as [|Hd]; auto.
  assert (Lp : (0 < length ps)%nat) by (destruct ps; [congruence|simpl; lia]).
  rewrite (idx_ok ps 0 []) by auto. cbn [bind].
  assert (L0 : (length (nth 0 ps []) <= dom)%nat).
  { destruct ps as [|p ps]; [congruence|]. simpl in *. unfold degsum in *. simpl in *. lia. }
  rewrite pad_poly_coef by auto. cbn [bind].
  apply is_pow2_spec in EP as (m & ->).
  rewrite (fft_fr_errors s k w); auto. rewrite length_map_seq.
  destruct H as [H|[H|H]]; [exfalso; now apply (H m)|lia|auto].
Qed.

End Z1.
