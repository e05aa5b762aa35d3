(** * Proof_Poly2: power-series inverse and division *)
From Coq Require Import List Arith Lia Bool NArith Field Ring.
From Verif Require Import Base Fld Poly Loops Model_Utils Proof_Utils Model_FFT Spec Proof_FFT Model_Poly Proof_Poly1.
Import ListNotations.

Section P2.
Context {K : fld}.
Add Field Kfp2 : (fld_field K).
Local Open Scope fld_scope.
Variable table : list K.
Hypothesis HT : table_ok table.
Hypothesis HT32 : length table = 32%nat.


(** one Newton step doubles the precision *)
Lemma newton_step (p c t0 c' : list K) d d' :
  (d' <= 2 * d + 1)%nat ->
  (forall k, (k <= d)%nat -> convol p c k = delta k) ->
  (forall k, (k <= d')%nat -> coef t0 k = delta k + delta k - convol p c k) ->
  (forall k, (k <= d')%nat -> coef c' k = convol c t0 k) ->
  forall k, (k <= d')%nat -> convol p c' k = delta k.
Proof. clear HT32 HT.
  intros Hd Hc Ht Hc' k Hk.
  transitivity (convol p (pmul c t0) k).
  { apply convol_ext; auto. intros i Hi. rewrite coef_pmul. apply Hc'. lia. }
  rewrite <- convol_assoc. unfold convol at 1.
  transitivity (sum (S k) (fun i => delta i * (delta (k - i) + delta (k - i) - convol p c (k - i)))
     + (sum (S k) (fun i => (convol p c i - delta i) * delta (k - i)))).
  - rewrite <- sum_add. apply sum_ext. intros i Hi. rewrite coef_pmul, Ht by lia.
    destruct (Nat.le_gt_cases i d).
    + rewrite (Hc i) by auto. ring.
    + rewrite (Hc (k - i)%nat) by lia. ring.
  - rewrite (sum_single (S k) 0) by (try lia; intros i _ Hi; unfold delta at 1; apply Nat.eqb_neq in Hi; rewrite Hi; ring).
    rewrite (sum_single (S k) k).
    + rewrite Nat.sub_0_r, Nat.sub_diag. unfold delta at 1 5. cbn [Nat.eqb]. ring.
    + lia.
    + intros i Hi Ni. unfold delta at 2. destruct (Nat.eqb_spec (k - i) 0); [lia|ring].
Qed.

Lemma mask_step (m t : nat) :
  (2 * (m / 2 ^ S t) + (if N.eqb (N.land (N.of_nat m) (2 ^ N.of_nat t)) 0 then 0 else 1) = m / 2 ^ t)%nat.
Proof. clear HT32 HT.
  assert (E : (if N.eqb (N.land (N.of_nat m) (2 ^ N.of_nat t)) 0 then 0 else 1)%nat = ((m / 2 ^ t) mod 2)%nat).
  { assert (B : N.testbit (N.of_nat m) (N.of_nat t) = Nat.odd (m / 2 ^ t)).
    { rewrite N.testbit_odd, N.shiftr_div_pow2.
      replace (2 ^ N.of_nat t)%N with (N.of_nat (2 ^ t)) by (rewrite Nat2N.inj_pow; reflexivity).
      rewrite <- Nat2N.inj_div. generalize (m / 2 ^ t)%nat. intros x.
      rewrite <- N.negb_even, <- Nat.negb_even. f_equal.
      apply eq_true_iff_eq. rewrite N.even_spec, Nat.even_spec. split.
      - intros [y Hy]. exists (N.to_nat y). lia.
      - intros [y Hy]. exists (N.of_nat y). lia. }
    assert (L : N.eqb (N.land (N.of_nat m) (2 ^ N.of_nat t)) 0 = negb (N.testbit (N.of_nat m) (N.of_nat t))).
    { destruct (N.testbit (N.of_nat m) (N.of_nat t)) eqn:T; cbn [negb].
      - apply N.eqb_neq. intros Z. assert (W : N.testbit (N.land (N.of_nat m) (2 ^ N.of_nat t)) (N.of_nat t) = true).
        { now rewrite N.land_spec, T, N.pow2_bits_true. }
        rewrite Z, N.bits_0 in W. discriminate.
      - apply N.eqb_eq. apply N.bits_inj. intros i. rewrite N.land_spec, N.bits_0, N.pow2_bits_eqb.
        destruct (N.eqb_spec (N.of_nat t) i) as [<-|]; [now rewrite T|now rewrite andb_false_r]. }
    rewrite L, B. assert (U := Nat.mod_upper_bound (m / 2 ^ t) 2 ltac:(lia)).
    assert (D := Nat.div_mod (m / 2 ^ t) 2 ltac:(lia)).
    destruct (Nat.odd (m / 2 ^ t)) eqn:O; cbn [negb].
    - apply Nat.odd_spec in O as [x Hx]. lia.
    - apply (f_equal negb) in O. rewrite Nat.negb_odd in O. apply Nat.even_spec in O as [x Hx]. lia. }
  rewrite E. cbn [Nat.pow]. rewrite (Nat.mul_comm 2 (2 ^ t)), <- Nat.div_div by (try lia; apply Nat.pow_nonzero; lia).
  symmetry. apply Nat.div_mod. lia.
Qed.

(** the loop state when [t] bits remain *)
Definition mask_of (t : nat) : N := match t with O => 0%N | S t' => (2 ^ N.of_nat t')%N end.

Definition inv_state (p : list K) (n t : nat) (st : nat * N * list K) : Prop :=
  let '(d, mask, ret) := st in
  mask = mask_of t /\ d = ((n - 1) / 2 ^ t)%nat /\ length ret = n /\
  (forall k, (d < k)%nat -> coef ret k = 0) /\
  (forall k, (k <= d)%nat -> convol p ret k = delta k).

Lemma inverse_round_spec p n t st :
  (0 < n)%nat -> (0 < length p)%nat -> fits (length p + n - 1) -> fits (2 * n) ->
  inv_state p n (S t) st ->
  exists st', inverse_round table p n (n - 1) st = Ok st' /\ inv_state p n t st'.
Proof.
  intros Hn Hp F1 F2. destruct st as [[d mask] ret]. intros (Em & Ed & Lr & Hz & Hc).
  unfold inverse_round. subst mask. cbn [mask_of].
  set (d' := (2 * d + (if N.eqb (N.land (N.of_nat (n - 1)) (2 ^ N.of_nat t)) 0 then 0 else 1))%nat).
  assert (Ed' : d' = ((n - 1) / 2 ^ t)%nat) by (unfold d'; rewrite Ed; apply mask_step).
  assert (Dle : (d' <= 2 * d + 1)%nat) by (unfold d'; destruct (N.eqb _ _); lia).
  assert (Dn : (d' <= n - 1)%nat).
  { rewrite Ed'. apply Nat.div_le_upper_bound; [apply Nat.pow_nonzero; lia|].
    assert (P := pow2_pos t). nia. }
  assert (Nr : ret <> []) by (intros ->; simpl in Lr; lia).
  assert (Np : p <> []) by (intros ->; simpl in Hp; lia).
  rewrite usub_ok by lia. cbn [bind]. rewrite min_u64_min.
  replace (Nat.min (d' + 1) (length p + n - 1)) with (d' + 1)%nat by lia.
  rewrite poly_mul_spec; auto; [|now rewrite Lr]. cbn [unwrap bind].
  rewrite length_map_seq.
  rewrite (map_loop_all (0:K) (d' + 1) _ (fun _ x => - x)); auto.
  2:{ now rewrite length_map_seq. }
  2:{ intros i r Hi Hr. rewrite length_map_seq in Hr. rewrite (idx_ok r i 0) by lia. cbn [bind].
      now rewrite upd_ok by lia. }
  cbn [bind].
  set (t1 := map (fun i => - nth i (map (convol p ret) (seq 0 (d' + 1))) 0) (seq 0 (d' + 1))).
  assert (Lt1 : length t1 = (d' + 1)%nat) by apply length_map_seq.
  rewrite (idx_ok t1 0 0) by lia. cbn [bind]. rewrite upd_ok by lia. cbn [bind].
  set (t0 := set t1 0 (nth 0 t1 0 + fnat 2)).
  assert (Lt0 : length t0 = (d' + 1)%nat) by (unfold t0; now rewrite set_length).
  assert (C0 : forall k, (k <= d')%nat -> coef t0 k = delta k + delta k - convol p ret k).
  { intros k Hk. unfold coef, t0. rewrite nth_set by lia.
    assert (T : forall j, (j <= d')%nat -> nth j t1 0 = - convol p ret j).
    { intros j Hj. unfold t1. rewrite nth_map_seq by lia. now rewrite nth_map_seq by lia. }
    unfold delta. destruct (Nat.eqb_spec k 0) as [->|N].
    - rewrite T by lia. rewrite fnat_2. ring.
    - rewrite T by lia. ring. }
  assert (Nt0 : t0 <> []) by (intros E; rewrite E in Lt0; simpl in Lt0; lia).
  rewrite poly_mul_spec; auto.
  2:{ rewrite Lr, Lt0. unfold fits in *. lia. }
  cbn [unwrap bind]. rewrite length_map_seq.
  rewrite (map_loop (0:K) _ _ (fun i _ => convol ret t0 i)).
  2:{ lia. }
  2:{ intros i r Hi Hr. rewrite (idx_ok _ i 0) by (rewrite length_map_seq; auto). cbn [bind].
      rewrite nth_map_seq by auto. now rewrite upd_ok by lia. }
  cbn [bind]. eexists. split; [reflexivity|].
  rewrite Lr. set (ret' := map _ (seq 0 n)).
  assert (Cr : forall k, coef ret' k = if (k <=? d')%nat then convol ret t0 k else 0).
  { intros k. unfold ret'. rewrite coef_map_seq.
    destruct (Nat.ltb_spec k n), (Nat.leb_spec k d'), (Nat.ltb_spec k (d' + 1)); auto; try lia.
    apply Hz. subst d. assert (Q : ((n - 1) / 2 ^ S t <= (n - 1) / 2 ^ t)%nat).
    { apply Nat.div_le_compat_l. split; [apply pow2_pos|apply Nat.pow_le_mono_r; lia]. }
    lia. }
  split; [|split; [|split; [|split]]].
  - rewrite N.shiftr_div_pow2. change (2 ^ 1)%N with 2%N. destruct t; cbn [mask_of].
    + reflexivity.
    + rewrite Nat2N.inj_succ, N.pow_succ_r', N.mul_comm. apply N.div_mul. lia.
  - exact Ed'.
  - apply length_map_seq.
  - intros k Hk. rewrite Cr. destruct (Nat.leb_spec k d'); [lia|auto].
  - apply (newton_step p ret t0 ret' d d'); auto.
    intros k Hk. rewrite Cr. destruct (Nat.leb_spec k d'); [auto|lia].
Qed.

Lemma inverse_loop_spec p n : forall t fuel st,
  (0 < n)%nat -> (0 < length p)%nat -> fits (length p + n - 1) -> fits (2 * n) ->
  (t < fuel)%nat -> inv_state p n t st ->
  exists st', while_ fuel (fun st : nat * N * list K => negb (N.eqb (snd (fst st)) 0))
                     (inverse_round table p n (n - 1)) st = Ok st' /\ inv_state p n 0 st'.
Proof.
  induction t as [|t IH]; intros fuel st Hn Hp F1 F2 Hf I; (destruct fuel as [|fuel]; [lia|]).
  - exists st. split; auto. cbn [while_]. destruct st as [[d m] r]. destruct I as (-> & _). reflexivity.
  - cbn [while_]. assert (C : negb (N.eqb (snd (fst st)) 0) = true).
    { destruct st as [[d m] r]. destruct I as (-> & _). cbn [fst snd mask_of].
      assert (2 ^ N.of_nat t <> 0)%N by (apply N.pow_nonzero; lia).
      apply N.eqb_neq in H. now rewrite H. }
    rewrite C. destruct (inverse_round_spec p n t st) as (st1 & E1 & I1); auto.
    rewrite E1. cbn [bind]. apply IH; auto. lia.
Qed.

Theorem poly_inverse_spec p n :
  (0 < n)%nat -> p <> [] -> coef p 0 <> 0 -> fits (length p + n - 1) -> fits (2 * n) ->
  exists c, poly_inverse table p n = Ok c /\ length c = n /\
    forall k, (k < n)%nat -> convol p c k = delta k.
Proof.
  intros Hn Np Hc F1 F2. unfold poly_inverse.
  assert (Lp : (0 < length p)%nat) by (destruct p; [congruence|simpl; lia]).
  destruct (Nat.eqb_spec n 0); [lia|]. destruct (Nat.eqb_spec (length p) 0); [lia|].
  rewrite (idx_ok p 0 0) by auto. cbn [bind]. fold (coef p 0).
  destruct (feqb (coef p 0) 0) eqn:Z; [apply feqb_spec in Z; contradiction|].
  rewrite upd_ok by (rewrite repeat_length; auto).
  set (r0 := set (repeat 0 n) 0 (finv (coef p 0))).
  assert (Lr0 : length r0 = n) by (unfold r0; now rewrite set_length, repeat_length).
  assert (Cr0 : forall k, coef r0 k = if (k =? 0)%nat then finv (coef p 0) else 0).
  { intros k. unfold r0, coef. rewrite nth_set by (rewrite repeat_length; auto).
    destruct (k =? 0)%nat; auto. apply nth_repeat_same. }
  destruct (Nat.eqb_spec (length p) 1) as [L1|L1].
  - exists r0. split; auto. split; auto. intros k Hk. unfold convol.
    rewrite (sum_single (S k) 0).
    + rewrite Nat.sub_0_r, Cr0. unfold delta. destruct (Nat.eqb_spec k 0); [field; auto|ring].
    + lia.
    + intros i Hi Ni. rewrite (coef_over p) by lia. ring.
  - cbn [bind].
    assert (Lg : exists t, log2_u64 (N.of_nat (n - 1)) = Ok (N.of_nat t) /\ (t < 64)%nat /\ (n - 1 < 2 ^ S t)%nat).
    { destruct (Nat.eq_dec n 1) as [->|N1].
      - exists 0%nat. split; [reflexivity|]. split; [lia|simpl; lia].
      - assert (B : (N.of_nat (n - 1) < 2 ^ 32)%N).
        { unfold fits in F2. assert (2 ^ 31 < 2 ^ 32)%N by (apply N.pow_lt_mono_r; lia). lia. }
        exists (N.to_nat (N.log2 (N.of_nat (n - 1)))). rewrite N2Nat.id. split.
        + apply log2_u64_spec; [lia|]. eapply N.lt_trans; [exact B|]. apply N.pow_lt_mono_r; lia.
        + assert (Sp := N.log2_spec (N.of_nat (n - 1)) ltac:(lia)). split.
          * assert (N.log2 (N.of_nat (n - 1)) < 64)%N; [|lia].
            apply N.log2_lt_pow2; [lia|]. eapply N.lt_trans; [exact B|]. apply N.pow_lt_mono_r; lia.
          * assert (E : N.of_nat (2 ^ S (N.to_nat (N.log2 (N.of_nat (n - 1))))) = (2 ^ N.succ (N.log2 (N.of_nat (n - 1))))%N).
            { rewrite Nat2N.inj_pow. f_equal. lia. }
            lia. }
    destruct Lg as (t & Eg & Ht & Hlt). rewrite Eg. cbn [bind].
    destruct (inverse_loop_spec p n (S t) 65 (0%nat, N.shiftl 1 (N.of_nat t), r0)) as (st & Est & I); auto; [lia| |].
    { split; [|split; [|split; [|split]]].
      - rewrite N.shiftl_1_l. reflexivity.
      - symmetry. apply Nat.div_small. exact Hlt.
      - exact Lr0.
      - intros k Hk. rewrite Cr0. destruct (Nat.eqb_spec k 0); [lia|auto].
      - intros k Hk. assert (k = 0)%nat as -> by lia. unfold convol. cbn [sum]. rewrite Cr0. unfold delta. cbn. field. auto. }
    rewrite Est. cbn [bind]. destruct st as [[d m] r]. destruct I as (_ & Ed & Lr & _ & Hcv).
    rewrite Nat.pow_0_r, Nat.div_1_r in Ed.
    destruct (Nat.eqb_spec (d + 1) n); [|lia].
    exists r. split; auto. split; auto. intros k Hk. apply Hcv. lia.
Qed.

Theorem poly_inverse_errors (p : list K) n : n = 0%nat \/ p = [] \/ coef p 0 = 0 -> poly_inverse table p n = Err.
Proof. clear HT32 HT.
  intros H. unfold poly_inverse. destruct (Nat.eqb_spec n 0) as [|Nn]; auto.
  destruct (Nat.eqb_spec (length p) 0) as [|Np]; auto.
  destruct H as [H|[H|H]]; [contradiction|subst; simpl in Np; lia|].
  rewrite (idx_ok p 0 0) by lia. cbn [bind]. fold (coef p 0). rewrite H, feqb_refl. reflexivity.
Qed.

(** ** long division *)
Lemma convol_set (q b : list K) d x k :
  (d < length q)%nat -> coef q d = 0 ->
  convol (set q d x) b k = convol q b k + x * (if (d <=? k)%nat then coef b (k - d) else 0).
Proof. clear HT32 HT.
  intros Hd H0. unfold convol.
  destruct (Nat.leb_spec d k).
  - transitivity (sum (S k) (fun i => coef q i * coef b (k - i) + (if (i =? d)%nat then x * coef b (k - i) else 0))).
    + apply sum_ext. intros i Hi. unfold coef. rewrite nth_set by auto.
      destruct (Nat.eqb_spec i d) as [->|]; [|ring].
      change (nth d q 0) with (coef q d). rewrite H0. ring.
    + rewrite sum_add. f_equal. rewrite (sum_single (S k) d).
      * now rewrite Nat.eqb_refl.
      * lia.
      * intros i Hi Ni. apply Nat.eqb_neq in Ni. now rewrite Ni.
  - replace (x * 0) with (0:K) by ring. transitivity (sum (S k) (fun i => coef q i * coef b (k - i))); [|ring].
    apply sum_ext. intros i Hi. unfold coef. rewrite nth_set by auto.
    destruct (Nat.eqb_spec i d); [lia|auto].
Qed.

Lemma long_div_inner_spec (b : list K) diff q a :
  (0 < length b)%nat -> (diff + length b <= length a)%nat ->
  exists a', long_div_inner b (length b - 1) diff q a = Ok a' /\ length a' = length a /\
    forall k, coef a' k = coef a k - q * (if (diff <=? k)%nat then coef b (k - diff) else 0).
Proof. clear HT32 HT.
  intros Hb Ha. unfold long_div_inner. replace (length b - 1 + 1)%nat with (length b) by lia.
  destruct (for_range_inv (fun t r => length r = length a /\ forall k, coef r k =
     coef a k - q * (if (diff <=? k)%nat then (if (k - diff <? t)%nat then coef b (k - diff) else 0) else 0))
    (fun i a => let* bi := idx b i in
      let tmp := fmul q bi in
      let* ai := idx a (diff + i)%nat in
      upd a (diff + i)%nat (fsub ai tmp)) 0 (length b) a) as (a' & E & L & H).
  - lia.
  - split; auto. intros k. destruct (diff <=? k)%nat; [|ring].
    destruct (Nat.ltb_spec (k - diff) 0); [lia|ring].
  - intros t r Ht (L & H). rewrite (idx_ok b t 0) by lia. cbn [bind].
    rewrite (idx_ok r (diff + t) 0) by lia. cbn [bind]. rewrite upd_ok by lia.
    eexists. split; [reflexivity|]. split; [now rewrite set_length|]. intros k.
    unfold coef at 1. rewrite nth_set by lia. destruct (Nat.eqb_spec k (diff + t)) as [->|Nk].
    + change (nth (diff + t) r 0) with (coef r (diff + t)). rewrite H.
      destruct (Nat.leb_spec diff (diff + t)); [|lia]. replace (diff + t - diff)%nat with t by lia.
      destruct (Nat.ltb_spec t t); [lia|]. destruct (Nat.ltb_spec t (S t)); [|lia]. unfold coef. ring.
    + change (nth k r 0) with (coef r k). rewrite H. destruct (Nat.leb_spec diff k); auto.
      replace (k - diff <? S t)%nat with (k - diff <? t)%nat; auto.
      apply eq_true_iff_eq. rewrite !Nat.ltb_lt. lia.
  - exists a'. split; [exact E|]. split; auto. intros k. rewrite H. f_equal. f_equal.
    destruct (Nat.leb_spec diff k); auto. destruct (Nat.ltb_spec (k - diff) (length b)); auto.
    symmetry. now apply coef_over.
Qed.

Theorem long_div_spec (a b : list K) :
  b <> [] -> coef b (length b - 1) <> 0 -> exists q, long_div a b = Ok q /\ euclid a b q.
Proof. clear HT32 HT.
  intros Nb Hl. unfold long_div, poly_quotient_length.
  assert (Lb : (0 < length b)%nat) by (destruct b; [congruence|simpl; lia]).
  destruct (Nat.eqb_spec (length b) 0) as [|_]; [lia|].
  rewrite (idx_ok b _ 0) by lia. cbn [bind]. fold (coef b (length b - 1)).
  destruct (feqb _ _) eqn:Z; [apply feqb_spec in Z; contradiction|].
  set (lb := coef b (length b - 1)) in *.
  destruct (Nat.leb_spec (length b) (length a)) as [Hab|Hab].
  2:{ exists []. split; [reflexivity|]. split; [simpl; lia|]. exists a. split; auto.
      intros k. rewrite convol_nil_l. ring. }
  destruct (Nat.eqb_spec (length a - length b + 1) 0); [lia|].
  rewrite !usub_ok by lia. cbn [bind]. rewrite usub_ok by lia. cbn [bind].
  set (nq := (length a - length b + 1)%nat).
  set (I := fun st : list K * list K * nat * nat =>
    let '(out, r, diff, a_pos) := st in
    length out = nq /\ length r = length a /\ (diff < nq)%nat /\ a_pos = (diff + (length b - 1))%nat /\
    (forall i, (i <= diff)%nat -> coef out i = 0) /\
    (forall k, (a_pos < k)%nat -> coef r k = 0) /\
    (forall k, coef a k = convol out b k + coef r k)).
  destruct (while_inv I (fun st => snd (fst st)) (fun st : list K * list K * nat * nat => (0 <? snd (fst st))%nat)
     (long_div_step b (length b - 1)) (S (length a - 1 - (length b - 1)))
     (repeat 0 nq, a, (length a - 1 - (length b - 1))%nat, (length a - 1)%nat)) as ([[[out r] diff] a_pos] & E & Hi & C).
  - unfold I. split; [apply repeat_length|]. split; auto. split; [unfold nq; lia|]. split; [lia|].
    split; [intros; apply coef_repeat0|]. split; [intros; apply coef_over; lia|].
    intros k. unfold convol. rewrite sum_0; [ring|]. intros. rewrite coef_repeat0. ring.
  - cbn [fst snd]. lia.
  - intros [[[out r] diff] a_pos] (L1 & L2 & Hd & -> & Ho & Hr & Hs) C. cbn [fst snd] in *.
    apply Nat.ltb_lt in C. unfold long_div_step.
    rewrite (idx_ok r _ 0) by (unfold nq in *; lia). cbn [bind]. rewrite (idx_ok b _ 0) by lia. cbn [bind unwrap fr_div].
    fold (coef r (diff + (length b - 1))). fold (coef b (length b - 1)). fold lb.
    set (q := coef r (diff + (length b - 1)) * finv lb).
    rewrite upd_ok by lia. cbn [bind].
    rewrite (idx_ok _ diff 0) by (rewrite set_length; lia). cbn [bind]. rewrite nth_set_same by lia.
    destruct (long_div_inner_spec b diff q r) as (r' & Er & Lr' & Hr'); auto; [unfold nq in *; lia|].
    rewrite Er. cbn [bind]. rewrite !usub_ok by lia. cbn [bind].
    eexists. split; [reflexivity|]. cbn [fst snd]. split; [|lia].
    split; [now rewrite set_length|]. split; [congruence|]. split; [lia|]. split; [lia|].
    split; [|split].
    + intros i Hi. unfold coef. rewrite nth_set_other by lia. apply Ho. lia.
    + intros k Hk. rewrite Hr'. destruct (Nat.leb_spec diff k); [|lia].
      destruct (Nat.eq_dec k (diff + (length b - 1))) as [->|Nk].
      * replace (diff + (length b - 1) - diff)%nat with (length b - 1)%nat by lia. fold lb. unfold q. field. auto.
      * rewrite Hr by lia. rewrite coef_over by lia. ring.
    + intros k. rewrite convol_set by (try lia; apply Ho; lia). rewrite Hr', Hs. ring.
  - destruct Hi as (L1 & L2 & Hd & -> & Ho & Hr & Hs). cbn [fst snd] in C. apply Nat.ltb_ge in C.
    assert (diff = 0%nat) as -> by lia.
    match goal with |- context [while_ ?x ?y ?z ?u] =>
      replace (while_ x y z u) with (Ok (out, r, 0%nat, (0 + (length b - 1))%nat)) by (symmetry; exact E) end.
    cbn [bind]. rewrite (idx_ok r _ 0) by lia. cbn [bind]. rewrite (idx_ok b _ 0) by lia. cbn [bind unwrap fr_div].
    fold (coef r (0 + (length b - 1))). fold (coef b (length b - 1)). fold lb.
    set (q := coef r (0 + (length b - 1)) * finv lb).
    rewrite upd_ok by lia. eexists. split; [reflexivity|]. split; [rewrite set_length; unfold nq in *; lia|].
    exists (map (fun k => coef r k - q * coef b k) (seq 0 (length b - 1))).
    split; [rewrite length_map_seq; lia|]. intros k.
    rewrite convol_set by (try lia; apply Ho; lia). rewrite coef_map_seq. cbn [Nat.leb]. rewrite Nat.sub_0_r, Hs.
    destruct (Nat.ltb_spec k (length b - 1)); [ring|].
    destruct (Nat.eq_dec k (length b - 1)) as [->|Nk].
    + unfold q. cbn [Nat.add]. fold lb. field. auto.
    + rewrite (coef_over b k) by lia. rewrite Hr by lia. ring.
Qed.

Theorem long_div_errors (a b : list K) : b = [] \/ coef b (length b - 1) = 0 -> long_div a b = Err.
Proof. clear HT32 HT.
  intros H. unfold long_div. destruct (Nat.eqb_spec (length b) 0) as [|N]; auto.
  destruct H as [->|H]; [simpl in N; lia|]. rewrite (idx_ok b _ 0) by lia. cbn [bind].
  fold (coef b (length b - 1)). now rewrite H, feqb_refl.
Qed.

Lemma euclid_fun (a b q q' : list K) :
  b <> [] -> coef b (length b - 1) <> 0 -> euclid a b q -> euclid a b q' -> q = q'.
Proof. clear HT32 HT.
  intros Nb Hl (L & r & Lr & H) (L' & r' & Lr' & H').
  apply coef_ext; [congruence|]. intros i _.
  apply (euclid_unique b q r q' r'); auto. intros k. now rewrite <- H, <- H'.
Qed.

(** ** fast division *)
Lemma coef_rev (p : list K) i : (i < length p)%nat -> coef (rev p) i = coef p (length p - 1 - i).
Proof. clear HT32 HT. intros H. unfold coef. rewrite rev_nth by auto. f_equal. lia. Qed.

Lemma convol_rev (a b : list K) k n : (length a + length b = n + 2)%nat -> (k <= n)%nat ->
  convol (rev a) (rev b) k = convol a b (n - k).
Proof. clear HT32 HT.
  intros Hn Hk.
  (* both are sums over pairs (i, j) with i < len a *)
  rewrite <- !convol_by_rows, rev_length. rewrite (sum_rev (length a)).
  apply sum_ext. intros i Hi.
  rewrite coef_rev by lia. replace (length a - 1 - (length a - 1 - i))%nat with i by lia. f_equal.
  destruct (Nat.leb_spec (length a - 1 - i) k) as [H1|H1].
  - destruct (Nat.lt_ge_cases (k - (length a - 1 - i)) (length b)) as [H2|H2].
    + rewrite coef_rev by auto. destruct (Nat.leb_spec i (n - k)); [f_equal; lia|lia].
    + rewrite coef_over by (rewrite rev_length; auto). destruct (Nat.leb_spec i (n - k)); [lia|auto].
  - destruct (Nat.leb_spec i (n - k)); auto. symmetry. apply coef_over. lia.
Qed.

Theorem fast_div_spec (a b : list K) :
  a <> [] -> b <> [] -> coef b (length b - 1) <> 0 -> fits (2 * length a) ->
  exists q, fast_div table a b = Ok q /\ euclid a b q.
Proof.
  intros Na Nb Hl F. unfold fast_div.
  assert (La : (0 < length a)%nat) by (destruct a; [congruence|simpl; lia]).
  assert (Lb : (0 < length b)%nat) by (destruct b; [congruence|simpl; lia]).
  destruct (Nat.eqb_spec (length b) 0) as [|_]; [lia|].
  rewrite (idx_ok b _ 0) by lia. cbn [bind]. fold (coef b (length b - 1)).
  destruct (feqb _ _) eqn:Z; [apply feqb_spec in Z; contradiction|]. clear Z.
  set (lb := coef b (length b - 1)) in *.
  rewrite usub_ok by lia. cbn [bind]. rewrite usub_ok by lia. cbn [bind].
  destruct (Nat.ltb_spec (length a - 1) (length b - 1)) as [C|C].
  { exists []. split; [reflexivity|]. split; [simpl; lia|]. exists a. split; [lia|]. intros k. rewrite convol_nil_l. ring. }
  destruct (Nat.eqb_spec (length b) 1) as [B1|B1].
  { rewrite (copy_loop (0:K) _ _ (fun i => coef a i * finv lb)).
    - eexists. split; [reflexivity|]. split; [rewrite length_map_seq; lia|]. exists []. split; [simpl; lia|].
      intros k. rewrite coef_nil. unfold convol. rewrite (sum_single (S k) k).
      + rewrite Nat.sub_diag, coef_map_seq. replace 0%nat with (length b - 1)%nat by lia. fold lb.
        destruct (Nat.ltb_spec k (length a)); [field; auto|]. rewrite coef_over by auto. ring.
      + lia.
      + intros i Hi Ni. rewrite (coef_over b) by lia. ring.
    - now rewrite repeat_length.
    - intros i r Hi Hr. rewrite repeat_length in Hr. rewrite (idx_ok a i 0), (idx_ok b 0 0) by lia.
      cbn [bind unwrap fr_div]. rewrite upd_ok by lia. do 2 f_equal. unfold lb, coef. do 3 f_equal. lia. }
  rewrite !poly_flip_spec. cbn [unwrap bind].
  set (m := (length a - 1)%nat) in *. set (n := (length b - 1)%nat) in *. set (L := (m - n + 1)%nat).
  destruct (poly_inverse_spec (rev b) L) as (c & Ec & Lc & Hc).
  - unfold L. lia.
  - intros E. apply (f_equal (@length K)) in E. rewrite rev_length in E. simpl in E. lia.
  - rewrite coef_rev by auto. rewrite Nat.sub_0_r. exact Hl.
  - rewrite rev_length. unfold fits, L, m, n in *. lia.
  - unfold fits, L, m, n in *. lia.
  - rewrite Ec. cbn [unwrap bind].
    assert (Nra : rev a <> []) by (intros E; apply (f_equal (@length K)) in E; rewrite rev_length in E; simpl in E; lia).
    assert (Nc : c <> []) by (intros E; rewrite E in Lc; simpl in Lc; unfold L in Lc; lia).
    rewrite poly_mul_spec; auto.
    2:{ rewrite rev_length, Lc. unfold fits, L, m, n in *. lia. }
    cbn [unwrap bind]. rewrite poly_flip_spec. cbn [unwrap].
    set (qf := map (convol (rev a) c) (seq 0 L)).
    assert (Lqf : length qf = L) by apply length_map_seq.
    eexists. split; [reflexivity|]. split; [rewrite rev_length, Lqf; unfold L, m, n; lia|].
    (* qf * rev b = rev a modulo x^L *)
    assert (HQ : forall k, (k < L)%nat -> convol qf (rev b) k = coef (rev a) k).
    { intros k Hk.
      transitivity (convol (pmul (rev a) c) (rev b) k).
      { apply convol_ext; auto. intros i Hi. rewrite coef_pmul. unfold qf. rewrite coef_map_seq.
        destruct (Nat.ltb_spec i L); [auto|lia]. }
      rewrite convol_assoc. unfold convol.
      rewrite (sum_single (S k) k).
      - rewrite Nat.sub_diag, coef_pmul, convol_comm, Hc by (unfold L; lia). unfold delta. cbn. ring.
      - lia.
      - intros i Hi Ni. rewrite coef_pmul, convol_comm, Hc by lia. unfold delta.
        destruct (Nat.eqb_spec (k - i) 0); [lia|ring]. }
    assert (HB : forall j, (n <= j <= m)%nat -> convol (rev qf) b j = coef a j).
    { intros j Hj. assert (E := convol_rev qf (rev b) j m).
      rewrite rev_involutive in E. rewrite E.
      - rewrite HQ by (unfold L; lia). rewrite coef_rev by (unfold m in *; lia). f_equal. unfold m in *; lia.
      - rewrite Lqf, rev_length. unfold L, m, n in *. lia.
      - lia. }
    exists (map (fun k => coef a k - convol (rev qf) b k) (seq 0 n)).
    split; [rewrite length_map_seq; unfold n; lia|]. intros k. rewrite coef_map_seq.
    destruct (Nat.ltb_spec k n); [ring|].
    destruct (Nat.le_gt_cases k m).
    + rewrite HB by lia. ring.
    + rewrite convol_over by (rewrite rev_length, Lqf; unfold L, m, n in *; lia).
      rewrite coef_over by (unfold m in *; lia). ring.
Qed.

Theorem fast_div_errors (a b : list K) : b = [] \/ coef b (length b - 1) = 0 -> fast_div table a b = Err.
Proof. clear HT32 HT.
  intros H. unfold fast_div. destruct (Nat.eqb_spec (length b) 0) as [|N]; auto.
  destruct H as [->|H]; [simpl in N; lia|]. rewrite (idx_ok b _ 0) by lia. cbn [bind].
  fold (coef b (length b - 1)). now rewrite H, feqb_refl.
Qed.

Theorem fast_div_empty (b : list K) : b <> [] -> coef b (length b - 1) <> 0 -> fast_div table [] b = Panic.
Proof. clear HT32 HT.
  intros Nb Hl. unfold fast_div.
  assert (Lb : (0 < length b)%nat) by (destruct b; [congruence|simpl; lia]).
  destruct (Nat.eqb_spec (length b) 0); [lia|].
  rewrite (idx_ok b _ 0) by lia. cbn [bind]. fold (coef b (length b - 1)).
  destruct (feqb _ _) eqn:Z; [apply feqb_spec in Z; contradiction|]. cbn [length].
  now rewrite usub_panic by lia.
Qed.
End P2.
