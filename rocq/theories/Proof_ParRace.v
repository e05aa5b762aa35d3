(** * Proof_ParRace: single calls of the scale functions, and two of them at once *)
From Coq Require Import List Arith Bool Lia NArith ZArith.
From Verif Require Import Base Fld Zr Model_Utils Model_FFT Model_Scalar Conc Model_Par Model_Zk Model_ZkZero Model_ZkMsm Proof_Conc Proof_Par
  Model_ParBackends Proof_ParBackends Spec_ParTables Proof_ParTables.
Import ListNotations.
Local Open Scope nat_scope.

(** the digits of a scalar never fail *)
Lemma pure_limb_digit s w c : pure (limb_digit s w c).
Proof.
  unfold limb_digit, divn. destruct (Z.leb 256 (Z.of_nat w)) eqn:E; [destruct (from_u64 0); split; discriminate|].
  apply Z.leb_gt in E. apply pure_bind.
  - destruct (reduce s) as [a0 a1 a2 a3]. apply pure_bind.
    + unfold divn_words. cbn [while_ fst].
      do 5 (match goal with |- pure (if (64 <=? ?x)%Z then _ else _) => destruct (Z.leb_spec 64 x) end; cbn [bind fst]; [|split; discriminate]).
      exfalso. lia.
    + intros [n [l0 l1 l2 l3]] _. destruct (0 <? n)%Z; split; discriminate.
  - intros [l0 l1 l2 l3] _. split; discriminate.
Qed.
Lemma pure_fr_digit x w c : pure (fr_digit x w c).
Proof. split; discriminate. Qed.

(** ** Transforms that start by forking *)
Lemma ark_both_move {K : fld} {M : gmod K} (data : list M) (roots : list K) m n rs : 1 <= length data -> 20 <= n ->
  exists (p q : proc _ unit) k, ark_fft_g1_fast_par (S n) 0 n data 1 roots rs = Fork p q k
  /\ (exists p' m', step p m p' m') /\ (exists q' m', step q m q' m').
Proof.
  intros Hd Hn.
  assert (H : forall fuel off len (d : list M) st rs, 8 < len -> finished (ark_fft_g1_fast_par (S fuel) off len d st roots rs) = false).
  { intros fuel off len d st rs' Hl. cbn [ark_fft_g1_fast_par]. destruct (Nat.ltb_spec 0 (len / 2)) as [_|L].
    - destruct (Nat.ltb_spec 8 len); [reflexivity|lia].
    - pose proof (Nat.div_str_pos len 2). lia. }
  assert (10 <= n / 2) by (apply Nat.div_le_lower_bound; lia).
  assert (10 <= n - n / 2) by (pose proof (Nat.div_le_upper_bound n 2 (n - 10)); lia).
  enough (G : forall f, exists (p q : proc _ unit) k, ark_fft_g1_fast_par (S (S f)) 0 n data 1 roots rs = Fork p q k
     /\ (exists p' m', step p m p' m') /\ (exists q' m', step q m q' m')) by (destruct n; [lia|apply G]).
  intros f. remember (S f) as f' eqn:Ef. cbn [ark_fft_g1_fast_par]. subst f'.
  destruct (Nat.ltb_spec 0 (n / 2)); [|lia]. destruct (Nat.ltb_spec 8 n); [|lia].
  do 3 eexists. split; [reflexivity|]. split; apply progress.
  - unfold slice_from. destruct (Nat.leb_spec 1 (length data)); [|lia]. cbn [liftc bindp]. apply H. lia.
  - apply H. lia.
Qed.
Lemma mcl_both_move {K : fld} (values roots : list K) m n rs : 1028 <= n ->
  exists (p q : proc _ unit) k, mcl_fft_rec_par (S n) 0 n values 0 1 roots rs = Fork p q k
  /\ (exists p' m', step p m p' m') /\ (exists q' m', step q m q' m').
Proof.
  intros Hn.
  assert (H : forall fuel off len o st rs, 514 <= len -> finished (mcl_fft_rec_par (S fuel) off len values o st roots rs) = false).
  { intros fuel off len o st rs' Hl. cbn [mcl_fft_rec_par]. destruct (Nat.leb_spec len 4); [lia|].
    assert (257 <= len / 2) by (apply Nat.div_le_lower_bound; lia). destruct (Nat.ltb_spec 256 (len / 2)); [reflexivity|lia]. }
  assert (514 <= n / 2) by (apply Nat.div_le_lower_bound; lia).
  assert (514 <= n - n / 2) by (pose proof (Nat.div_le_upper_bound n 2 (n - 514)); lia).
  enough (G : forall f, exists (p q : proc _ unit) k, mcl_fft_rec_par (S (S f)) 0 n values 0 1 roots rs = Fork p q k
     /\ (exists p' m', step p m p' m') /\ (exists q' m', step q m q' m')) by (destruct n; [lia|apply G]).
  intros f. remember (S f) as f' eqn:Ef. cbn [mcl_fft_rec_par]. subst f'.
  destruct (Nat.leb_spec n 4); [lia|]. destruct (Nat.ltb_spec 256 (n / 2)); [|lia].
  do 3 eexists. split; [reflexivity|]. split; apply progress; apply H; lia.
Qed.

(** ** A chosen schedule of the two sides of a join *)
Section Exec.
Context {V : Type}.
Definition adv {A} (p : proc V A) (m : list V) : option (proc V A * list V) :=
  match p with
  | Rd a k => match nth_error m a with Some v => Some (k v, m) | None => None end
  | Wr a v k => if a <? length m then Some (k, set m a v) else None
  | _ => None
  end.
Lemma adv_step {A} (p : proc V A) m p' m' : adv p m = Some (p', m') -> step p m p' m'.
Proof.
  destruct p as [x| |a k|a v k|B C p q k|W B l p k]; try discriminate; unfold adv; intros H; cbn [step].
  - destruct (nth_error m a); [|discriminate]. injection H as <- <-. auto.
  - destruct (a <? length m); [|discriminate]. injection H as <- <-. auto.
Qed.
Fixpoint exec {A B} (sched : list bool) (p : proc V A) (q : proc V B) (m : list V) : option (proc V A * proc V B * list V) :=
  match sched with
  | [] => Some (p, q, m)
  | true :: sched => match adv p m with Some (p, m) => exec sched p q m | None => None end
  | false :: sched => match adv q m with Some (q, m) => exec sched p q m | None => None end
  end.
Lemma exec_steps {A B C} sched : forall (p : proc V A) (q : proc V B) m p' q' m' (k : A -> B -> proc V C),
  exec sched p q m = Some (p', q', m') -> steps (Fork p q k) m (Fork p' q' k) m'.
Proof.
  induction sched as [|[|] sched IH]; intros p q m p' q' m' k H; cbn [exec] in H.
  - injection H as <- <- <-. apply steps_refl.
  - destruct (adv p m) as [[p1 m1]|] eqn:E; [|discriminate]. eapply steps_step; [|apply IH, H].
    left. exists p1. split; [apply adv_step, E|reflexivity].
  - destruct (adv q m) as [[q1 m1]|] eqn:E; [|discriminate]. eapply steps_step; [|apply IH, H].
    right; left. exists q1. split; [apply adv_step, E|reflexivity].
Qed.
Lemma steps_trans {A} (p : proc V A) m p1 m1 p2 m2 : steps p m p1 m1 -> steps p1 m1 p2 m2 -> steps p m p2 m2.
Proof. induction 1 as [|p m p0 m0 p1 m1 Hs St IH]; [trivial|]. intros H. eapply steps_step; [exact Hs|auto]. Qed.
Lemma exec_returns {A B C} sched (p : proc V A) (q : proc V B) m a b c m' (k : A -> B -> proc V C) :
  exec sched p q m = Some (Ret a, Ret b, m') -> k a b = Ret c -> steps (Fork p q k) m (Ret c) m'.
Proof.
  intros H E. eapply steps_trans; [eapply exec_steps, H|]. eapply steps_step; [|apply steps_refl].
  right; right; left. exists a, b. auto.
Qed.
End Exec.

Section Race.
Context {K : fld}.
Add Field RF : (fld_field K).

Definition call {A} (p : proc (list K) A) : proc (list K) (res A) := let^ a := p in Ret (Ok a).

Lemma b_call {A} I (p : proc (list K) A) r : behaves_c I p (Ok r) -> behaves I (call p) (Ok r).
Proof.
  intros H m Hm. destruct (H m Hm) as (m' & E & Hm'). exists m'. unfold call. rewrite run_bindp, E. auto.
Qed.

Lemma five_inverse : (fnat 5 : K) <> f0 -> zkf_inverse (fnat 5 : K) = Ok (finv (fnat 5)).
Proof.
  intros H. unfold zkf_inverse. now rewrite (proj2 (feqb_false _ _) H).
Qed.

Theorem scale_call_ok c cell (p : list K) m : (fnat 5 : K) <> f0 -> 2 <= cell -> cell <= c + 1 -> p <> [] ->
  (N.of_nat (length p) < 2 ^ 63)%N -> tables_ready c m ->
  always_returns (call (scale_par cell p)) m (Ok (scaled_by (finv (fnat 5)) p))
  /\ (forall r m', steps (call (scale_par cell p)) m (Ret r) m' -> tables_ready c m').
Proof.
  intros H5 Hc Hc2 Np H63 Hm. apply behaves_returns; [| |exact Hm].
  - apply race_free_bindp; [apply rf_scale|]. intros a. exact I.
  - apply b_call. destruct (std_next_pow2_small (length p - 1)) as [o Ho]; [lia|].
    pose proof (b_scale c cell p o Hc Hc2 Np Ho) as B. unfold zk_scale_poly in B. rewrite (five_inverse H5) in B. cbn [bind] in B.
    rewrite zk_apply_powers_scaled in B. exact B.
Qed.
Theorem unscale_call_ok c cell (p : list K) m : 2 <= cell -> cell <= c + 1 -> tables_ready c m ->
  always_returns (call (unscale_par cell p)) m (Ok (scaled_by (fnat 5) p))
  /\ (forall r m', steps (call (unscale_par cell p)) m (Ret r) m' -> tables_ready c m').
Proof.
  intros Hc Hc2 Hm. apply behaves_returns; [| |exact Hm].
  - apply race_free_bindp; [apply rf_unscale|]. intros a. exact I.
  - apply b_call. pose proof (b_unscale c cell p Hc Hc2) as B. unfold zk_unscale_poly in B. rewrite zk_apply_powers_scaled in B. exact B.
Qed.

(** an empty polynomial *)
Theorem scale_empty cell (m : list (list K)) : (fnat 5 : K) <> f0 ->
  zk_scale_poly ([] : list K) = Ok [] /\ always_returns (call (scale_par cell [])) m Panic.
Proof.
  intros H5. split; [unfold zk_scale_poly; rewrite (five_inverse H5); reflexivity|].
  assert (R : race_free (call (scale_par cell ([] : list K)))) by (apply race_free_bindp; [apply rf_scale|intros a; exact I]).
  pose proof (race_free_deterministic _ m R) as D.
  replace (run_result (run (call (scale_par cell [])) m)) with (@Panic (list K)) in D; [exact D|].
  unfold call, scale_par. rewrite (five_inverse H5). reflexivity.
Qed.

(** the schedule: both calls see an empty table, then both push the first power *)
Definition bad_schedule : list bool :=
  [true; true; true; false; false; false] ++ [true; true; false; false]
  ++ [true; true; true; true; true] ++ [false; false; false; false; false].

Theorem race (a b x y : K) : (fnat 5 : K) <> f0 ->
  steps (two_scales 2 3 [a; b] [x; y]) fresh_memory (Ret ([a; fmul b f1], [x; fmul y f1]))
    [[f1; f1]; []; [a; fmul b f1]; [x; fmul y f1]].
Proof.
  intros H5. unfold two_scales. eapply (exec_returns bad_schedule); [|reflexivity].
  unfold scale_par. rewrite (five_inverse H5). reflexivity.
Qed.

(** a table whose second entry is wrong stays wrong *)
Theorem poisoned cell (t q : list K) m : (fnat 5 : K) <> f0 -> 1 <= cell -> cell < length m ->
  nth_error m 0 = Some (f1 :: f1 :: t) -> 2 <= length q -> length q <= 1025 ->
  exists q' t' m', always_returns (call (scale_par cell q)) m (Ok q')
    /\ (forall r m2, steps (call (scale_par cell q)) m (Ret r) m2 -> m2 = m')
    /\ nth_error q' 1 = nth_error q 1 /\ nth_error m' 0 = Some (f1 :: f1 :: t').
Proof.
  intros H5 Hc Lc Ht Hq Hq2.
  assert (R : race_free (call (scale_par cell q))) by (apply race_free_bindp; [apply rf_scale|intros x; exact I]).
  assert (E : exists q' t' m', run (call (scale_par cell q)) m = Some (Ok q', m')
      /\ nth_error q' 1 = nth_error q 1 /\ nth_error m' 0 = Some (f1 :: f1 :: t')).
  { unfold call. rewrite run_bindp. unfold scale_par. rewrite (five_inverse H5), usub_of by lia. cbn [liftc bindp].
    destruct (Proof_Utils.next_pow2_spec (length q - 1)) as (k & Ek & _ & Mk); [lia|lia|].
    rewrite Proof_Zk.std_next_pow2_eq, Ek by lia. cbn [liftc bindp run].
    destruct (Nat.ltb_spec cell (length m)) as [_|]; [|lia].
    assert (Hk : 2 ^ k <= 1024).
    { change 1024 with (2 ^ 10). apply Nat.pow_le_mono_r; [lia|]. apply Mk. change (2 ^ 10) with 1024. lia. }
    destruct (Nat.leb_spec (2 ^ k) 1024) as [_|]; [|lia].
    set (m1 := set m cell q). assert (T1 : nth_error m1 0 = Some (f1 :: f1 :: t)) by (unfold m1; rewrite nth_set_ne by lia; exact Ht).
    rewrite run_bindp.
    destruct (run_extend inverse_factors (finv (fnat 5)) (length q) (fun _ => apply_table inverse_factors cell (length q)) m1 _ T1)
      as (t1 & E1 & L1 & X1 & _). destruct (X1 ltac:(discriminate)) as [e ->]. rewrite E1.
    set (m2 := set m1 inverse_factors _).
    assert (T2 : nth_error m2 0 = Some ((f1 :: f1 :: t) ++ e)) by (eapply nth_set_eq, T1).
    assert (C2 : nth_error m2 cell = Some q).
    { unfold m2, inverse_factors. rewrite nth_set_ne by lia. unfold m1. rewrite nth_error_set by lia. now rewrite Nat.eqb_refl. }
    destruct (run_applies 0 cell ((f1 :: f1 :: t) ++ e) (length q - 1) ltac:(lia) 1 m2 q T2 C2) as (q' & E2 & L2 & N2).
    { rewrite L1. lia. }
    { lia. }
    unfold apply_table, forc, inverse_factors. rewrite E2. cbn [run]. exists q', (t ++ e), (set m2 cell q').
    rewrite (nth_set_eq m2 cell q' q C2). split; [reflexivity|]. split.
    - rewrite N2. change (nth_error ((f1 :: f1 :: t) ++ e) 1) with (Some (@f1 K)). destruct (nth_error q 1) as [x|]; [|reflexivity]. f_equal.
      destruct (Nat.leb_spec 1 1); [|lia]. destruct (Nat.ltb_spec 1 (1 + (length q - 1))); [cbn [andb]; ring|lia].
    - rewrite nth_set_ne by lia. exact T2. }
  destruct E as (q' & t' & m' & E & N & T). exists q', t', m'. pose proof (race_free_deterministic _ m R) as D. rewrite E in D.
  split; [exact D|]. split; [|auto]. intros r m2 St. destruct (steps_run _ m _ _ R St) as [_ E']. rewrite E in E'. cbn in E'. congruence.
Qed.
End Race.
