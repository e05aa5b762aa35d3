(** * Proof_Zero4: too many missing indices, and the theorems at the concrete field *)
From Coq Require Import List Arith Lia Bool NArith ZArith.
From Verif Require Import Base Fld Poly Loops Model_Utils Proof_Utils Model_FFT Spec Proof_FFT Zr ZrTables Proof_FFTFr.
From Verif Require Import Model_ZeroPoly Proof_Zero1 Proof_Zero2 Proof_Zero3.
Import ListNotations.

Section Z4.
Context {K : fld}.
Local Open Scope fld_scope.

Lemma for_range_err {S} (body : nat -> S -> res S) n i0 s st : (i0 < n)%nat ->
  for_range 0 i0 body s = Ok st -> body i0 st = Err -> for_range 0 n body s = Err.
Proof.
  intros Hi E1 E2. unfold for_range in *. rewrite Nat.sub_0_r in *.
  replace n with (i0 + Datatypes.S (n - i0 - 1))%nat by lia. rewrite for_app, E1. cbn [bind for_ Nat.add].
  now rewrite E2.
Qed.

Lemma reduce_partials_0 (s : fft_settings K) ps : reduce_partials s 0 ps = Err.
Proof. reflexivity. Qed.

Section Fail.
Variables (rs : list K) (s : fft_settings K) (ks : nat) (w : K).
Hypothesis HS : settings_ok s ks w.
Hypothesis Hks : (ks < 32)%nat.
Variables (f P : nat).
Notation m := (length rs).
Notation D := (64 * 2 ^ f)%nat.
Notation W := (64 * 2 ^ S f)%nat.
Hypothesis HD : (f + 6 <= ks)%nat.
Hypothesis HmD : (m < D)%nat.
Hypothesis HP : (63 * (P - 1) < m <= 63 * P)%nat.
Hypothesis Hf : (2 <= f)%nat.
Hypothesis Hbig : (2 ^ f + 1 < P)%nat.

Lemma P_le : (P <= 2 ^ S f)%nat.
Proof using HmD HP Hf. clear Hks HD Hbig. cbn [Nat.pow]. assert (4 * 1 <= 2 ^ f)%nat; [|lia]. rewrite (pow2_4 f Hf). assert (X := pow2_pos (f - 2)). lia. Qed.

Lemma zp_tree_fails (missing : list nat) stride :
  length missing = m ->
  (forall i, (i < m)%nat -> idx (expanded_roots s) (nth i missing 0%nat * stride) = Ok (nth i rs 0)) ->
  next_pow2 (P * 64) = Ok W ->
  zp_tree s D (Nat.min W D) P stride missing = Err.
Proof.
  intros Hml Hid HNP. unfold zp_tree. rewrite HNP. cbn [bind].
  assert (HPe := P_le).
  destruct (zp_partials_spec rs s ks Hks f P HD HmD HP (S f) missing stride) as (work & offs & E & Lw & Lo & Hs & Hz); auto; [lia|].
  rewrite E. cbn [bind]. rewrite usub_ok by lia. cbn [bind]. rewrite usub_ok by lia. cbn [bind].
  rewrite upd_ok by (rewrite repeat_length; lia). cbn [bind]. rewrite Hml.
  set (lens := set (repeat 64%nat P) (P - 1) (1 + m - (P - 1) * 63)%nat).
  assert (Ll : length lens = P) by (unfold lens; now rewrite set_length, repeat_length).
  assert (Hfull : forall t, (t + 1 < P)%nat -> nth t lens 0%nat = (gsz 0 + 1)%nat).
  { intros t Ht. unfold lens. rewrite nth_set_other by (rewrite ?repeat_length; lia). rewrite nth_repeat' by lia. reflexivity. }
  assert (Hlast : (length (grp rs 0 (P - 1)) + 1 <= nth (P - 1) lens 0 <= gsz 0 + 1)%nat).
  { unfold lens. rewrite nth_set_same by (rewrite repeat_length; lia). rewrite grp_length. unfold gsz. simpl (4 ^ 0)%nat. lia. }
  assert (Hc : (1 < P <= P)%nat) by lia.
  assert (S0 : slotsz 0 = 64%nat) by reflexivity.
  assert (HW : (P * slotsz 0 <= W)%nat) by (rewrite S0; lia).
  assert (Hm : (m <= gsz 0 * P)%nat) by (unfold gsz; simpl (4 ^ 0)%nat; lia).
  assert (EC : Nat.min W D = D) by (cbn [Nat.pow]; lia). rewrite EC.
  assert (E4 := pow2_4 f Hf). set (q := (2 ^ (f - 2))%nat) in *.
  assert (Hq : (q <= (P - 1) / 4)%nat) by (apply Nat.div_le_lower_bound; lia).
  cbn [while_]. destruct (Nat.ltb_spec 1 (fst (P, (work, lens, offs)))) as [_|Q]; [|cbn [fst] in Q; lia].
  unfold zp_level at 1. rewrite (idx_ok lens 0 0%nat) by lia. cbn [bind]. rewrite Hfull by lia.
  change (next_pow2 (gsz 0 + 1)) with (Ok 64%nat). cbn [bind].
  assert (Hs' : forall t x : nat, (t < P)%nat -> (x < slotsz 0)%nat -> nth (t * slotsz 0 + x) work 0 = coef (vanish_poly (grp rs 0 t)) x) by exact Hs.
  assert (Hz' : forall x, (P * slotsz 0 <= x)%nat -> nth x work 0 = 0) by exact Hz.
  destruct (for_range_inv (fun i st => midinv rs W P 0 P work lens i st) (zp_group s D D P (slotsz 0)) 0 q (work, lens, offs)) as (st & EG & I).
  - lia.
  - repeat split; auto; lia.
  - intros i st Hi I. apply (zp_group_spec rs s ks w HS D D W P 0 P Hc HW Hm work lens Ll Hs' Hz' Hfull Hlast); auto; [lia|].
    unfold group_fits. rewrite S0. split; [lia|]. intros H1.
    assert (N4 : num P i = 4%nat) by (unfold num; lia).
    exists 8%nat. split; [lia|]. change (2 ^ 8)%nat with 256%nat. split; [lia|].
    assert (LE := newdeg_le rs s ks w HS W P 0 P Hc HW Hm work lens Ll Hs' Hz' Hfull Hlast i ltac:(lia)).
    rewrite N4 in LE. change (gsz 0) with 63%nat in LE. lia.
  - assert (EG32 : zp_group s D D P (slotsz 0) q st = Err).
    { destruct st as [[work' lens'] offs']. pose proof I as (L1 & L2 & L3 & _).
      unfold zp_group. rewrite S0. rewrite usub_ok by lia. cbn [bind]. rewrite usub_ok by lia. cbn [bind].
      rewrite upd_ok by lia. cbn [bind].
      assert (I2 : midinv rs W P 0 P work lens q (work', lens', set offs' q (q * 4 * 64)%nat)).
      { destruct I as (J1 & J2 & J3 & J4). repeat split; auto; try apply J4. now rewrite set_length. }
      destruct (zp_views_spec rs s ks w HS W P 0 P Hc HW Hm work lens Ll Hs' Hz' Hfull Hlast q work' lens' _ ltac:(lia) I2)
        as (offs2 & EV & _).
      rewrite S0 in EV. fold (num P q). rewrite EV. cbn [bind].
      destruct (Nat.ltb_spec 1 (num P q)) as [_|Q]; [|unfold num in Q; lia].
      replace (Nat.min (Nat.min ((q * 4 + 4) * 64) D - q * 4 * 64) D) with 0%nat by lia.
      reflexivity. }
    rewrite S0 in EG, EG32.
    rewrite (for_range_err _ (1 + (P - 1) / 4) q (work, lens, offs) st); [reflexivity|lia|exact EG|exact EG32].
Qed.
End Fail.

(** the exact boundary: one index more than [zero_poly_spec] allows gives an error *)
Theorem zero_poly_fails (s : fft_settings K) ks (w : K) dm (missing : list nat) :
  settings_ok s ks w -> (ks < 32)%nat -> (dm <= ks)%nat ->
  (63 * (2 ^ dm / 64 + 1) < length missing < 2 ^ dm)%nat ->
  Forall (fun i => (i < 2 ^ dm)%nat) missing ->
  zero_poly_via_multiplication s (2 ^ dm) missing = Err.
Proof.
  intros HS Hks Hdm H2 HF.
  set (wd := w ^ (2 ^ (ks - dm))). set (rs := map (fpow wd) missing).
  pose proof HS as (MW & _ & _ & EXP & _).
  assert (Lrs : length rs = length missing) by apply map_length.
  unfold zero_poly_via_multiplication.
  destruct (Nat.eqb_spec (length missing) 0); [lia|].
  destruct (Nat.leb_spec (2 ^ dm) (length missing)); [lia|].
  assert (Pd : (2 ^ dm <= 2 ^ ks)%nat) by (apply Nat.pow_le_mono_r; lia).
  rewrite MW. destruct (Nat.ltb_spec (2 ^ ks) (2 ^ dm)); [lia|]. rewrite is_pow2_pow. cbn [negb].
  assert (Str : (2 ^ ks / 2 ^ dm = 2 ^ (ks - dm))%nat) by (apply pow2_div; auto). rewrite Str.
  set (P := (1 + (length missing - 1) / 63)%nat).
  assert (Dm := Nat.div_mod (length missing - 1) 63 ltac:(lia)).
  assert (Mb := Nat.mod_upper_bound (length missing - 1) 63 ltac:(lia)).
  assert (HP : (63 * (P - 1) < length rs <= 63 * P)%nat) by (unfold P; lia).
  assert (Hid : forall i, (i < length rs)%nat -> idx (expanded_roots s) (nth i missing 0%nat * 2 ^ (ks - dm)) = Ok (nth i rs 0)).
  { intros i Hi. assert (Hn : (nth i missing 0 < 2 ^ dm)%nat).
    { rewrite Forall_forall in HF. apply HF. apply nth_In. lia. }
    assert (Es := pow2_split ks dm Hdm).
    assert (Ps := pow2_pos (ks - dm)).
    rewrite EXP. rewrite (idx_ok _ _ 0) by (rewrite length_map_seq; nia). rewrite nth_map_seq by nia.
    f_equal. unfold rs. rewrite (nth_indep _ 0 (wd ^ 0)) by (rewrite map_length; lia). rewrite map_nth.
    unfold wd. rewrite <- fpow_mul. f_equal. lia. }
  assert (D6 := pow2_ge_64 dm (length missing) ltac:(lia) ltac:(lia)). set (f := (dm - 6)%nat).
  assert (ED : (2 ^ dm = 64 * 2 ^ f)%nat) by (unfold f; rewrite (pow2_split dm 6 D6); reflexivity).
  assert (Dv : (2 ^ dm / 64 = 2 ^ f)%nat) by (rewrite ED, Nat.mul_comm; apply Nat.div_mul; lia).
  rewrite Dv, ED in H2.
  assert (F2 : (2 <= f)%nat).
  { destruct (Nat.le_gt_cases 2 f); auto. assert (2 ^ f <= 2 ^ 1)%nat by (apply Nat.pow_le_mono_r; lia). simpl (2 ^ 1)%nat in *. lia. }
  assert (Hbig : (2 ^ f + 1 < P)%nat) by (unfold P; nia).
  assert (HmD : (length rs < 64 * 2 ^ f)%nat) by lia.
  assert (HPe := P_le rs f P HmD HP F2).
  assert (NP : next_pow2 (P * 64) = Ok (64 * 2 ^ S f)%nat).
  { replace (64 * 2 ^ S f)%nat with (2 ^ S (f + 6))%nat.
    - apply next_pow2_between.
      + assert (P * 64 <= 2 ^ 40)%nat.
        { transitivity (2 ^ (7 + f))%nat; [rewrite Nat.pow_add_r; simpl (2 ^ 7)%nat; cbn [Nat.pow] in HPe; lia|].
          apply Nat.pow_le_mono_r; lia. }
        transitivity (2 ^ 40)%N; [|apply N.pow_le_mono_r; lia].
        replace (2 ^ 40)%N with (N.of_nat (2 ^ 40)) by (rewrite Nat2N.inj_pow; reflexivity). lia.
      + cbn [Nat.pow] in *. rewrite Nat.pow_add_r. simpl (2 ^ 6)%nat. lia.
    - cbn [Nat.pow]. rewrite Nat.pow_add_r. simpl (2 ^ 6)%nat. lia. }
  rewrite NP. cbn [bind]. destruct (Nat.leb_spec (length missing) 63); [lia|].
  rewrite ED.
  rewrite (zp_tree_fails rs s ks w HS Hks f P ltac:(unfold f; lia) HmD HP F2 Hbig missing (2 ^ (ks - dm)) (eq_sym Lrs) Hid NP).
  reflexivity.
Qed.

Lemma vanish_zero_iff (w : K) n (missing : list nat) i :
  primitive w n -> Forall (fun i => (i < n)%nat) missing -> (i < n)%nat ->
  (vanish (map (fpow w) missing) (w ^ i) = 0 <-> In i missing).
Proof.
  intros Hw HF Hi. rewrite vanish_0_iff, in_map_iff. split.
  - intros (j & Hj & HI). rewrite Forall_forall in HF.
    assert (j = i); [|now subst]. apply (primitive_inj w n); auto.
  - intros H. exists i. auto.
Qed.
End Z4.

(** ** at the BLS12-381 scalar field *)
Lemma C20_proof k s m (idxs : list nat) :
  fft_settings_new blst_table k = Ok s -> m <= k -> Forall (fun i => i < 2 ^ m) idxs ->
  (idxs <> [] -> exists p, do_zero_poly_mul_partial s idxs (2 ^ (k - m)) = Ok p /\ length p = length idxs + 1 /\
     (forall j, coef p j = coef (vanish_poly (map (fpow (root m)) idxs)) j) /\
     (forall x, peval p x = vanish (map (fpow (root m)) idxs) x) /\
     coef p (length idxs) = f1 /\
     (forall i, i < 2 ^ m -> (peval p (fpow (root m) i) = f0 <-> In i idxs))) /\
  (idxs = [] -> do_zero_poly_mul_partial s idxs (2 ^ (k - m)) = Err).
Proof.
  intros HN Hm HF. destruct (new_inv k s HN) as (Hk & HS). split; [|intros ->; reflexivity].
  intros Hne. pose proof HS as (MW & _ & _ & EXP & _).
  destruct (do_zero_spec s (map (fpow (root m)) idxs) idxs (2 ^ (k - m))) as (p & E & L & C); auto.
  - apply map_length.
  - intros i Hi. assert (Hn : nth i idxs 0 < 2 ^ m) by (rewrite Forall_forall in HF; apply HF; now apply nth_In).
    assert (Es := pow2_split k m Hm). assert (Ps := pow2_pos (k - m)).
    rewrite EXP. rewrite (idx_ok _ _ f0) by (rewrite length_map_seq; nia). rewrite nth_map_seq by nia.
    f_equal. rewrite (nth_indep _ f0 (fpow (root m) 0)) by (rewrite map_length; lia). rewrite map_nth.
    rewrite Nat.mul_comm, fpow_mul. now rewrite root_pow.
  - exists p. split; [exact E|]. split; [lia|]. split; [exact C|].
    assert (PE : forall x, peval p x = vanish (map (fpow (root m)) idxs) x).
    { intros x. rewrite <- vanish_poly_eval. now apply peval_ext. }
    split; [exact PE|]. split.
    + rewrite C. replace (length idxs) with (length (map (fpow (root m)) idxs)) by apply map_length. apply vanish_poly_monic.
    + intros i Hi. rewrite PE. apply (vanish_zero_iff (root m) (2 ^ m)); auto. apply root_primitive. lia.
Qed.

Lemma C21_proof k s dom (ps : list (list Fr)) :
  fft_settings_new blst_table k = Ok s -> ps <> [] -> Forall (fun p => p <> []) ps ->
  let len := 1 + list_sum (map (fun p => length p - 1) ps) in
  ((exists m, dom = 2 ^ m) /\ len <= dom <= max_width s ->
     exists c, reduce_partials s dom ps = Ok c /\ length c = len /\
       (forall j, coef c j = coef (fold_right pmul [f1] ps) j) /\
       (forall x, peval c x = fold_right fmul f1 (map (fun p => peval p x) ps))) /\
  (~ ((exists m, dom = 2 ^ m) /\ len <= dom <= max_width s) -> reduce_partials s dom ps = Err).
Proof.
  intros HN Hne HF len. destruct (new_inv k s HN) as (Hk & HS).
  assert (EL : len = degsum ps + 1).
  { clear. subst len. assert (E : list_sum (map (fun p : list Fr => length p - 1) ps) = degsum ps); [|lia]. induction ps as [|a l IH]; [reflexivity|]. cbn [map list_sum degsum fold_right]. unfold degsum in IH. unfold list_sum in *. cbn [fold_right]. now rewrite IH. }
  pose proof HS as (MW & _). split.
  - intros ((m & ->) & H1 & H2). rewrite MW in H2. apply pow2_le_inv in H2.
    rewrite (reduce_partials_spec s k (root k) m) by (auto; lia). eexists. split; [reflexivity|].
    assert (CC : forall j, coef (map (coef (pprod ps)) (seq 0 (degsum ps + 1))) j = coef (pprod ps) j).
    { intros j. rewrite coef_map_seq. destruct (Nat.ltb_spec j (degsum ps + 1)); auto.
      symmetry. apply pprod_coef_over; auto. lia. }
    split; [rewrite length_map_seq; lia|]. split.
    + intros j. rewrite CC. reflexivity.
    + intros x. transitivity (peval (pprod ps) x); [now apply peval_ext|]. rewrite pprod_eval. clear.
      induction ps as [|a l IH]; [reflexivity|]. cbn [map fold_right]. f_equal. exact IH.
  - intros H. apply (reduce_partials_errors s k (root k)); auto.
    destruct (Nat.lt_ge_cases dom (degsum ps + 1)); auto. destruct (Nat.lt_ge_cases (2 ^ k) dom); auto.
    left. intros m ->. apply H. split; [eauto|lia].
Qed.

Lemma C22_proof k s m (missing : list nat) :
  fft_settings_new blst_table k = Ok s -> m <= k ->
  0 < length missing < 2 ^ m -> length missing <= 63 * (2 ^ m / 64 + 1) ->
  Forall (fun i => i < 2 ^ m) missing ->
  exists ev zp, zero_poly_via_multiplication s (2 ^ m) missing = Ok (ev, zp) /\
    length ev = 2 ^ m /\ length zp = 2 ^ m /\
    (forall j, coef zp j = coef (vanish_poly (map (fpow (root m)) missing)) j) /\
    (forall x, peval zp x = vanish (map (fpow (root m)) missing) x) /\
    coef zp (length missing) = f1 /\
    (forall i, i < 2 ^ m -> nth_error ev i = Some (peval zp (fpow (root m) i))) /\
    (forall i, i < 2 ^ m -> (nth_error ev i = Some f0 <-> In i missing)).
Proof.
  intros HN Hm (H0 & H1) H2 HF. destruct (new_inv k s HN) as (Hk & HS).
  assert (Z := zero_poly_spec s k (root k) m missing HS Hk Hm H0 H1 H2 HF). cbv zeta in Z. rewrite root_pow in Z by auto.
  eexists. eexists. split; [exact Z|]. rewrite !length_map_seq. split; [auto|]. split; [auto|].
  set (rs := map (fpow (root m)) missing).
  assert (Lr : length rs = length missing) by apply map_length.
  assert (C : forall j, coef (map (coef (vanish_poly rs)) (seq 0 (2 ^ m))) j = coef (vanish_poly rs) j).
  { intros j. rewrite coef_map_seq. destruct (Nat.ltb_spec j (2 ^ m)); auto.
    symmetry. apply coef_over. rewrite vanish_poly_length. lia. }
  assert (PE : forall x, peval (map (coef (vanish_poly rs)) (seq 0 (2 ^ m))) x = vanish rs x).
  { intros x. rewrite <- vanish_poly_eval. now apply peval_ext. }
  split; [exact C|]. split; [exact PE|]. split; [|split].
  - rewrite C, <- Lr. apply vanish_poly_monic.
  - intros i Hi. rewrite nth_error_map_seq by auto. rewrite PE. reflexivity.
  - intros i Hi. rewrite nth_error_map_seq by auto.
    assert (Q := vanish_zero_iff (root m) (2 ^ m) missing i (root_primitive m ltac:(lia)) HF Hi).
    rewrite <- Q. fold rs. split; [|intros ->; reflexivity].
    intros E. apply (f_equal (fun o => match o with Some x => x | None => f0 end)) in E. exact E.
Qed.

Lemma C22_args_proof k s d (missing : list nat) :
  fft_settings_new blst_table k = Ok s ->
  (missing = [] -> zero_poly_via_multiplication s d missing = Ok ([], [])) /\
  (missing <> [] -> d <= length missing \/ max_width s < d \/ (forall m, d <> 2 ^ m) ->
     zero_poly_via_multiplication s d missing = Err).
Proof. intros _. split; [intros ->; reflexivity|apply zero_poly_errors]. Qed.

Lemma C22_small_proof k s m (missing : list nat) :
  fft_settings_new blst_table k = Ok s -> m <= k -> m <= 12 ->
  0 < length missing < 2 ^ m -> length missing <= 63 * (2 ^ m / 64 + 1).
Proof.
  intros _ _ Hm (H0 & H1).
  destruct m as [|[|[|[|[|[|[|[|[|[|[|[|[|m]]]]]]]]]]]]]; try lia;
  match goal with |- _ <= 63 * (?x / 64 + 1) => let v := eval vm_compute in (63 * (x / 64 + 1))%nat in
    change (63 * (x / 64 + 1))%nat with v; let u := eval vm_compute in x in change x with u in * end; lia.
Qed.

Lemma C22_half_proof m (missing : list nat) : 2 * length missing <= 2 ^ m -> length missing <= 63 * (2 ^ m / 64 + 1).
Proof.
  intros H. assert (D := Nat.div_mod (2 ^ m) 64 ltac:(lia)). assert (B := Nat.mod_upper_bound (2 ^ m) 64 ltac:(lia)). lia.
Qed.

Lemma C23_proof k s m (missing : list nat) :
  fft_settings_new blst_table k = Ok s -> m <= k ->
  63 * (2 ^ m / 64 + 1) < length missing < 2 ^ m -> Forall (fun i => i < 2 ^ m) missing ->
  zero_poly_via_multiplication s (2 ^ m) missing = Err.
Proof.
  intros HN Hm H HF. destruct (new_inv k s HN) as (Hk & HS). now apply (zero_poly_fails s k (root k)).
Qed.

Lemma C23_instance_proof : exists missing : list nat, NoDup missing /\ length missing = 2 ^ 13 - 64 /\
  Forall (fun i => i < 2 ^ 13) missing /\
  forall k s, fft_settings_new blst_table k = Ok s -> 13 <= k -> zero_poly_via_multiplication s (2 ^ 13) missing = Err.
Proof.
  exists (seq 0 (2 ^ 13 - 64)).
  assert (HF : Forall (fun i => i < 2 ^ 13) (seq 0 (2 ^ 13 - 64))).
  { apply Forall_forall. intros i Hi. apply in_seq in Hi. lia. }
  split; [apply seq_NoDup|]. split; [apply seq_length|]. split; [exact HF|].
  intros k s HN Hk. apply (C23_proof k s 13); auto.
  rewrite seq_length. assert (E : 2 ^ 13 = 128 * 64) by reflexivity.
  rewrite E. rewrite Nat.div_mul by lia. lia.
Qed.
