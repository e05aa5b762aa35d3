(** * Proof_ZkZero: vanishing polynomials and recovery of the zkcrypto backend *)
From Coq Require Import List Arith Lia Bool NArith Field Ring.
From Verif Require Import Base Fld Poly Loops Model_Utils Proof_Utils Model_FFT Spec Proof_FFT Model_Poly Proof_Poly1
  Model_ZeroPoly Proof_Zero1 Proof_Zero2 Proof_Zero3 Proof_Zero4 Model_Recovery Proof_Recovery
  Proof_Mcl Proof_MclFr Proof_MclPoly Proof_MclZero Model_Zk Model_ZkZero Proof_Zk.
Import ListNotations.

(** ** results that carry over: where the first program succeeds, the second does too, with
    the same result *)
Definition carries {A} (a b : res A) : Prop := forall x, a = Ok x -> b = Ok x.

Lemma carries_refl {A} (a : res A) : carries a a.
Proof. intros x H. exact H. Qed.
Lemma carries_unwrap {A} (a b : res A) : carries a b -> carries a (unwrap b).
Proof. intros H x E. now rewrite (H x E). Qed.
Lemma carries_bind {A B} (a a' : res A) (f f' : A -> res B) :
  carries a a' -> (forall x, a = Ok x -> carries (f x) (f' x)) -> carries (bind a f) (bind a' f').
Proof.
  intros H1 H2 y E. apply bind_inv in E as (x & E1 & E2). rewrite (H1 x E1). cbn [bind]. now apply (H2 x).
Qed.
Lemma carries_for {S} (body body' : nat -> S -> res S) n : forall i s,
  (forall j t, carries (body j t) (body' j t)) -> carries (for_ n i body s) (for_ n i body' s).
Proof.
  induction n; intros i s H; cbn [for_]; [apply carries_refl|]. apply carries_bind; auto.
Qed.
Lemma carries_for_range {S} (body body' : nat -> S -> res S) a b s :
  (forall j t, carries (body j t) (body' j t)) -> carries (for_range a b body s) (for_range a b body' s).
Proof. intros. now apply carries_for. Qed.
Lemma carries_while {S} (c : S -> bool) (body body' : S -> res S) : forall fuel s,
  (forall t, carries (body t) (body' t)) -> carries (while_ fuel c body s) (while_ fuel c body' s).
Proof.
  induction fuel; intros s H; cbn [while_]; [apply carries_refl|]. destruct (c s); [|apply carries_refl].
  apply carries_bind; auto.
Qed.

Section Z.
Context {K : fld}.
Add Field Kfzz : (fld_field K).
Local Open Scope fld_scope.
Hypothesis H2 : fnat 2 <> (0:K).

(** ** one partial *)
Lemma zk_zero_step_eq s idxs stride i (p : list K) : zk_zero_step s idxs stride i p = zero_step s idxs stride i p.
Proof.
  unfold zk_zero_step, zero_step. destruct (idx idxs i); cbn [bind]; auto.
  destruct (idx (expanded_roots s) _) as [w| | |]; cbn [bind]; auto.
  destruct (upd p i (- w)) as [p1| | |] eqn:E; cbn [bind]; auto.
  assert (Hx : idx p1 i = Ok (- w)).
  { unfold upd in E. destruct (Nat.ltb_spec i (length p)); [|discriminate]. apply Ok_inj in E. subst p1.
    rewrite (idx_ok _ i 0) by (rewrite set_length; lia). now rewrite nth_set_same. }
  rewrite Hx. reflexivity.
Qed.

Theorem zk_zero_partial_eq s idxs stride : zk_zero_partial (K := K) s idxs stride = do_zero_poly_mul_partial s idxs stride.
Proof.
  unfold zk_zero_partial, do_zero_poly_mul_partial. destruct (_ =? _)%nat; auto.
  destruct (idx idxs 0); cbn [bind]; auto. destruct (idx (expanded_roots s) _); cbn [bind]; auto.
  destruct (upd _ _ _); cbn [bind]; auto. unfold for_range. apply for_ext. intros. apply zk_zero_step_eq.
Qed.

(** ** padding without truncation *)
Lemma pad_carries (p : list K) n : carries (pad_poly p n) (zk_pad p n).
Proof.
  intros x E. rewrite zk_pad_spec. destruct (Nat.le_gt_cases (length p) n) as [C|C].
  - rewrite pad_poly_coef in E by auto. exact E.
  - unfold pad_poly in E. destruct (Nat.ltb_spec n (length p)); [discriminate|lia].
Qed.

(** ** products *)
Lemma reduce_carries s dom (ps : list (list K)) : carries (reduce_partials s dom ps) (zk_reduce_partials s dom ps).
Proof.
  unfold reduce_partials, zk_reduce_partials, zk_is_pow2. destruct (negb (is_pow2 dom)) eqn:P; [intros x; discriminate|].
  apply carries_bind; [apply carries_refl|]. intros d _. destruct (dom <? d + 1)%nat; [intros x; discriminate|].
  apply carries_bind; [apply carries_refl|]. intros p0 _. apply carries_bind; [apply pad_carries|]. intros pp _.
  rewrite zk_fft_fr_eq by auto. apply carries_bind; [apply carries_unwrap, carries_refl|]. intros ev _.
  apply carries_bind.
  - apply carries_for_range. intros i t. apply carries_bind; [apply carries_refl|]. intros q _.
    apply carries_bind; [apply pad_carries|]. intros qq _. rewrite zk_fft_fr_eq by auto.
    apply carries_bind; [apply carries_unwrap, carries_refl|]. intros; apply carries_refl.
  - intros ev' _. rewrite zk_fft_fr_eq by auto. apply carries_bind; [apply carries_unwrap, carries_refl|].
    intros; apply carries_refl.
Qed.

Section S.
Variables (s : fft_settings K) (k : nat) (w : K).
Hypothesis HS : settings_ok s k w.

Theorem zk_reduce_spec m (ps : list (list K)) :
  (m <= k)%nat -> ps <> [] -> Forall (fun p => p <> []) ps -> (degsum ps + 1 <= 2 ^ m)%nat ->
  zk_reduce_partials s (2 ^ m) ps = Ok (map (coef (pprod ps)) (seq 0 (degsum ps + 1))).
Proof. intros. apply reduce_carries. now apply (reduce_partials_spec s k w m). Qed.

Theorem zk_reduce_errors dom (ps : list (list K)) : Forall (fun p => p <> []) ps ->
  (forall m, dom <> 2 ^ m)%nat \/ (dom < degsum ps + 1)%nat -> zk_reduce_partials s dom ps = Err.
Proof.
  intros HF H. unfold zk_reduce_partials. rewrite degree_loop_ok by auto. cbn [bind]. unfold zk_is_pow2.
  destruct (is_pow2 dom) eqn:EP; cbn [negb]; auto. apply is_pow2_spec in EP as (m & ->).
  destruct H as [H|H]; [now specialize (H m)|]. destruct (Nat.ltb_spec (2 ^ m) (degsum ps + 1)); auto. lia.
Qed.

(** a domain wider than the settings: the unwrapped transform panics *)
Theorem zk_reduce_wide m (ps : list (list K)) : ps <> [] -> Forall (fun p => p <> []) ps ->
  (degsum ps + 1 <= 2 ^ m)%nat -> (2 ^ k < 2 ^ m)%nat -> zk_reduce_partials s (2 ^ m) ps = Panic.
Proof.
  intros Hn HF HD H. unfold zk_reduce_partials. rewrite degree_loop_ok by auto. cbn [bind]. unfold zk_is_pow2.
  rewrite is_pow2_pow. cbn [negb]. destruct (Nat.ltb_spec (2 ^ m) (degsum ps + 1)); [lia|].
  assert (Lp : (0 < length ps)%nat) by (destruct ps; [congruence|simpl; lia]).
  rewrite (idx_ok ps _ []) by lia. cbn [bind]. rewrite zk_pad_spec. cbn [bind]. rewrite zk_fft_fr_eq by auto.
  unfold fft_fr. rewrite length_map_seq, (proj1 HS). destruct (Nat.ltb_spec (2 ^ k) (2 ^ m)); [reflexivity|lia].
Qed.
End S.

(** ** the tree *)
Lemma group_carries s D C count size i st : carries (zp_group (K := K) s D C count size i st) (zk_zp_group s D C count size i st).
Proof.
  destruct st as [[work lens] offs]. unfold zp_group, zk_zp_group.
  apply carries_bind; [apply carries_refl|]. intros d _. apply carries_bind; [apply carries_refl|]. intros rest _.
  apply carries_bind; [apply carries_refl|]. intros offs1 _. apply carries_bind; [apply carries_refl|]. intros (offs2 & pv) _.
  destruct (1 <? Nat.min 4 rest)%nat; [|apply carries_refl].
  apply carries_bind; [apply reduce_carries|]. intros red _. apply carries_bind; [apply carries_refl|]. intros lens1 _.
  apply carries_bind; [apply pad_carries|]. intros; apply carries_refl.
Qed.

Lemma level_carries s D C st : len0 (Nat.max D 64) (snd st) -> (N.of_nat D <= 2 ^ 63)%N ->
  carries (zp_level (K := K) s D C st) (zk_zp_level s D C st).
Proof.
  destruct st as [count [[work lens] offs]]. intros I HD. unfold zp_level, zk_zp_level.
  apply carries_bind; [apply carries_refl|]. intros l0 E. apply (idx_inv _ _ _ 0%nat) in E as (L & <-).
  cbn [snd len0] in I. specialize (I L). rewrite std_next_pow2_eq.
  - apply carries_bind; [apply carries_refl|]. intros size _. apply carries_bind; [|intros; apply carries_refl].
    apply carries_for_range. intros. apply group_carries.
  - lia.
  - assert (64 <= 2 ^ 63)%N by (change 64%N with (2 ^ 6)%N; apply N.pow_le_mono_r; lia). lia.
Qed.

Lemma partials_carries s missing stride count (work : list K) :
  carries (zp_partials s missing stride count work) (zk_zp_partials s missing stride count work).
Proof.
  unfold zp_partials, zk_zp_partials. apply carries_bind; [|intros; apply carries_refl].
  apply carries_for_range. intros j [[[[wk lens] offs] mo] wo].
  apply carries_bind; [apply carries_refl|]. intros sl _. rewrite zk_zero_partial_eq.
  apply carries_bind; [apply carries_refl|]. intros p _.
  apply carries_bind; [apply pad_carries|]. intros; apply carries_refl.
Qed.

Lemma tree_carries s D C count stride missing : (2 <= count)%nat -> (N.of_nat (count * 64) <= 2 ^ 63)%N ->
  (N.of_nat D <= 2 ^ 63)%N ->
  carries (zp_tree (K := K) s D C count stride missing) (zk_zp_tree s D C count stride missing).
Proof.
  intros Hc Hb HD. unfold zp_tree, zk_zp_tree. rewrite std_next_pow2_eq by (auto; lia).
  apply carries_bind; [apply carries_refl|]. intros wlen _. apply carries_bind; [apply partials_carries|].
  intros [[work lens] offs] Ep. apply partials_lens in Ep. subst lens.
  apply carries_bind; [apply carries_refl|]. intros l _. apply carries_bind; [apply carries_refl|]. intros c1 E1.
  rewrite usub_ok in E1 by lia. apply Ok_inj in E1. subst c1. rewrite upd_ok by (rewrite repeat_length; lia). cbn [bind].
  apply carries_bind; [|intros; apply carries_refl].
  assert (G : forall fuel st, len0 (Nat.max D 64) (snd st) ->
    carries (while_ fuel (fun st => 1 <? fst st)%nat (zp_level s D C) st) (while_ fuel (fun st => 1 <? fst st)%nat (zk_zp_level s D C) st)).
  { induction fuel; intros st I; cbn [while_]; [apply carries_refl|]. destruct (1 <? fst st)%nat; [|apply carries_refl].
    apply carries_bind; [now apply level_carries|]. intros st' E. apply IHfuel. now apply (level_keep _ _ _ _ _ E). }
  apply G. cbn [snd len0]. intros _. rewrite nth_set_other by (rewrite ?repeat_length; lia). rewrite nth_repeat' by lia. lia.
Qed.

Lemma count_eq n : (0 < n)%nat -> ((63 + n - 1) / 63 = 1 + (n - 1) / 63)%nat.
Proof.
  intros H. replace (63 + n - 1)%nat with (n - 1 + 1 * 63)%nat by lia. rewrite Nat.div_add by lia. lia.
Qed.

Lemma count_bound n D : (0 < n < D)%nat -> (N.of_nat D <= 2 ^ 57)%N -> (N.of_nat ((1 + (n - 1) / 63) * 64) <= 2 ^ 63)%N.
Proof.
  intros H HD. transitivity (N.of_nat (D * 64)).
  - assert ((n - 1) / 63 <= n - 1)%nat by (apply Nat.div_le_upper_bound; lia). lia.
  - rewrite Nat2N.inj_mul. change (2 ^ 63)%N with (2 ^ 57 * 64)%N. change (N.of_nat 64) with 64%N. apply N.mul_le_mono_r. exact HD.
Qed.

Theorem zero_poly_carries s D missing : (N.of_nat D <= 2 ^ 57)%N ->
  carries (zero_poly_via_multiplication (K := K) s D missing) (zk_zero_poly s D missing).
Proof.
  intros HD. unfold zero_poly_via_multiplication, zk_zero_poly.
  destruct (Nat.eqb_spec (length missing) 0); [apply carries_refl|].
  destruct (Nat.leb_spec D (length missing)) as [C|C]; [apply carries_refl|].
  destruct (max_width s <? D)%nat; [apply carries_refl|].
  rewrite std_is_pow2_eq. destruct (Nat.eqb_spec D 0); [lia|]. cbn [negb andb].
  destruct (negb (is_pow2 D)); [apply carries_refl|]. rewrite count_eq by lia.
  assert (Hc := count_bound (length missing) D ltac:(lia) HD).
  rewrite std_next_pow2_eq by (auto; lia).
  apply carries_bind; [apply carries_refl|]. intros np _. apply carries_bind.
  - destruct (Nat.leb_spec (length missing) 63).
    + rewrite zk_zero_partial_eq. apply carries_unwrap, carries_refl.
    + apply tree_carries; auto.
      * assert (1 <= (length missing - 1) / 63)%nat; [|lia]. apply Nat.div_le_lower_bound; lia.
      * etransitivity; [exact HD|]. apply N.pow_le_mono_r; lia.
  - intros zp _. rewrite (zk_fft_fr_eq H2) || idtac. apply carries_bind.
    + destruct (Nat.compare_spec (length zp) D) as [E|E|E].
      * rewrite E, Nat.ltb_irrefl. apply carries_refl.
      * apply Nat.ltb_lt in E. rewrite E. apply pad_carries.
      * destruct (Nat.ltb_spec (length zp) D); [lia|]. apply Nat.ltb_lt in E. rewrite E. apply carries_refl.
    + intros zp' _. rewrite zk_fft_fr_eq by auto. apply carries_refl.
Qed.

(** degenerate and rejected arguments *)
Theorem zk_zero_poly_args s D missing :
  (missing = [] -> zk_zero_poly (K := K) s D missing = Ok ([], [])) /\
  (missing <> [] -> (D <= length missing)%nat \/ (max_width s < D)%nat \/ (forall m, D <> 2 ^ m)%nat ->
     zk_zero_poly s D missing = Err).
Proof.
  split; [intros ->; reflexivity|]. intros Hn H. unfold zk_zero_poly.
  assert (0 < length missing)%nat by (destruct missing; [congruence|simpl; lia]).
  destruct (Nat.eqb_spec (length missing) 0); [lia|].
  destruct (Nat.leb_spec D (length missing)); auto. destruct (Nat.ltb_spec (max_width s) D); auto.
  destruct H as [H|[H|H]]; try lia. destruct (std_is_pow2 D) eqn:E; auto.
  apply std_is_pow2_spec in E as (m & ->). now specialize (H m).
Qed.

(** ** too many missing: the same error *)
Section Fail.
Variables (rs : list K) (s : fft_settings K) (ks : nat) (w : K).
Hypothesis HS : settings_ok s ks w.
Hypothesis Hks : (ks < 32)%nat.
Variables (f P : nat).
Notation m := (length rs).
Notation D := (64 * 2 ^ f)%nat.
Notation W := (64 * 2 ^ S f)%nat.
Hypothesis HD : (f + 6 <= ks)%nat.
Hypothesis HmD : (m < D)%nat.
Hypothesis HP : (63 * (P - 1) < m <= 63 * P)%nat.
Hypothesis Hf : (2 <= f)%nat.
Hypothesis Hbig : (2 ^ f + 1 < P)%nat.
Lemma zk_zp_tree_fails (missing : list nat) stride :
  length missing = m ->
  (forall i, (i < m)%nat -> idx (expanded_roots s) (nth i missing 0%nat * stride) = Ok (nth i rs 0)) ->
  next_pow2 (P * 64) = Ok W ->
  zk_zp_tree s D (Nat.min W D) P stride missing = Err.
Proof.
  intros Hml Hid HNP. unfold zk_zp_tree.
  assert (HPe := P_le rs f P HmD HP Hf).
  assert (HB : (N.of_nat (P * 64) <= 2 ^ 63)%N).
  { assert (P * 64 <= 2 ^ 40)%nat.
    { transitivity (2 ^ (7 + f))%nat; [rewrite Nat.pow_add_r; simpl (2 ^ 7)%nat; cbn [Nat.pow] in HPe; lia|].
      apply Nat.pow_le_mono_r; lia. }
    transitivity (2 ^ 40)%N; [|apply N.pow_le_mono_r; lia].
    replace (2 ^ 40)%N with (N.of_nat (2 ^ 40)) by (rewrite Nat2N.inj_pow; reflexivity). lia. }
  rewrite std_next_pow2_eq by (auto; lia). rewrite HNP. cbn [bind].
  destruct (zp_partials_spec rs s ks Hks f P HD HmD HP (S f) missing stride) as (work & offs & E & Lw & Lo & Hs & Hz); auto; [lia|].
  rewrite (partials_carries _ _ _ _ _ _ E). cbn [bind]. rewrite usub_ok by lia. cbn [bind]. rewrite usub_ok by lia. cbn [bind].
  rewrite upd_ok by (rewrite repeat_length; lia). cbn [bind]. rewrite Hml.
  set (lens := set (repeat 64%nat P) (P - 1) (1 + m - (P - 1) * 63)%nat).
  assert (Ll : length lens = P) by (unfold lens; now rewrite set_length, repeat_length).
  assert (Hfull : forall t, (t + 1 < P)%nat -> nth t lens 0%nat = (gsz 0 + 1)%nat).
  { intros t Ht. unfold lens. rewrite nth_set_other by (rewrite ?repeat_length; lia). rewrite nth_repeat' by lia. reflexivity. }
  assert (Hlast : (length (grp rs 0 (P - 1)) + 1 <= nth (P - 1) lens 0 <= gsz 0 + 1)%nat).
  { unfold lens. rewrite nth_set_same by (rewrite repeat_length; lia). rewrite grp_length. unfold gsz. simpl (4 ^ 0)%nat. lia. }
  assert (Hc : (1 < P <= P)%nat) by lia.
  assert (S0 : slotsz 0 = 64%nat) by reflexivity.
  assert (HW : (P * slotsz 0 <= W)%nat) by (rewrite S0; lia).
  assert (Hm : (m <= gsz 0 * P)%nat) by (unfold gsz; simpl (4 ^ 0)%nat; lia).
  assert (EC : Nat.min W D = D) by (cbn [Nat.pow]; lia). rewrite EC.
  assert (E4 := pow2_4 f Hf). set (q := (2 ^ (f - 2))%nat) in *.
  assert (Hq : (q <= (P - 1) / 4)%nat) by (apply Nat.div_le_lower_bound; lia).
  cbn [while_]. destruct (Nat.ltb_spec 1 (fst (P, (work, lens, offs)))) as [_|Q]; [|cbn [fst] in Q; lia].
  unfold zk_zp_level at 1. rewrite (idx_ok lens 0 0%nat) by lia. cbn [bind]. rewrite Hfull by lia.
  change (std_next_pow2 (gsz 0 + 1)) with (Ok 64%nat). cbn [bind].
  assert (Hs' : forall t x : nat, (t < P)%nat -> (x < slotsz 0)%nat -> nth (t * slotsz 0 + x) work 0 = coef (vanish_poly (grp rs 0 t)) x) by exact Hs.
  assert (Hz' : forall x, (P * slotsz 0 <= x)%nat -> nth x work 0 = 0) by exact Hz.
  destruct (for_range_inv (fun i st => midinv rs W P 0 P work lens i st) (zp_group s D D P (slotsz 0)) 0 q (work, lens, offs)) as (st & EG & I).
  - lia.
  - repeat split; auto; lia.
  - intros i st Hi I. apply (zp_group_spec rs s ks w HS D D W P 0 P Hc HW Hm work lens Ll Hs' Hz' Hfull Hlast); auto; [lia|].
    unfold group_fits. rewrite S0. split; [lia|]. intros H1.
    assert (N4 : num P i = 4%nat) by (unfold num; lia).
    exists 8%nat. split; [lia|]. change (2 ^ 8)%nat with 256%nat. split; [lia|].
    assert (LE := newdeg_le rs s ks w HS W P 0 P Hc HW Hm work lens Ll Hs' Hz' Hfull Hlast i ltac:(lia)).
    rewrite N4 in LE. change (gsz 0) with 63%nat in LE. lia.
  - assert (EG32 : zk_zp_group s D D P (slotsz 0) q st = Err).
    { destruct st as [[work' lens'] offs']. pose proof I as (L1 & L2 & L3 & _).
      unfold zk_zp_group. rewrite S0. rewrite usub_ok by lia. cbn [bind]. rewrite usub_ok by lia. cbn [bind].
      rewrite upd_ok by lia. cbn [bind].
      assert (I2 : midinv rs W P 0 P work lens q (work', lens', set offs' q (q * 4 * 64)%nat)).
      { destruct I as (J1 & J2 & J3 & J4). repeat split; auto; try apply J4. now rewrite set_length. }
      destruct (zp_views_spec rs s ks w HS W P 0 P Hc HW Hm work lens Ll Hs' Hz' Hfull Hlast q work' lens' _ ltac:(lia) I2)
        as (offs2 & EV & _).
      rewrite S0 in EV. fold (num P q). rewrite EV. cbn [bind].
      destruct (Nat.ltb_spec 1 (num P q)) as [_|Q]; [|unfold num in Q; lia].
      replace (Nat.min (Nat.min ((q * 4 + 4) * 64) D - q * 4 * 64) D) with 0%nat by lia.
      rewrite zk_reduce_errors; [reflexivity| |right; lia].
      apply Forall_forall. intros p Hp. apply in_map_iff in Hp as (j & <- & Hj). apply in_seq in Hj.
      assert (B := lens_bounds rs s ks w HS W P 0 P Hc HW Hm work lens Ll Hs' Hz' Hfull Hlast q j ltac:(unfold num in Hj; lia)). unfold view. intros EE. apply (f_equal (@length _)) in EE.
      rewrite length_map_seq in EE. simpl in EE. lia. }
    rewrite S0 in EG, EG32.
    apply (carries_for_range _ (zk_zp_group s D D P 64) _ _ _ (fun j t => group_carries s D D P 64 j t)) in EG.
    rewrite (for_range_err _ (1 + (P - 1) / 4) q (work, lens, offs) st); [reflexivity|lia|exact EG|exact EG32].
Qed.
End Fail.

Theorem zk_zero_poly_fails (s : fft_settings K) ks (w : K) dm (missing : list nat) :
  settings_ok s ks w -> (ks < 32)%nat -> (dm <= ks)%nat ->
  (63 * (2 ^ dm / 64 + 1) < length missing < 2 ^ dm)%nat ->
  Forall (fun i => (i < 2 ^ dm)%nat) missing ->
  zk_zero_poly s (2 ^ dm) missing = Err.
Proof.
  intros HS Hks Hdm HL HF.
  set (wd := w ^ (2 ^ (ks - dm))). set (rs := map (fpow wd) missing).
  pose proof HS as (MW & _ & _ & EXP & _).
  assert (Lrs : length rs = length missing) by apply map_length.
  unfold zk_zero_poly.
  destruct (Nat.eqb_spec (length missing) 0); [lia|].
  destruct (Nat.leb_spec (2 ^ dm) (length missing)); [lia|].
  assert (Pd : (2 ^ dm <= 2 ^ ks)%nat) by (apply Nat.pow_le_mono_r; lia).
  rewrite MW. destruct (Nat.ltb_spec (2 ^ ks) (2 ^ dm)); [lia|]. rewrite std_is_pow2_eq, is_pow2_pow. assert (Pp := pow2_pos dm). destruct (Nat.eqb_spec (2 ^ dm) 0); [lia|]. cbn [negb andb]. rewrite count_eq by lia.
  assert (Str : (2 ^ ks / 2 ^ dm = 2 ^ (ks - dm))%nat) by (apply pow2_div; auto). rewrite Str.
  set (P := (1 + (length missing - 1) / 63)%nat).
  assert (Dm := Nat.div_mod (length missing - 1) 63 ltac:(lia)).
  assert (Mb := Nat.mod_upper_bound (length missing - 1) 63 ltac:(lia)).
  assert (HP : (63 * (P - 1) < length rs <= 63 * P)%nat) by (unfold P; lia).
  assert (Hid : forall i, (i < length rs)%nat -> idx (expanded_roots s) (nth i missing 0%nat * 2 ^ (ks - dm)) = Ok (nth i rs 0)).
  { intros i Hi. assert (Hn : (nth i missing 0 < 2 ^ dm)%nat).
    { rewrite Forall_forall in HF. apply HF. apply nth_In. lia. }
    assert (Es := pow2_split ks dm Hdm).
    assert (Ps := pow2_pos (ks - dm)).
    rewrite EXP. rewrite (idx_ok _ _ 0) by (rewrite length_map_seq; nia). rewrite nth_map_seq by nia.
    f_equal. unfold rs. rewrite (nth_indep _ 0 (wd ^ 0)) by (rewrite map_length; lia). rewrite map_nth.
    unfold wd. rewrite <- fpow_mul. f_equal. lia. }
  assert (D6 := pow2_ge_64 dm (length missing) ltac:(lia) ltac:(lia)). set (f := (dm - 6)%nat).
  assert (ED : (2 ^ dm = 64 * 2 ^ f)%nat) by (unfold f; rewrite (pow2_split dm 6 D6); reflexivity).
  assert (Dv : (2 ^ dm / 64 = 2 ^ f)%nat) by (rewrite ED, Nat.mul_comm; apply Nat.div_mul; lia).
  rewrite Dv, ED in HL.
  assert (F2 : (2 <= f)%nat).
  { destruct (Nat.le_gt_cases 2 f); auto. assert (2 ^ f <= 2 ^ 1)%nat by (apply Nat.pow_le_mono_r; lia). simpl (2 ^ 1)%nat in *. lia. }
  assert (Hbig : (2 ^ f + 1 < P)%nat) by (unfold P; nia).
  assert (HmD : (length rs < 64 * 2 ^ f)%nat) by lia.
  assert (HPe := P_le rs f P HmD HP F2).
  assert (HB : (N.of_nat (P * 64) <= 2 ^ 63)%N).
  { assert (P * 64 <= 2 ^ 40)%nat.
    { transitivity (2 ^ (7 + f))%nat; [rewrite Nat.pow_add_r; simpl (2 ^ 7)%nat; cbn [Nat.pow] in HPe; lia|].
      apply Nat.pow_le_mono_r; lia. }
    transitivity (2 ^ 40)%N; [|apply N.pow_le_mono_r; lia].
    replace (2 ^ 40)%N with (N.of_nat (2 ^ 40)) by (rewrite Nat2N.inj_pow; reflexivity). lia. }
  assert (NP : next_pow2 (P * 64) = Ok (64 * 2 ^ S f)%nat).
  { replace (64 * 2 ^ S f)%nat with (2 ^ S (f + 6))%nat.
    - apply next_pow2_between.
      + assert (P * 64 <= 2 ^ 40)%nat.
        { transitivity (2 ^ (7 + f))%nat; [rewrite Nat.pow_add_r; simpl (2 ^ 7)%nat; cbn [Nat.pow] in HPe; lia|].
          apply Nat.pow_le_mono_r; lia. }
        transitivity (2 ^ 40)%N; [|apply N.pow_le_mono_r; lia].
        replace (2 ^ 40)%N with (N.of_nat (2 ^ 40)) by (rewrite Nat2N.inj_pow; reflexivity). lia.
      + cbn [Nat.pow] in *. rewrite Nat.pow_add_r. simpl (2 ^ 6)%nat. lia.
    - cbn [Nat.pow]. rewrite Nat.pow_add_r. simpl (2 ^ 6)%nat. lia. }
  rewrite std_next_pow2_eq by (exact HB || (unfold P; lia)). rewrite NP. cbn [bind]. destruct (Nat.leb_spec (length missing) 63); [lia|].
  rewrite ED.
  rewrite (zk_zp_tree_fails rs s ks w HS Hks f P ltac:(unfold f; lia) HmD HP F2 Hbig missing (2 ^ (ks - dm)) (eq_sym Lrs) Hid NP).
  reflexivity.
Qed.


(** ** recovery *)
Lemma zk_apply_powers_spec (c : K) p : zk_apply_powers c p = Ok (map (fun i => nth i p 0 * c ^ i) (seq 0 (length p))).
Proof.
  unfold zk_apply_powers. destruct p as [|a0 p0] eqn:Ep; [reflexivity|]. rewrite <- Ep.
  assert (L1 : (1 <= length p)%nat) by (rewrite Ep; simpl; lia). clear Ep a0 p0.
  destruct (for_range_inv (fun t (st : list K * K) => length (fst st) = length p /\ snd st = c ^ (t - 1) /\
      forall i, (i < length p)%nat -> nth i (fst st) 0 = if (i <? t)%nat then nth i p 0 * c ^ i else nth i p 0)
    (fun i (st : list K * K) =>
      let (p, factor_power) := st in
      let factor_power := fmul factor_power c in
      let* x := idx p i in
      let* p := upd p i (fmul x factor_power) in
      Ok (p, factor_power)) 1 (length p) (p, f1)) as ([q fp] & E & L & _ & I).
  - lia.
  - split; [|split]; auto. intros i Hi. cbn [fst]. destruct (Nat.ltb_spec i 1); auto.
    replace i with 0%nat by lia. cbn [fpow]. ring.
  - intros i [q fp] Hi (Lq & Ef & I). cbn [fst snd] in *. subst fp.
    rewrite (idx_ok q i 0) by lia. cbn [bind]. rewrite upd_ok by lia. cbn [bind].
    eexists. split; [reflexivity|]. cbn [fst snd]. rewrite set_length. split; [auto|].
    assert (EP : c ^ (i - 1) * c = c ^ i) by (replace (c ^ i) with (c ^ S (i - 1)) by (f_equal; lia); cbn [fpow]; ring).
    split; [rewrite EP; f_equal; lia|].
    intros j Hj. destruct (Nat.eq_dec j i) as [->|N].
    + rewrite nth_set_same by lia. rewrite EP, I by lia. destruct (Nat.ltb_spec i i); [lia|].
      destruct (Nat.ltb_spec i (S i)); [|lia]. reflexivity.
    + rewrite nth_set_other by lia. rewrite I by auto.
      destruct (Nat.ltb_spec j i), (Nat.ltb_spec j (S i)); try lia; auto.
  - match goal with |- bind ?a _ = _ => replace a with (Ok (q, fp) : res (list K * K)) by (symmetry; exact E) end.
    cbn [bind fst] in *. f_equal. apply (nth_ext' 0); [now rewrite length_map_seq|].
    intros i Hi. rewrite L in Hi. rewrite nth_map_seq by auto. rewrite I by auto.
    destruct (Nat.ltb_spec i (length p)); [reflexivity|lia].
Qed.

Lemma zk_scale_poly_spec (p : list K) : fnat 5 <> (0:K) ->
  zk_scale_poly p = Ok (map (fun i => nth i p 0 * (finv (fnat 5)) ^ i) (seq 0 (length p))).
Proof. intros H. unfold zk_scale_poly. rewrite zkf_inverse_ok by auto. cbn [bind]. apply zk_apply_powers_spec. Qed.

Lemma zk_unscale_poly_spec (p : list K) :
  zk_unscale_poly p = Ok (map (fun i => nth i p 0 * (fnat 5) ^ i) (seq 0 (length p))).
Proof. apply zk_apply_powers_spec. Qed.

Section R.
Variables (s : fft_settings K) (k : nat) (w : K) (m : nat).
Hypothesis HS : settings_ok s k w.
Hypothesis Hk : (k < 32)%nat.
Hypothesis Hm : (m <= k)%nat.
Hypothesis H5 : fnat 5 <> (0:K).
Notation n := (2 ^ m)%nat.
Notation wd := (w ^ (2 ^ (k - m))).

Lemma zk_core_eq (evals Z : list K) : length evals = n -> length Z = n ->
  zk_recover_core s n evals Z = recover_core n s n evals Z.
Proof.
  intros LE LZ. unfold zk_recover_core, recover_core. assert (P0 := pow2_pos m).
  rewrite !zk_fft_fr_eq by auto.
  destruct (ifft_fr_interpolates s k w m evals HS Hm LE) as (P & EP & LP & _). rewrite EP. cbn [unwrap bind].
  rewrite LZ, !zk_scale_poly_spec by auto. cbn [bind]. rewrite LP, LZ.
  assert (SC : forall q : list K, length q = n -> scale_poly n q n = Ok (map (fun i => nth i q 0 * (finv (fnat 5)) ^ i) (seq 0 n))).
  { intros q Lq. rewrite <- Lq. apply scale_poly_spec; lia. }
  assert (US : forall q : list K, length q = n -> unscale_poly n q n = Ok (map (fun i => nth i q 0 * (fnat 5) ^ i) (seq 0 n))).
  { intros q Lq. rewrite <- Lq. apply unscale_poly_spec; lia. }
  rewrite !SC by auto. cbn [bind]. rewrite !zk_fft_fr_eq by auto.
  rewrite !(fft_fr_spec s k w m) by (auto; apply length_map_seq). cbn [unwrap bind].
  match goal with |- bind ?a _ = bind ?b _ => assert (EF : a = b) end.
  { unfold for_range. apply for_ext. intros i l. destruct (idx _ i); cbn [bind]; auto. destruct (idx _ i); cbn [bind]; auto.
    now rewrite zkf_div_eq. }
  rewrite EF. clear EF.
  match goal with |- bind ?a _ = _ => destruct a as [evr| | |] eqn:EE; cbn [bind]; auto end.
  rewrite zk_fft_fr_eq by auto.
  assert (Le : length evr = n).
  { apply (for_keep (fun _ l => length l = n)) in EE; auto; [apply length_map_seq|].
    intros j t t' _ Lt Et. destruct (idx _ j); cbn [bind] in Et; try discriminate. destruct (idx _ j); cbn [bind] in Et; try discriminate.
    unfold fr_div in Et. cbn [unwrap bind] in Et. apply upd_len in Et. lia. }
  destruct (ifft_fr_interpolates s k w m evr HS Hm Le) as (Q & EQ & LQ & _).
  rewrite EQ. cbn [unwrap bind]. rewrite zk_unscale_poly_spec, US by auto. cbn [bind]. rewrite LQ.
  now rewrite zk_fft_fr_eq.
Qed.

Lemma write_loop (f : nat -> K) (body : nat -> list K -> res (list K)) N :
  (forall i l, (i < N)%nat -> length l = N -> body i l = upd l i (f i)) ->
  for_range 0 N body (repeat 0 N) = Ok (map f (seq 0 N)).
Proof.
  intros H. destruct (for_range_inv (fun t (l : list K) => length l = N /\ forall i, (i < t)%nat -> nth i l 0 = f i) body 0 N (repeat 0 N))
    as (l & E & L & I).
  - lia.
  - split; [apply repeat_length|]. intros; lia.
  - intros i l Hi (L & I). rewrite H by (auto; lia). rewrite upd_ok by lia. eexists. split; [reflexivity|].
    rewrite set_length. split; auto. intros j Hj. destruct (Nat.eq_dec j i) as [->|Ne]; [apply nth_set_same; lia|].
    rewrite nth_set_other by lia. apply I. lia.
  - rewrite E. f_equal. apply (nth_ext' 0); [now rewrite length_map_seq|]. intros i Hi. rewrite L in Hi.
    rewrite nth_map_seq by auto. now apply I.
Qed.

Lemma n57 : (N.of_nat n <= 2 ^ 57)%N.
Proof. apply (pow2_N_le m 57). lia. Qed.

Lemma samples_vals (samples : list (option K)) : (forall i, (i < length samples)%nat -> nth i samples None <> None) ->
  exists vs, samples = map Some vs.
Proof.
  induction samples as [|[v|] l IH]; intros H.
  - now exists [].
  - destruct IH as (vs & ->). { intros i Hi. apply (H (S i)). simpl. lia. } now exists (v :: vs).
  - exfalso. apply (H 0%nat); simpl; auto; lia.
Qed.

Theorem zk_recover_spec (samples : list (option K)) : (fnat 5 : K) ^ n <> 1 -> length samples = n ->
  zk_recover s samples = unwrap (recover_opt n s samples).
Proof.
  intros H5n L. unfold zk_recover. assert (P0 := pow2_pos m).
  rewrite L, std_is_pow2_eq, is_pow2_pow. destruct (Nat.eqb_spec n 0) as [Z0|_]; [lia|]. cbn [negb andb assert bind].
  change (fun o : option K => zk_is_none o) with (fun o : option K => match o with None => true | Some _ => false end).
  rewrite (missing_spec _ None), L. set (sm := fun i => nth i samples None).
  change (filter _ (seq 0 n)) with (gaps sm n).
  assert (GF := gaps_forall k m n Hk Hm (le_n _) sm n).
  destruct (Nat.eq_dec (length (gaps sm n)) 0) as [G0|G0].
  { (* nothing missing *)
    apply length_zero_iff_nil in G0. rewrite G0. cbn [zk_zero_poly length Nat.eqb unwrap bind Nat.min].
    destruct (samples_vals samples) as (vs & ->).
    { intros i Hi E. assert (In i (gaps sm n)) by (apply (in_gaps k m n Hk Hm (le_n _)); split; auto; lia). rewrite G0 in *. auto. }
    rewrite map_length in L. rewrite (recover_opt_complete n s vs m L). cbn [unwrap].
    change (for_range 0 0 _ tt) with (Ok tt : res unit). cbn [bind].
    unfold for_range at 1. rewrite Nat.sub_0_r. destruct n as [|n'] eqn:En; [lia|]. cbn [for_].
    destruct vs as [|v vs]; [simpl in L; lia|]. reflexivity. }
  assert (RL : recover_opt n s samples = let* z := unwrap (zero_poly_via_multiplication s n (gaps sm n)) in
     let (zero_eval, zero_poly) := z in
     let* _ := for_range 0 n (fun i _ =>
        let* sm := idx samples i in
        let* ze := idx zero_eval i in
        assert (Bool.eqb (match sm with None => true | Some _ => false end) (feqb ze f0))) tt in
     let* evals := for_range 0 n (fun i l =>
        let* sm := idx samples i in
        match sm with
        | None => Ok (l ++ [f0])
        | Some v => let* ze := idx zero_eval i in Ok (l ++ [fmul v ze])
        end) [] in
     let* data := recover_core n s n evals zero_poly in
     let* _ := for_range 0 n (fun i _ =>
        let* sm := idx samples i in
        match sm with
        | None => Ok tt
        | Some v => let* d := idx data i in assert (feqb d v)
        end) tt in
     Ok data).
  { unfold recover_opt. rewrite L, is_pow2_pow. cbn [negb]. rewrite (missing_spec _ None), L. reflexivity. }
  destruct (Nat.lt_ge_cases (length (gaps sm n)) n) as [C|C].
  2: { rewrite RL. rewrite (proj2 (zk_zero_poly_args s n (gaps sm n))); [|intros Z; rewrite Z in G0; simpl in G0; lia|auto].
       unfold zero_poly_via_multiplication. destruct (Nat.eqb_spec (length (gaps sm n)) 0) as [Z1|_]; [lia|].
       destruct (Nat.leb_spec n (length (gaps sm n))) as [_|Z1]; [|lia]. reflexivity. }
  destruct (Nat.le_gt_cases (length (gaps sm n)) (63 * (n / 64 + 1))) as [C2|C2].
  2: { rewrite RL. rewrite (zk_zero_poly_fails s k w m), (zero_poly_fails s k w m) by auto. reflexivity. }
  clear RL.
  destruct (recover_interp s k w m n HS Hk Hm (le_n _) sm) as (D & LD & HDv).
  assert (R := recover_opt_spec s k w m n HS Hk Hm (le_n _) H5 H5n samples D L). cbv zeta in R. fold sm in R.
  rewrite R by (auto; lia). clear R. cbn [unwrap].
  assert (Hu : (0 < length (gaps sm n) < n)%nat) by lia.
  assert (ZP := zp_ok s k w m n HS Hk Hm (le_n _) sm Hu C2).
  rewrite (zero_poly_carries s n (gaps sm n) n57 _ ZP). cbn [unwrap bind].
  rewrite length_map_seq, Nat.min_id. rewrite check_loop.
  2: { intros i Hi. rewrite (idx_ok _ i 0) by (rewrite length_map_seq; auto). cbn [bind].
       rewrite (idx_ok samples i None) by lia. cbn [bind]. rewrite nth_map_seq by auto.
       rewrite (zero_at s k w m n HS Hk Hm (le_n _) sm) by auto. unfold sm. destruct (nth i samples None); reflexivity. }
  cbn [bind].
  rewrite (write_loop (fun i => match sm i with None => 0 | Some v => v * vanish (map (fpow wd) (gaps sm n)) (wd ^ i) end)).
  2: { intros i l Hi _. rewrite (idx_ok samples i None) by lia. cbn [bind]. fold (sm i). destruct (sm i); auto.
       rewrite (idx_ok _ i 0) by (rewrite length_map_seq; auto). cbn [bind]. now rewrite nth_map_seq by auto. }
  cbn [bind]. rewrite zk_core_eq by apply length_map_seq.
  rewrite (core_ok s k w m n HS Hk Hm (le_n _) H5 H5n sm Hu C2 D ltac:(lia) HDv) by (try apply length_map_seq; intros i Hi; now rewrite nth_map_seq by auto).
  cbn [bind]. rewrite check_loop; [reflexivity|].
  intros i Hi. rewrite (idx_ok samples i None) by lia. cbn [bind]. fold (sm i). destruct (sm i) as [v|] eqn:E; auto.
  rewrite (idx_ok _ i 0) by (rewrite length_map_seq; auto). cbn [bind]. rewrite nth_map_seq by auto.
  rewrite (HDv i v) by auto. rewrite (proj2 (feqb_spec _ v v)) by auto. reflexivity.
Qed.
End R.

Theorem zk_recover_lengths (s : fft_settings K) (samples : list (option K)) :
  ((forall m, length samples <> 2 ^ m)%nat -> zk_recover s samples = Panic) /\
  (forall m, length samples = (2 ^ m)%nat -> (max_width s < 2 ^ m)%nat -> zk_recover s samples = Panic).
Proof.
  split; [intros H|intros m L H]; unfold zk_recover.
  - destruct (std_is_pow2 (length samples)) eqn:E; [|reflexivity]. apply std_is_pow2_spec in E as (m & E). now apply H in E.
  - rewrite L. assert (P0 := pow2_pos m). rewrite std_is_pow2_eq, is_pow2_pow. destruct (Nat.eqb_spec (2 ^ m) 0); [lia|]. cbn [negb andb assert bind].
    set (ms := missing_positions _ samples). destruct ms as [|i ms0] eqn:E.
    + cbn [zk_zero_poly length Nat.eqb unwrap bind Nat.min]. change (for_range 0 0 _ tt) with (Ok tt : res unit). cbn [bind].
      unfold for_range at 1. rewrite Nat.sub_0_r. destruct (2 ^ m)%nat as [|n'] eqn:En; [lia|]. cbn [for_].
      destruct samples as [|[v|] l]; [simpl in L; lia|reflexivity|]. exfalso. unfold ms, missing_positions in E. simpl in E. discriminate.
    + rewrite (proj2 (zk_zero_poly_args s (2 ^ m) (i :: ms0))); [reflexivity|discriminate|auto].
Qed.
End Z.
