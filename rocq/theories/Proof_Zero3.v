(** * Proof_Zero3: [zero_poly_via_multiplication] computes the vanishing polynomial *)
From Coq Require Import List Arith Lia Bool NArith Field Ring.
From Verif Require Import Base Fld Poly Loops Model_Utils Proof_Utils Model_FFT Spec Proof_FFT Model_ZeroPoly Proof_Zero1 Proof_Zero2.
Import ListNotations.

Lemma pow4_2 k : 4 ^ k = 2 ^ (2 * k).
Proof. rewrite Nat.pow_mul_r. reflexivity. Qed.

Lemma pow2_split a b : b <= a -> 2 ^ a = 2 ^ b * 2 ^ (a - b).
Proof. intros. rewrite <- Nat.pow_add_r. f_equal. lia. Qed.

Lemma pow2_lt_inv a b : 2 ^ a < 2 ^ b -> a < b.
Proof. intros H. destruct (Nat.lt_ge_cases a b); auto. assert (2 ^ b <= 2 ^ a) by (apply Nat.pow_le_mono_r; lia). lia. Qed.

Lemma ceil_aux a c P q : 0 < a -> (c - 1) * a < P -> P <= a * q -> c <= q.
Proof.
  intros Ha H1 H2. destruct (Nat.le_gt_cases c q); auto. exfalso.
  assert (q * a <= (c - 1) * a) by (apply Nat.mul_le_mono_r; lia). lia.
Qed.

Section Z3.
Context {K : fld}.
Add Field Kfz3 : (fld_field K).
Local Open Scope fld_scope.
Variable rs : list K.
Notation m := (length rs).
Variables (s : fft_settings K) (ks : nat) (w : K).
Hypothesis HS : settings_ok s ks w.
Hypothesis Hks : (ks < 32)%nat.
Variables (f P : nat).
Notation D := (64 * 2 ^ f)%nat.
Hypothesis HD : (f + 6 <= ks)%nat.
Hypothesis HmD : (m < D)%nat.
Hypothesis HP : (63 * (P - 1) < m <= 63 * P)%nat.

(** the two shapes of the problem: everything fits below the domain size, or there is
    exactly one partial too many *)
Variables (e : nat).
Notation W := (64 * 2 ^ e)%nat.
Notation C := (Nat.min W D).
Definition shape_a : Prop := (e <= f)%nat /\ (P <= 2 ^ e)%nat.
Definition shape_b : Prop := P = (2 ^ f + 1)%nat /\ e = S f.

Section Fits.
Variables (k c : nat) (lens0 : list nat).
Hypothesis Hc : (1 < c)%nat.
Hypothesis Hck : ((c - 1) * 4 ^ k < P <= c * 4 ^ k)%nat.
Notation S_ := (slotsz k).
Notation c' := (1 + (c - 1) / 4)%nat.
Hypothesis Hdeg : forall i, (i < c')%nat -> (newdeg c lens0 i <= num c i * gsz k)%nat.
Hypothesis Hfull : forall t, (t + 1 < c)%nat -> nth t lens0 0%nat = (gsz k + 1)%nat.

Lemma c'_bound i : (i < c')%nat -> (i * 4 < c)%nat.
Proof.
  intros H. assert (i <= (c - 1) / 4)%nat by lia.
  assert (4 * ((c - 1) / 4) <= c - 1)%nat by (apply Nat.mul_div_le; lia). lia.
Qed.

Lemma slots_fit : P <= 2 ^ e -> (c * S_ <= W)%nat.
Proof.
  intros HPe. assert (P4 := pow4_pos k).
  assert (L : (2 ^ (2 * k) < 2 ^ e)%nat) by (rewrite <- pow4_2; nia).
  apply pow2_lt_inv in L. assert (E := pow2_split e (2 * k) ltac:(lia)). rewrite <- pow4_2 in E.
  unfold slotsz. set (q := (2 ^ (e - 2 * k))%nat) in *.
  assert (c <= q)%nat by (apply (ceil_aux (4 ^ k) c P q); lia).
  rewrite E. clear - H. nia.
Qed.

Lemma fits_a : shape_a -> forall i, (i < c')%nat -> group_fits ks D C k c lens0 i.
Proof.
  intros (Hef & HPe) i Hi. assert (P4 := pow4_pos k). assert (B := c'_bound i Hi).
  assert (SF := slots_fit HPe).
  assert (L : (2 ^ (2 * k) < 2 ^ e)%nat) by (rewrite <- pow4_2; nia).
  apply pow2_lt_inv in L. 
  assert (Ef : (2 ^ e <= 2 ^ f)%nat) by (apply Nat.pow_le_mono_r; lia).
  assert (EC : C = W) by lia. unfold group_fits. rewrite EC.
  split; [nia|]. intros H1. assert (Q := Hdeg i Hi). assert (G := gsz_lt k).
  destruct (Nat.le_gt_cases (2 * k + 2) e) as [L2|L2].
  - exists (8 + 2 * k)%nat. split; [lia|].
    assert (E := pow2_split e (2 * k + 2) ltac:(lia)). rewrite (Nat.pow_add_r 2 (2 * k) 2) in E. rewrite <- pow4_2 in E.
    change (2 ^ 2)%nat with 4%nat in E. set (q := (2 ^ (e - (2 * k + 2)))%nat) in *.
    assert (S4 : (2 ^ (8 + 2 * k) = 4 * S_)%nat) by (rewrite Nat.pow_add_r, <- pow4_2; unfold slotsz; simpl (2 ^ 8)%nat; lia).
    rewrite S4. assert (Iq : (i < q)%nat) by (unfold slotsz in SF; rewrite E in SF; nia).
    split.
    + assert (EW : W = (4 * q * S_)%nat) by (unfold slotsz; lia). 
      replace (Nat.min ((i * 4 + 4) * S_) W) with ((i * 4 + 4) * S_)%nat by (rewrite EW; symmetry; apply Nat.min_l; nia).
      replace ((i * 4 + 4) * S_ - i * 4 * S_)%nat with (4 * S_)%nat by nia.
      apply Nat.min_l. nia.
    + assert (num c i <= 4)%nat by (unfold num; lia). nia.
  - assert (e = 2 * k + 1)%nat as Ee by lia. exists (7 + 2 * k)%nat. split; [lia|].
    assert (EW : W = (2 * S_)%nat) by (rewrite Ee, Nat.pow_add_r, <- pow4_2; unfold slotsz; simpl (2 ^ 1)%nat; lia).
    assert (S2 : (2 ^ (7 + 2 * k) = 2 * S_)%nat) by (rewrite Nat.pow_add_r, <- pow4_2; unfold slotsz; simpl (2 ^ 7)%nat; lia).
    rewrite S2, EW. assert (Sp : (0 < S_)%nat) by (unfold slotsz; lia).
    assert (c = 2)%nat by (rewrite EW in SF; nia). assert (i = 0)%nat by lia. subst i.
    split.
    + cbn [Nat.mul Nat.add]. rewrite Nat.sub_0_r. replace (Nat.min _ (2 * S_)) with (2 * S_)%nat by lia. apply Nat.min_l. lia.
    + assert (num c 0 <= 2)%nat by (unfold num; lia). nia.
Qed.

Hypothesis Hexact : shape_b -> nth (c - 1) lens0 0%nat = (1 + (m - 63 * 2 ^ f))%nat.

Lemma shape_b_c : shape_b -> exists q, (2 ^ f = 4 ^ k * q)%nat /\ c = (q + 1)%nat /\ (2 * k <= f)%nat /\ q = (2 ^ (f - 2 * k))%nat.
Proof.
  intros (HPb & He). assert (P4 := pow4_pos k).
  assert (L : (2 ^ (2 * k) < 2 ^ S f)%nat).
  { rewrite <- pow4_2. cbn [Nat.pow]. assert (4 ^ k < P)%nat by nia. assert (1 <= 2 ^ f)%nat by (apply pow2_pos). lia. }
  apply pow2_lt_inv in L. assert (E := pow2_split f (2 * k) ltac:(lia)). rewrite <- pow4_2 in E.
  exists (2 ^ (f - 2 * k))%nat. split; auto. split; [|split; [lia|auto]].
  rewrite HPb, E in Hck. set (q := (2 ^ (f - 2 * k))%nat) in *. nia.
Qed.

Lemma pow2_4 n : (2 <= n)%nat -> (2 ^ n = 4 * 2 ^ (n - 2))%nat.
Proof. intros. assert (E := pow2_split n 2 H). exact E. Qed.

Lemma fits_b : shape_b -> forall i, (i < c')%nat -> group_fits ks D C k c lens0 i.
Proof.
  intros HB i Hi. assert (P4 := pow4_pos k). assert (B := c'_bound i Hi).
  destruct (shape_b_c HB) as (q & E & Ec & Hk & Eq). pose proof HB as (HPb & He).
  assert (EC : C = D) by (rewrite He; cbn [Nat.pow]; lia). unfold group_fits. rewrite EC.
  assert (ED : D = (q * S_)%nat) by (unfold slotsz; rewrite E; lia).
  assert (Q := Hdeg i Hi). assert (G := gsz_lt k).
  destruct (Nat.le_gt_cases 2 (f - 2 * k)) as [L2|L2].
  - assert (E4 := pow2_4 _ L2). rewrite <- Eq in E4. set (q' := (2 ^ (f - 2 * k - 2))%nat) in *.
    split; [rewrite ED; nia|]. intros H1.
    assert (Iq : (i < q')%nat) by (unfold num in H1; lia).
    exists (8 + 2 * k)%nat. split; [lia|].
    assert (S4 : (2 ^ (8 + 2 * k) = 4 * S_)%nat) by (rewrite Nat.pow_add_r, <- pow4_2; unfold slotsz; simpl (2 ^ 8)%nat; lia).
    rewrite S4. split.
    + rewrite ED.
      replace (Nat.min ((i * 4 + 4) * S_) (q * S_)) with ((i * 4 + 4) * S_)%nat by (symmetry; apply Nat.min_l; nia).
      replace ((i * 4 + 4) * S_ - i * 4 * S_)%nat with (4 * S_)%nat by nia.
      apply Nat.min_l. nia.
    + assert (num c i <= 4)%nat by (unfold num; lia). nia.
  - assert (q = 1 \/ q = 2)%nat as Hq.
    { assert (f - 2 * k = 0 \/ f - 2 * k = 1)%nat as [Z|Z] by lia; rewrite Z in Eq; simpl in Eq; auto. }
    assert (i = 0)%nat as -> by lia. split; [lia|]. intros H1.
    exists (f + 6)%nat. split; [lia|].
    assert (E64 : (2 ^ (f + 6) = D)%nat) by (rewrite Nat.pow_add_r; simpl (2 ^ 6)%nat; lia).
    rewrite E64. split.
    + replace ((0 * 4 + 4) * S_)%nat with (4 * S_)%nat by lia. replace (0 * 4 * S_)%nat with 0%nat by lia. rewrite Nat.sub_0_r, ED. rewrite (Nat.min_r (4 * S_)) by nia. apply Nat.min_id.
    + assert (X := Hexact HB). unfold newdeg, num. cbn [Nat.mul]. rewrite Nat.sub_0_r.
      replace (Nat.min 4 c) with c by lia.
      assert (M : (63 * 2 ^ f < m)%nat) by lia.
      destruct Hq as [-> | ->]; subst c; cbn [Nat.add seq fold_right] in *.
      * rewrite (Hfull 0) by lia. cbn [Nat.sub] in X. rewrite X. unfold gsz. lia.
      * rewrite (Hfull 0), (Hfull 1) by lia. cbn [Nat.sub] in X. rewrite X. unfold gsz. lia.
Qed.

Lemma exact_next : shape_b -> (1 < c')%nat -> newlen c lens0 (c' - 1) = (1 + (m - 63 * 2 ^ f))%nat.
Proof.
  intros HB Hc'. destruct (shape_b_c HB) as (q & E & Ec & Hk & Eq).
  assert (L2 : (2 <= f - 2 * k)%nat).
  { destruct (Nat.le_gt_cases 2 (f - 2 * k)); auto.
    assert (f - 2 * k = 0 \/ f - 2 * k = 1)%nat as [Z|Z] by lia; rewrite Z in Eq; simpl in Eq; subst; simpl in Hc'; lia. }
  assert (E4 := pow2_4 _ L2). rewrite <- Eq in E4. set (q' := (2 ^ (f - 2 * k - 2))%nat) in *.
  assert (D4 : ((c - 1) / 4 = q')%nat).
  { rewrite Ec, E4. replace (4 * q' + 1 - 1)%nat with (q' * 4)%nat by lia. apply Nat.div_mul. lia. }
  rewrite D4. replace (1 + q' - 1)%nat with q' by lia.
  unfold newlen. assert (N1 : num c q' = 1%nat) by (unfold num; lia). rewrite N1. cbn [Nat.ltb Nat.leb].
  rewrite <- (Hexact HB). f_equal. lia.
Qed.
End Fits.

Definition LI (k : nat) (st : nat * (list K * list nat * list nat)) : Prop :=
  let '(c, (work, lens, offs)) := st in
  (1 <= c <= P)%nat /\ ((c - 1) * 4 ^ k < P <= c * 4 ^ k)%nat /\
  length work = W /\ length lens = P /\ length offs = P /\
  (forall t x, (t < c)%nat -> (x < slotsz k)%nat -> nth (t * slotsz k + x) work 0 = coef (vanish_poly (grp rs k t)) x) /\
  (forall x, (c * slotsz k <= x)%nat -> nth x work 0 = 0) /\
  (forall t, (t + 1 < c)%nat -> nth t lens 0%nat = (gsz k + 1)%nat) /\
  (length (grp rs k (c - 1)) + 1 <= nth (c - 1) lens 0 <= gsz k + 1)%nat /\
  ((1 < c)%nat -> shape_b -> nth (c - 1) lens 0%nat = (1 + (m - 63 * 2 ^ f))%nat).

Lemma level_spec k st : shape_a \/ shape_b -> (1 < fst st)%nat -> LI k st ->
  exists st', zp_level s D C st = Ok st' /\ LI (S k) st' /\ fst st' = (1 + (fst st - 1) / 4)%nat.
Proof.
  intros Hsh Hc. destruct st as [c [[work lens] offs]]. cbn [fst] in *.
  intros (C1 & C2 & Lw & Ll & Lo & Hsl & Hz & Hf & Hla & Hex).
  assert (P4 := pow4_pos k).
  assert (HPe : (P <= 2 ^ e)%nat).
  { destruct Hsh as [(_ & H)|(H1 & H2)]; auto. rewrite H1, H2. cbn [Nat.pow]. assert (1 <= 2 ^ f)%nat by apply pow2_pos. lia. }
  assert (SF : (c * slotsz k <= W)%nat) by (apply slots_fit; auto).
  assert (Hmk : (m <= gsz k * c)%nat) by (unfold gsz; nia).
  assert (Hdeg : forall i, (i < 1 + (c - 1) / 4)%nat -> (newdeg c lens i <= num c i * gsz k)%nat).
  { intros i Hi. apply (newdeg_le rs s ks w HS W P k c (conj Hc (proj2 C1)) SF Hmk work lens Ll Hsl Hz Hf Hla i Hi). }
  assert (Fits : forall i, (i < 1 + (c - 1) / 4)%nat -> group_fits ks D C k c lens i).
  { destruct Hsh as [A|B]; intros i Hi; [apply fits_a|apply fits_b]; auto. }
  unfold zp_level. rewrite (idx_ok lens 0 0%nat) by lia. cbn [bind]. rewrite Hf by lia.
  assert (NP : next_pow2 (gsz k + 1) = Ok (slotsz k)).
  { replace (slotsz k) with (2 ^ S (5 + 2 * k))%nat by (replace (S (5 + 2 * k)) with (6 + 2 * k)%nat by lia; rewrite Nat.pow_add_r, <- pow4_2; unfold slotsz; simpl (2 ^ 6)%nat; lia).
    apply next_pow2_between.
    - assert (HB : (gsz k + 1 <= 2 ^ 40)%nat -> (N.of_nat (gsz k + 1) <= 2 ^ 63)%N).
      { intros H. transitivity (2 ^ 40)%N; [|apply N.pow_le_mono_r; lia].
        replace (2 ^ 40)%N with (N.of_nat (2 ^ 40)) by (rewrite Nat2N.inj_pow; reflexivity). lia. }
      apply HB. assert (G := gsz_lt k). assert (slotsz k <= W)%nat by nia.
      assert (He : (e <= S f)%nat) by (destruct Hsh as [(H1 & H2)|(H1 & H2)]; lia).
      assert (W <= 2 ^ (6 + e))%nat by (rewrite Nat.pow_add_r; simpl (2 ^ 6)%nat; lia).
      assert (2 ^ (6 + e) <= 2 ^ 40)%nat by (apply Nat.pow_le_mono_r; lia). lia.
    - replace (S (5 + 2 * k)) with (6 + 2 * k)%nat by lia. rewrite !Nat.pow_add_r, <- pow4_2. unfold gsz.
      change (2 ^ 5)%nat with 32%nat. change (2 ^ 6)%nat with 64%nat. lia. }
  rewrite NP. cbn [bind].
  destruct (groups_spec rs s ks w HS D C W P k c (conj Hc (proj2 C1)) SF Hmk work lens Ll Hsl Hz Hf Hla offs Lw Lo Fits)
    as ([[work' lens'] offs'] & E & Lw' & Ll' & Lo' & M1 & M2 & M3 & M4).
  rewrite E. cbn [bind]. eexists. split; [reflexivity|]. cbn [fst]. split; [|reflexivity].
  set (c' := (1 + (c - 1) / 4)%nat) in *.
  assert (Dm := Nat.div_mod (c - 1) 4 ltac:(lia)). assert (Mb := Nat.mod_upper_bound (c - 1) 4 ltac:(lia)).
  set (q := ((c - 1) / 4)%nat) in *.
  assert (NB := num_bounds rs s ks w HS W P k c (conj Hc (proj2 C1)) SF Hmk work lens Ll Hsl Hz Hf Hla).
  assert (Hi' : (c' - 1 < c')%nat) by (unfold c'; lia).
  split; [unfold c'; lia|]. split; [cbn [Nat.pow]; unfold c'; nia|]. split; [auto|]. split; [auto|]. split; [auto|].
  split; [|split; [|split; [|split]]].
  - rewrite slotsz_S. exact M2.
  - intros x Hx. rewrite slotsz_S in Hx. rewrite M1 by nia. apply Hz. assert (c <= c' * 4)%nat by (unfold c'; lia). nia.
  - intros t Ht. rewrite M4 by lia. unfold newlen, newdeg.
    assert (N4 : num c t = 4%nat) by (unfold num, c' in *; lia). rewrite N4. cbn [Nat.ltb Nat.leb seq fold_right].
    rewrite !Hf by (unfold c' in *; lia). rewrite gsz_S. lia.
  - rewrite M4 by auto.
    assert (GE := newdeg_ge rs s ks w HS W P k c (conj Hc (proj2 C1)) SF Hmk work lens Ll Hsl Hz Hf Hla (c' - 1) Hi').
    assert (LE := Hdeg _ Hi'). destruct (NB _ Hi') as (N1 & N2 & N3). rewrite gsz_S.
    unfold newlen. destruct (Nat.ltb_spec 1 (num c (c' - 1))).
    + nia.
    + assert (num c (c' - 1) = 1)%nat as O by lia.
      unfold newdeg in GE, LE. rewrite O in GE, LE. cbn [seq fold_right] in GE, LE.
      assert (c' - 1 = q)%nat as Eq by (unfold c'; lia). rewrite Eq in *.
      assert (q * 4 = c - 1)%nat as E4 by lia. rewrite E4.
      assert (EG : grp rs (S k) q = grp rs k (c - 1)).
      { rewrite <- (grp_S rs k q 1); [|lia|right; replace (4 * q + 1)%nat with c by lia; exact Hmk].
        cbn [seq map concat]. rewrite app_nil_r. f_equal. lia. }
      rewrite EG. lia.
  - intros Hc' HB. rewrite M4 by auto. apply (exact_next k c lens); auto.
Qed.

Lemma tree_loop fuel : shape_a \/ shape_b -> forall k st, LI k st -> (fst st < fuel)%nat ->
  exists k' work lens offs, while_ fuel (fun st => (1 <? fst st)%nat) (zp_level s D C) st = Ok (1%nat, (work, lens, offs))
    /\ LI k' (1%nat, (work, lens, offs)).
Proof.
  intros Hsh. induction fuel as [|fuel IH]; intros k st I Hf; [lia|]. cbn [while_].
  destruct (Nat.ltb_spec 1 (fst st)) as [C1|C1].
  - destruct (level_spec k st Hsh C1 I) as (st' & E & I' & Ec). rewrite E. cbn [bind].
    apply (IH (S k)); auto. rewrite Ec.
    assert ((fst st - 1) / 4 < fst st - 1)%nat by (apply Nat.div_lt; lia). lia.
  - destruct st as [c [[work lens] offs]]. cbn [fst] in *. assert (c = 1)%nat as -> by (destruct I; lia).
    exists k, work, lens, offs. auto.
Qed.

(** ** building the partial polynomials *)
Lemma zp_partials_spec (missing : list nat) stride :
  length missing = m ->
  (forall i, (i < m)%nat -> idx (expanded_roots s) (nth i missing 0%nat * stride) = Ok (nth i rs 0)) ->
  (P * 64 <= W)%nat ->
  exists work offs, zp_partials s missing stride P (repeat 0 W) = Ok (work, repeat 64%nat P, offs) /\
    length work = W /\ length offs = P /\
    (forall t x, (t < P)%nat -> (x < 64)%nat -> nth (t * 64 + x) work 0 = coef (vanish_poly (grp rs 0 t)) x) /\
    (forall x, (P * 64 <= x)%nat -> nth x work 0 = 0).
Proof.
  intros Hml Hid HPW. unfold zp_partials. set (bd := fun (_ : nat) _ => _).
  destruct (for_range_inv (fun t (st : list K * list nat * list nat * nat * nat) =>
      let '(work, lens, offs, mo, wo) := st in
      length work = W /\ lens = repeat 64%nat t /\ length offs = t /\ mo = (t * 63)%nat /\ wo = (t * 64)%nat /\
      (forall t' x, (t' < t)%nat -> (x < 64)%nat -> nth (t' * 64 + x) work 0 = coef (vanish_poly (grp rs 0 t')) x) /\
      (forall x, (t * 64 <= x)%nat -> nth x work 0 = 0))
    bd 0 P (repeat 0 W, [], [], 0%nat, 0%nat)) as ([[[[work lens] offs] mo] wo] & E & H).
  - lia.
  - rewrite repeat_length. repeat split; auto; try lia. intros. apply nth_repeat_same.
  - intros t [[[[work lens] offs] mo] wo] Ht (L1 & -> & L3 & -> & -> & Hs & Hz). unfold bd.
    set (en := Nat.min (t * 63 + 63) (length missing)).
    assert (He : (t * 63 < en <= m)%nat) by (unfold en; rewrite Hml; lia).
    rewrite slice_ok by lia. cbn [bind].
    set (sl := firstn (en - t * 63) (skipn (t * 63) missing)).
    assert (Lsl : length sl = (en - t * 63)%nat) by (unfold sl; rewrite firstn_length, skipn_length; lia).
    assert (Lg : length (grp rs 0 t) = (en - t * 63)%nat).
    { rewrite grp_length. unfold gsz. simpl (4 ^ 0)%nat. unfold en. rewrite Hml. lia. }
    destruct (do_zero_spec s (grp rs 0 t) sl stride) as (p & Ep & Lp & Cp).
    + intros Q. rewrite Q in Lsl. simpl in Lsl. lia.
    + lia.
    + intros i Hi. unfold sl, grp. rewrite nth_firstn' by lia. rewrite nth_skipn'.
      rewrite nth_firstn' by (unfold gsz; simpl (4 ^ 0)%nat; unfold en in *; lia). rewrite nth_skipn'. unfold gsz. simpl (4 ^ 0)%nat.
      replace (63 * 1 * t + i)%nat with (t * 63 + i)%nat by lia. apply Hid. lia.
    + rewrite Ep. cbn [bind]. rewrite pad_poly_coef by (rewrite Lp, Lsl; unfold en; lia). cbn [bind].
      set (pd := map (coef p) (seq 0 64)). assert (Lpd : length pd = 64%nat) by apply length_map_seq.
      assert (Hsp : (t * 64 + length pd <= length work)%nat) by lia.
      replace (t * 64 + 64)%nat with (t * 64 + length pd)%nat at 1 by lia.
      rewrite splice_ok by lia. cbn [bind].
      eexists. split; [reflexivity|]. cbn beta iota. split; [now rewrite splice_length|].
      split; [rewrite <- repeat_cons; reflexivity|]. split; [rewrite app_length; simpl; lia|]. split; [lia|]. split; [lia|]. split.
      * intros t' x Ht' Hx. rewrite splice_nth by auto. rewrite Lpd.
        destruct (Nat.eq_dec t' t) as [->|Nt].
        -- destruct (Nat.leb_spec (t * 64) (t * 64 + x)); [|lia]. destruct (Nat.ltb_spec (t * 64 + x) (t * 64 + 64)); [|lia]. cbn [andb].
           replace (t * 64 + x - t * 64)%nat with x by lia. unfold pd. rewrite nth_map_seq by auto. apply Cp.
        -- destruct (Nat.leb_spec (t * 64) (t' * 64 + x)); [lia|]. cbn [andb]. apply Hs; lia.
      * intros x Hx. rewrite splice_nth by auto. rewrite Lpd. destruct (Nat.ltb_spec x (t * 64 + 64)); [lia|].
        rewrite andb_false_r. apply Hz. lia.
  - destruct H as (L1 & -> & L3 & -> & -> & Hs & Hz). exists work, offs. split; [|auto].
    match goal with |- bind ?x _ = _ => replace x with (Ok (work, repeat 64%nat P, offs, (P * 63)%nat, (P * 64)%nat)) by (symmetry; exact E) end.
    reflexivity.
Qed.

Lemma zp_tree_spec (missing : list nat) stride :
  shape_a /\ (2 ^ (e - 1) < P \/ e = 0)%nat \/ shape_b -> length missing = m -> (1 < P)%nat ->
  (forall i, (i < m)%nat -> idx (expanded_roots s) (nth i missing 0%nat * stride) = Ok (nth i rs 0)) ->
  next_pow2 (P * 64) = Ok W ->
  exists work, zp_tree s D C P stride missing = Ok work /\ length work = W /\
    forall x, coef work x = coef (vanish_poly rs) x.
Proof.
  intros Hsh0 Hml HP1 Hid HNP. assert (Hsh : shape_a \/ shape_b) by tauto.
  assert (HPe : (P <= 2 ^ e)%nat).
  { destruct Hsh as [(_ & H)|(H1 & H2)]; auto. rewrite H1, H2. cbn [Nat.pow]. assert (1 <= 2 ^ f)%nat by apply pow2_pos. lia. }
  unfold zp_tree. rewrite HNP. cbn [bind].
  destruct (zp_partials_spec missing stride) as (work & offs & E & Lw & Lo & Hs & Hz); auto; [lia|].
  rewrite E. cbn [bind]. rewrite usub_ok by lia. cbn [bind]. rewrite usub_ok by lia. cbn [bind].
  rewrite upd_ok by (rewrite repeat_length; lia). cbn [bind]. rewrite Hml.
  destruct (tree_loop (S P) Hsh 0 (P, (work, set (repeat 64%nat P) (P - 1) (1 + m - (P - 1) * 63)%nat, offs)))
    as (k' & work' & lens' & offs' & EW & I).
  - split; [lia|]. split; [simpl (4 ^ 0)%nat; lia|]. split; [auto|]. split; [now rewrite set_length, repeat_length|]. split; [auto|].
    split; [exact Hs|]. split; [exact Hz|]. split; [|split].
    + intros t Ht. rewrite nth_set_other by (rewrite ?repeat_length; lia). rewrite nth_repeat' by lia. reflexivity.
    + rewrite nth_set_same by (rewrite repeat_length; lia). rewrite grp_length. unfold gsz. simpl (4 ^ 0)%nat. lia.
    + intros _ (HPb & _). rewrite nth_set_same by (rewrite repeat_length; lia). rewrite HPb. lia.
  - cbn [fst]. lia.
  - rewrite EW. cbn [bind]. exists work'. split; auto.
    destruct I as (_ & C2 & Lw' & _ & _ & Hs' & Hz' & _). split; auto. intros x.
    assert (G := gsz_lt k').
    assert (Hmk : (m <= gsz k')%nat) by (unfold gsz; lia).
    assert (EG : grp rs k' 0 = rs) by (unfold grp; rewrite Nat.mul_0_r; cbn [skipn]; apply firstn_all2; auto).
    unfold coef at 1. destruct (Nat.lt_ge_cases x (slotsz k')) as [L|L].
    + specialize (Hs' 0%nat x ltac:(lia) L). rewrite EG in Hs'. exact Hs'.
    + rewrite Hz' by lia. symmetry. apply coef_over. rewrite vanish_poly_length. lia.
Qed.
End Z3.

Section Main.
Context {K : fld}.
Local Open Scope fld_scope.

Lemma pow2_ge_64 d x : (63 < x)%nat -> (x < 2 ^ d)%nat -> (6 <= d)%nat.
Proof.
  intros H1 H2. destruct (Nat.le_gt_cases 6 d); auto.
  assert (2 ^ d <= 2 ^ 5)%nat by (apply Nat.pow_le_mono_r; lia). simpl (2 ^ 5)%nat in *. lia.
Qed.

Theorem zero_poly_spec (s : fft_settings K) ks (w : K) dm (missing : list nat) :
  settings_ok s ks w -> (ks < 32)%nat -> (dm <= ks)%nat ->
  (0 < length missing)%nat -> (length missing < 2 ^ dm)%nat ->
  (length missing <= 63 * (2 ^ dm / 64 + 1))%nat ->
  Forall (fun i => (i < 2 ^ dm)%nat) missing ->
  let wd := w ^ (2 ^ (ks - dm)) in
  let rs := map (fpow wd) missing in
  zero_poly_via_multiplication s (2 ^ dm) missing =
  Ok (map (fun i => vanish rs (wd ^ i)) (seq 0 (2 ^ dm)), map (coef (vanish_poly rs)) (seq 0 (2 ^ dm))).
Proof.
  intros HS Hks Hdm H0 H1 H2 HF wd rs.
  pose proof HS as (MW & _ & _ & EXP & _).
  assert (Lrs : length rs = length missing) by apply map_length.
  unfold zero_poly_via_multiplication.
  destruct (Nat.eqb_spec (length missing) 0); [lia|].
  destruct (Nat.leb_spec (2 ^ dm) (length missing)); [lia|].
  assert (Pd : (2 ^ dm <= 2 ^ ks)%nat) by (apply Nat.pow_le_mono_r; lia).
  rewrite MW. destruct (Nat.ltb_spec (2 ^ ks) (2 ^ dm)); [lia|]. rewrite is_pow2_pow. cbn [negb].
  assert (Str : (2 ^ ks / 2 ^ dm = 2 ^ (ks - dm))%nat) by (apply pow2_div; auto). rewrite Str.
  set (P := (1 + (length missing - 1) / 63)%nat).
  assert (Dm := Nat.div_mod (length missing - 1) 63 ltac:(lia)).
  assert (Mb := Nat.mod_upper_bound (length missing - 1) 63 ltac:(lia)).
  assert (HP : (63 * (P - 1) < length rs <= 63 * P)%nat) by (unfold P; lia).
  assert (Hid : forall i, (i < length rs)%nat -> idx (expanded_roots s) (nth i missing 0%nat * 2 ^ (ks - dm)) = Ok (nth i rs 0)).
  { intros i Hi. assert (Hn : (nth i missing 0 < 2 ^ dm)%nat).
    { rewrite Forall_forall in HF. apply HF. apply nth_In. lia. }
    assert (Es := pow2_split ks dm Hdm).
    assert (Ps := pow2_pos (ks - dm)).
    rewrite EXP. rewrite (idx_ok _ _ 0) by (rewrite length_map_seq; nia). rewrite nth_map_seq by nia.
    f_equal. unfold rs. rewrite (nth_indep _ 0 (wd ^ 0)) by (rewrite map_length; lia). rewrite map_nth.
    unfold wd. rewrite <- fpow_mul. f_equal. lia. }
  assert (HB63 : (N.of_nat (P * 64) <= 2 ^ 63)%N).
  { assert (P * 64 <= 2 ^ (ks + 7))%nat.
    { rewrite Nat.pow_add_r. simpl (2 ^ 7)%nat. lia. }
    assert (2 ^ (ks + 7) <= 2 ^ 40)%nat by (apply Nat.pow_le_mono_r; lia).
    transitivity (2 ^ 40)%N; [|apply N.pow_le_mono_r; lia].
    replace (2 ^ 40)%N with (N.of_nat (2 ^ 40)) by (rewrite Nat2N.inj_pow; reflexivity). lia. }
  assert (Core : exists next_pow zp, next_pow2 (P * 64) = Ok next_pow /\
     (if (length missing <=? 63)%nat then do_zero_poly_mul_partial s missing (2 ^ (ks - dm))
      else zp_tree s (2 ^ dm) (Nat.min next_pow (2 ^ dm)) P (2 ^ (ks - dm)) missing) = Ok zp /\
     forall x, coef zp x = coef (vanish_poly rs) x).
  { destruct (next_pow2_spec (P * 64)) as (e0 & EN & L0 & M0); [unfold P; lia|auto|].
    exists (2 ^ e0)%nat.
    destruct (Nat.leb_spec (length missing) 63) as [C|C].
    - destruct (do_zero_spec s rs missing (2 ^ (ks - dm))) as (p & Ep & Lp & Cp); auto.
      { intros ->. simpl in H0. lia. }
      { intros i Hi. apply Hid. lia. }
      exists p. auto.
    - assert (D6 := pow2_ge_64 dm _ C H1). set (f := (dm - 6)%nat).
      assert (ED : (2 ^ dm = 64 * 2 ^ f)%nat) by (unfold f; rewrite (pow2_split dm 6 D6); reflexivity).
      assert (E6 : (6 <= e0)%nat).
      { destruct (Nat.le_gt_cases 6 e0); auto. assert (2 ^ e0 <= 2 ^ 5)%nat by (apply Nat.pow_le_mono_r; lia). simpl (2 ^ 5)%nat in *. unfold P in *; lia. }
      set (e := (e0 - 6)%nat). assert (EW : (2 ^ e0 = 64 * 2 ^ e)%nat) by (unfold e; rewrite (pow2_split e0 6 E6); reflexivity).
      assert (Dv : (2 ^ dm / 64 = 2 ^ f)%nat) by (rewrite ED, Nat.mul_comm; apply Nat.div_mul; lia).
      assert (HPf : (P <= 2 ^ f + 1)%nat) by (rewrite Dv in H2; unfold P; nia).
      assert (P2 : (1 < P)%nat) by (unfold P; lia).
      assert (Me : forall j, (P <= 2 ^ j)%nat -> (e <= j)%nat).
      { intros j Hj. assert (e0 <= j + 6)%nat; [|unfold e; lia]. apply M0. rewrite Nat.pow_add_r. simpl (2 ^ 6)%nat. lia. }
      assert (Sh : shape_a f P e /\ (2 ^ (e - 1) < P \/ e = 0)%nat \/ shape_b f P e).
      { destruct (Nat.le_gt_cases P (2 ^ f)) as [L|L].
        - left. split; [split; [auto|lia]|]. destruct (Nat.eq_dec e 0); auto. left.
          destruct (Nat.lt_ge_cases (2 ^ (e - 1)) P) as [|Q]; auto. apply Me in Q. lia.
        - right. split; [lia|]. assert (e <= S f)%nat.
          { apply Me. cbn [Nat.pow]. assert (Pf := pow2_pos f). lia. }
          assert (f < e)%nat; [|lia]. apply (pow2_lt_inv f e). lia. }
      destruct (zp_tree_spec rs s ks w HS Hks f P ltac:(unfold f; lia) ltac:(lia) HP e missing (2 ^ (ks - dm)) Sh (eq_sym Lrs) P2 Hid)
        as (work & ET & LW & CW).
      { now rewrite EN, EW. }
      exists work. split; [exact EN|]. split; [rewrite EW, ED; exact ET|exact CW]. }
  destruct Core as (np & zp & -> & Ezp & Czp). cbn [bind]. rewrite Ezp. cbn [bind].
  assert (Adj : match Nat.compare (length zp) (2 ^ dm) with
      | Lt => pad_poly zp (2 ^ dm)
      | Eq => Ok zp
      | Gt => slice zp 0 (2 ^ dm)
      end = Ok (map (coef (vanish_poly rs)) (seq 0 (2 ^ dm)))).
  { destruct (Nat.compare_spec (length zp) (2 ^ dm)) as [E|E|E].
    - f_equal. apply coef_ext; [now rewrite length_map_seq|]. intros i Hi. rewrite coef_map_seq.
      apply Nat.ltb_lt in Hi as Hi'. rewrite <- E, Hi'. apply Czp.
    - rewrite pad_poly_coef by lia. f_equal. apply map_ext. auto.
    - rewrite slice_ok by lia. f_equal. rewrite Nat.sub_0_r. cbn [skipn]. apply (nth_ext' (0:K)).
      + rewrite firstn_length, length_map_seq. lia.
      + intros i Hi. rewrite firstn_length in Hi. rewrite nth_firstn', nth_map_seq by lia. apply Czp. }
  rewrite Adj. cbn [bind].
  rewrite (fft_fr_spec s ks w dm) by (auto; apply length_map_seq). cbn [bind]. f_equal. f_equal.
  apply map_ext_seq. intros i Hi. fold wd. rewrite <- vanish_poly_eval. apply peval_ext. intros j. rewrite coef_map_seq.
  destruct (Nat.ltb_spec j (2 ^ dm)); auto. symmetry. apply coef_over. rewrite vanish_poly_length. lia.
Qed.

Theorem zero_poly_empty (s : fft_settings K) d : zero_poly_via_multiplication s d [] = Ok ([], []).
Proof. reflexivity. Qed.

Theorem zero_poly_errors (s : fft_settings K) d missing : missing <> [] ->
  (d <= length missing \/ max_width s < d \/ forall k, d <> 2 ^ k)%nat ->
  zero_poly_via_multiplication s d missing = Err.
Proof.
  intros Hn H. unfold zero_poly_via_multiplication.
  destruct (Nat.eqb_spec (length missing) 0); [destruct missing; [congruence|discriminate]|].
  destruct (Nat.leb_spec d (length missing)); auto.
  destruct (Nat.ltb_spec (max_width s) d); auto.
  destruct (is_pow2 d) eqn:E; auto. apply is_pow2_spec in E as (k & ->).
  destruct H as [H|[H|H]]; [lia|lia|]. exfalso. now apply (H k).
Qed.
End Main.
