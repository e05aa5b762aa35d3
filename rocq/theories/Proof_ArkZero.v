(** * Proof_ArkZero: vanishing polynomials and recovery of the Arkworks backend *)
From Coq Require Import List Arith Lia Bool NArith Field Ring.
From Verif Require Import Base Fld Poly Loops Model_Utils Proof_Utils Model_FFT Spec Proof_FFT Model_Poly Proof_Poly1
  Model_ZeroPoly Proof_Zero1 Proof_Zero2 Proof_Zero3 Proof_Zero4 Model_Recovery Proof_Recovery
  Proof_Mcl Proof_MclFr Proof_MclPoly Proof_MclZero Model_Zk Model_ZkZero Proof_Zk Proof_ZkZero Model_Ark Model_ArkZero Proof_Ark.
Import ListNotations.

(** ** results that carry over along a projection of the state *)
Definition proj {A B} (f : A -> B) (a : res A) (b : res B) : Prop := forall x, a = Ok x -> b = Ok (f x).

Lemma proj_bind {A A' B B'} (f : A -> A') (g : B -> B') a a' (k : A -> res B) (k' : A' -> res B') :
  proj f a a' -> (forall x, a = Ok x -> proj g (k x) (k' (f x))) -> proj g (bind a k) (bind a' k').
Proof. intros H1 H2 y E. apply bind_inv in E as (x & E1 & E2). rewrite (H1 x E1). cbn [bind]. now apply (H2 x). Qed.
Lemma proj_id {A} (a b : res A) : carries a b -> proj (fun x => x) a b.
Proof. intros H x E. now apply H. Qed.
Lemma proj_for {S S'} (f : S -> S') (body : nat -> S -> res S) (body' : nat -> S' -> res S') n : forall i s,
  (forall j t, proj f (body j t) (body' j (f t))) -> proj f (for_ n i body s) (for_ n i body' (f s)).
Proof.
  induction n; intros i s H; cbn [for_]; [now intros x [= <-]|]. apply (proj_bind f); auto.
Qed.
Lemma proj_for_range {S S'} (f : S -> S') (body : nat -> S -> res S) (body' : nat -> S' -> res S') a b s :
  (forall j t, proj f (body j t) (body' j (f t))) -> proj f (for_range a b body s) (for_range a b body' (f s)).
Proof. intros. now apply proj_for. Qed.

Section Z.
Context {K : fld}.
Add Field Kfaz : (fld_field K).
Local Open Scope fld_scope.
Variable W : K.
Variable table : list K.
Hypothesis HT : table_ok table.
Hypothesis HT32 : length table = 32%nat.
Hypothesis HD : forall m, (m < 32)%nat -> dom_gen W m = nth m table 0.
Hypothesis HC : forall k m, (m <= k)%nat -> (k < 32)%nat -> nth k table 0 ^ (2 ^ (k - m)) = nth m table 0.
Hypothesis H2 : fnat 2 <> (0:K).
Let good (s : fft_settings K) (k : nat) : Prop := settings_ok s k (nth k table 0) /\ (k < 32)%nat.

Lemma fft_eq s k (data : list K) inverse : good s k -> ark_fft_fr W s data inverse = fft_fr s data inverse.
Proof. clear HT H2. intros G. now apply (ark_fft_fr_eq W table HT32 HD HC s k). Qed.

(** ** one partial *)
Lemma ark_zero_step_eq s idxs stride i (p : list K) : (1 <= i)%nat ->
  ark_zero_step s idxs stride i p = zero_step s idxs stride i p.
Proof.
  intros Hi. unfold ark_zero_step, zero_step. destruct (idx idxs i); cbn [bind]; auto.
  destruct (idx (expanded_roots s) _) as [w| | |]; cbn [bind]; auto.
  destruct (Nat.lt_ge_cases i (length p)) as [L|L].
  - rewrite (idx_ok p (i - 1) 0) by lia. cbn [bind]. rewrite !upd_ok by lia. cbn [bind].
    rewrite (idx_ok _ i 0) by (rewrite set_length; lia). cbn [bind]. rewrite nth_set_same by lia.
    rewrite (idx_ok _ (i - 1) 0) by (rewrite set_length; lia). cbn [bind]. rewrite nth_set_other by lia.
    rewrite upd_ok by (rewrite set_length; lia). cbn [bind].
    replace (set (set p i (- w)) i (- w + nth (i - 1) p 0)) with (set p i (- w + nth (i - 1) p 0)); [reflexivity|].
    apply (nth_ext' (0:K)); [now rewrite !set_length|]. rewrite set_length. intros j Hj.
    rewrite !nth_set by (rewrite ?set_length; lia). now destruct (j =? i)%nat.
  - rewrite (upd_panic p i (- w)) by lia. cbn [bind]. destruct (Nat.lt_ge_cases (i - 1) (length p)) as [L1|L1].
    + rewrite (idx_ok p (i - 1) 0) by lia. cbn [bind]. now rewrite upd_panic by lia.
    + now rewrite idx_panic by lia.
Qed.

Lemma dense_ones n : dense (repeat (1:K) n) = repeat 1 n.
Proof.
  induction n; [reflexivity|]. cbn [repeat dense]. rewrite IHn. destruct n; cbn [repeat]; auto.
  assert (E : feqb (1:K) 0 = false) by (apply feqb_false, f1_neq_0). now rewrite E.
Qed.

Theorem ark_zero_partial_eq s idxs stride : ark_zero_partial (K := K) s idxs stride = do_zero_poly_mul_partial s idxs stride.
Proof.
  unfold ark_zero_partial, do_zero_poly_mul_partial. destruct (_ =? _)%nat; auto. rewrite dense_ones.
  destruct (idx idxs 0); cbn [bind]; auto. destruct (idx (expanded_roots s) _); cbn [bind]; auto.
  destruct (upd _ _ _); cbn [bind]; auto. unfold for_range. apply for_ext. intros. apply ark_zero_step_eq. lia.
Qed.

Lemma ark_pad_carries (p : list K) n : carries (pad_poly p n) (ark_pad p n).
Proof.
  intros x E. rewrite ark_pad_spec. destruct (Nat.le_gt_cases (length p) n) as [C|C].
  - rewrite pad_poly_coef in E by auto. rewrite pad_map by auto. exact E.
  - unfold pad_poly in E. destruct (Nat.ltb_spec n (length p)); [discriminate|lia].
Qed.

Section S.
Variables (s : fft_settings K) (k : nat).
Hypothesis HS : good s k.

(** ** products *)
Lemma ark_reduce_carries dom (ps : list (list K)) : carries (reduce_partials s dom ps) (ark_reduce_partials W s dom ps).
Proof.
  unfold reduce_partials, ark_reduce_partials. destruct (negb (is_pow2 dom)) eqn:P; [intros x; discriminate|].
  apply carries_bind; [apply carries_refl|]. intros d _. destruct (dom <? d + 1)%nat; [intros x; discriminate|].
  apply carries_bind; [apply carries_refl|]. intros p0 _. apply carries_bind; [apply carries_unwrap, ark_pad_carries|]. intros pp _.
  rewrite (fft_eq s k) by auto. apply carries_bind; [apply carries_unwrap, carries_refl|]. intros ev _.
  apply carries_bind.
  - apply carries_for_range. intros i t. apply carries_bind; [apply carries_refl|]. intros q _.
    apply carries_bind; [apply ark_pad_carries|]. intros qq _. rewrite (fft_eq s k) by auto.
    apply carries_bind; [apply carries_unwrap, carries_refl|]. intros; apply carries_refl.
  - intros ev' _. rewrite (fft_eq s k) by auto. apply carries_refl.
Qed.

Theorem ark_reduce_spec m (ps : list (list K)) :
  (m <= k)%nat -> ps <> [] -> Forall (fun p => p <> []) ps -> (degsum ps + 1 <= 2 ^ m)%nat ->
  ark_reduce_partials W s (2 ^ m) ps = Ok (map (coef (pprod ps)) (seq 0 (degsum ps + 1))).
Proof. intros. apply ark_reduce_carries. apply (reduce_partials_spec s k (nth k table 0) m); auto. apply HS. Qed.

Theorem ark_reduce_short dom (ps : list (list K)) : Forall (fun p => p <> []) ps ->
  (dom < degsum ps + 1)%nat -> ark_reduce_partials W s dom ps = Err.
Proof.
  intros HF H. unfold ark_reduce_partials. rewrite degree_loop_ok by auto. cbn [bind].
  destruct (Nat.ltb_spec dom (degsum ps + 1)); auto. lia.
Qed.

(** a length that is no power of two, or beyond the settings: the transform is unwrapped *)
Theorem ark_reduce_panics dom (ps : list (list K)) : ps <> [] -> Forall (fun p => p <> []) ps ->
  (degsum ps + 1 <= dom)%nat -> (forall m, dom <> 2 ^ m)%nat \/ (2 ^ k < dom)%nat -> ark_reduce_partials W s dom ps = Panic.
Proof.
  intros Hn HF Hd H. unfold ark_reduce_partials. rewrite degree_loop_ok by auto. cbn [bind].
  destruct (Nat.ltb_spec dom (degsum ps + 1)); [lia|].
  assert (Lp : (0 < length ps)%nat) by (destruct ps; [congruence|simpl; lia]).
  rewrite (idx_ok ps _ []) by lia. cbn [bind]. rewrite ark_pad_spec. cbn [unwrap bind].
  assert (L0 : (length (nth 0 ps []) <= dom)%nat).
  { destruct ps as [|q ps]; [congruence|]. cbn [nth]. inversion HF; subst. cbn [degsum fold_right map] in Hd.
    assert (length q <> 0)%nat by (destruct q; [congruence|discriminate]). unfold degsum in Hd. cbn in Hd. lia. }
  rewrite pad_map by auto. rewrite (fft_eq s k) by auto.
  rewrite (fft_fr_errors s k (nth k table 0)); [reflexivity|apply HS|]. rewrite length_map_seq. tauto.
Qed.

(** ** the tree; the offsets of the other backends are recomputed *)
Definition drop3 {A B C} (x : A * B * C) : A * B := fst x.
Definition drop4 {A B C D} (x : A * (B * C * D)) : A * (B * C) := (fst x, fst (snd x)).

Lemma views_proj (work : list K) lens size i start n offs :
  proj snd (zp_views work lens size i start n offs) (ark_zp_views work lens size i start n).
Proof.
  unfold zp_views, ark_zp_views.
  apply (proj_for_range (@snd (list nat) (list (list K))) _ _ 0 n (offs, [])). intros j (o & pv). cbn [snd].
  destruct (upd o (i + j)%nat ((start + j) * size)%nat) as [o1| | |] eqn:E; cbn [bind]; try (intros ? ?; discriminate).
  assert (Hx : idx o1 (i + j)%nat = Ok ((start + j) * size)%nat).
  { unfold upd in E. destruct (Nat.ltb_spec (i + j)%nat (length o)); [|discriminate]. injection E as <-.
    rewrite (idx_ok _ _ 0%nat) by (rewrite set_length; auto). now rewrite nth_set_same. }
  rewrite Hx. cbn [bind]. apply (proj_bind (fun x => x)); [apply proj_id, carries_refl|]. intros l _.
  apply (proj_bind (fun x => x)); [apply proj_id, carries_refl|]. intros v _. now intros x [= <-].
Qed.

Lemma ark_group_proj D C count size i st :
  proj drop3 (zp_group (K := K) s D C count size i st) (ark_zp_group W s D C count size i (drop3 st)).
Proof.
  destruct st as [[work lens] offs]. unfold zp_group, ark_zp_group, drop3. cbn [fst].
  apply (proj_bind (fun x => x)); [apply proj_id, carries_refl|]. intros d _.
  apply (proj_bind (fun x => x)); [apply proj_id, carries_refl|]. intros rest _.
  destruct (upd offs i (i * 4 * size)%nat) as [offs1| | |] eqn:E1; cbn [bind]; try (intros ? ?; discriminate).
  apply (proj_bind snd); [apply views_proj|]. intros (offs2 & pv) EV. cbn [snd].
  destruct (Nat.ltb_spec 1 (Nat.min 4 rest)) as [H1|H1].
  - apply (proj_bind (fun x => x)); [apply proj_id, ark_reduce_carries|]. intros red _.
    apply (proj_bind (fun x => x)); [apply proj_id, carries_refl|]. intros lens1 _.
    apply (proj_bind (fun x => x)); [apply proj_id, ark_pad_carries|]. intros red1 _.
    assert (Hi : idx offs2 i = Ok (i * 4 * size)%nat).
    { unfold zp_views in EV.
      assert (KP : forall t (st : list nat * list (list K)), for_range 0 t (fun j (st : list nat * list (list K)) =>
          let (offsets, pv) := st in
          let* offsets := upd offsets (i + j)%nat ((i * 4 + j) * size)%nat in
          let* o := idx offsets (i + j)%nat in
          let* l := idx lens (i + j)%nat in
          let* v := slice work o (o + l)%nat in
          Ok (offsets, pv ++ [v])) (offs1, []) = Ok st -> idx (fst st) i = Ok (i * 4 * size)%nat).
      { intros t st Hst.
        apply (for_keep (fun _ (st : list nat * list (list K)) => idx (fst st) i = Ok (i * 4 * size)%nat)) in Hst; auto.
        - unfold upd in E1. destruct (Nat.ltb_spec i (length offs)); [|discriminate]. injection E1 as <-. cbn [fst].
          rewrite (idx_ok _ _ 0%nat) by (rewrite set_length; auto). now rewrite nth_set_same.
        - intros j (o & pv0) st' Hj Hk Hs. cbn [fst] in Hk.
          apply bind_inv in Hs as (o1 & Eo & Hs). apply bind_inv in Hs as (x1 & _ & Hs). apply bind_inv in Hs as (x2 & _ & Hs).
          apply bind_inv in Hs as (x3 & _ & Hs). injection Hs as <-. cbn [fst].
          unfold upd in Eo. destruct (Nat.ltb_spec (i + j) (length o)); [|discriminate]. injection Eo as <-.
          apply (idx_inv _ _ _ 0%nat) in Hk as (Lk & Hk). rewrite (idx_ok _ _ 0%nat) by (rewrite set_length; auto).
          f_equal. rewrite nth_set by auto. destruct (Nat.eqb_spec i (i + j)); auto. f_equal. lia. }
      apply (KP _ _ EV). }
    rewrite Hi. cbn [bind]. apply (proj_bind (fun x => x)); [apply proj_id, carries_refl|]. intros w _. now intros x [= <-].
  - apply (proj_bind (fun x => x)); [apply proj_id, carries_refl|]. intros l _.
    apply (proj_bind (fun x => x)); [apply proj_id, carries_refl|]. intros lens1 _. now intros x [= <-].
Qed.

Lemma ark_level_proj D C st : len0 (Nat.max D 64) (snd st) -> (N.of_nat D <= 2 ^ 63)%N ->
  proj drop4 (zp_level (K := K) s D C st) (ark_zp_level W s D C (drop4 st)).
Proof.
  destruct st as [count [[work lens] offs]]. intros I HDb. unfold zp_level, ark_zp_level, drop4. cbn [fst snd].
  destruct (idx lens 0) as [l0| | |] eqn:E; cbn [bind]; try (intros ? ?; discriminate).
  apply (idx_inv _ _ _ 0%nat) in E as (L & <-).
  cbn [snd len0] in I. specialize (I L). rewrite std_next_pow2_eq.
  - apply (proj_bind (fun x => x)); [apply proj_id, carries_refl|]. intros size _.
    apply (proj_bind drop3).
    + apply (proj_for_range drop3 _ _ _ _ (work, lens, offs)). intros. apply ark_group_proj.
    + intros [[a b] c] _. now intros x [= <-].
  - lia.
  - assert (64 <= 2 ^ 63)%N by (change 64%N with (2 ^ 6)%N; apply N.pow_le_mono_r; lia). lia.
Qed.

Lemma ark_partials_proj missing stride count (work : list K) :
  proj drop3 (zp_partials s missing stride count work) (ark_zp_partials s missing stride count work).
Proof.
  unfold zp_partials, ark_zp_partials.
  apply (proj_bind (fun st : list K * list nat * list nat * nat * nat => let '(w, l, _, a, b) := st in (w, l, a, b))).
  - apply (proj_for_range (fun st : list K * list nat * list nat * nat * nat => let '(w, l, _, a, b) := st in (w, l, a, b)) _ _ 0 count (work, [], [], 0%nat, 0%nat)).
    intros j [[[[wk lens] offs] mo] wo].
    apply (proj_bind (fun x => x)); [apply proj_id, carries_refl|]. intros sl _. rewrite ark_zero_partial_eq.
    apply (proj_bind (fun x => x)); [apply proj_id, carries_refl|]. intros p _.
    apply (proj_bind (fun x => x)); [apply proj_id, ark_pad_carries|]. intros pp _.
    apply (proj_bind (fun x => x)); [apply proj_id, carries_refl|]. intros w1 _. now intros x [= <-].
  - intros [[[[wk lens] offs] mo] wo] _. now intros x [= <-].
Qed.

Lemma ark_tree_carries D C count stride missing : (2 <= count)%nat -> (N.of_nat (count * 64) <= 2 ^ 63)%N ->
  (N.of_nat D <= 2 ^ 63)%N ->
  carries (zp_tree (K := K) s D C count stride missing) (ark_zp_tree W s D C count stride missing).
Proof.
  intros Hc Hb HDb. unfold zp_tree, ark_zp_tree. rewrite std_next_pow2_eq by (auto; lia).
  apply carries_bind; [apply carries_refl|]. intros wlen _. intros y Ey.
  apply bind_inv in Ey as ([[work lens] offs] & Ep & Ey). rewrite (ark_partials_proj _ _ _ _ _ Ep). cbn [bind]; unfold drop3; cbn [fst].
  revert y Ey. apply partials_lens in Ep. subst lens.
  rewrite !(usub_ok count 1) by lia.
  destruct (usub (1 + length missing) ((count - 1) * 63)) as [l| | |] eqn:El; cbn [bind]; try (intros ? ?; discriminate).
  rewrite El. cbn [bind]. rewrite upd_ok by (rewrite repeat_length; lia). cbn [bind].
  assert (G : forall fuel st, len0 (Nat.max D 64) (snd st) ->
    proj drop4 (while_ fuel (fun st => 1 <? fst st)%nat (zp_level s D C) st) (while_ fuel (fun st => 1 <? fst st)%nat (ark_zp_level W s D C) (drop4 st))).
  { induction fuel; intros st I; cbn [while_]; [intros ? ?; discriminate|]. change (fst (drop4 st)) with (fst st).
    destruct (1 <? fst st)%nat; [|now intros x [= <-]].
    apply (proj_bind drop4); [now apply ark_level_proj|]. intros st' E. apply IHfuel. now apply (level_keep _ _ _ _ _ E). }
  intros y Ey. apply bind_inv in Ey as ([c [[w1 l1] o1]] & E1 & Ey). apply G in E1.
  - unfold drop4 in E1. cbn [fst snd] in E1. rewrite E1. cbn [bind]. exact Ey.
  - cbn [snd len0]. intros _. rewrite nth_set_other by (rewrite ?repeat_length; lia). rewrite nth_repeat' by lia. lia.
Qed.

Theorem ark_zero_poly_carries D missing : (N.of_nat D <= 2 ^ 57)%N ->
  carries (zero_poly_via_multiplication (K := K) s D missing) (ark_zero_poly W s D missing).
Proof.
  intros HDb. unfold zero_poly_via_multiplication, ark_zero_poly.
  destruct (Nat.eqb_spec (length missing) 0); [apply carries_refl|].
  destruct (Nat.leb_spec D (length missing)) as [C|C]; [apply carries_refl|].
  destruct (max_width s <? D)%nat; [apply carries_refl|].
  rewrite std_is_pow2_eq. destruct (Nat.eqb_spec D 0); [lia|]. cbn [negb andb].
  destruct (negb (is_pow2 D)); [apply carries_refl|]. rewrite count_eq by lia.
  assert (Hc := count_bound (length missing) D ltac:(lia) HDb).
  rewrite std_next_pow2_eq by (auto; lia).
  apply carries_bind; [apply carries_refl|]. intros np _. apply carries_bind.
  - destruct (Nat.leb_spec (length missing) 63).
    + rewrite ark_zero_partial_eq. apply carries_refl.
    + apply ark_tree_carries; auto.
      * assert (1 <= (length missing - 1) / 63)%nat; [|lia]. apply Nat.div_le_lower_bound; lia.
      * etransitivity; [exact HDb|]. apply N.pow_le_mono_r; lia.
  - intros zp _. apply carries_bind.
    + destruct (Nat.compare (length zp) D); try apply carries_refl. apply ark_pad_carries.
    + intros zp' _. rewrite (fft_eq s k) by auto. apply carries_refl.
Qed.
End S.

(** degenerate and rejected arguments *)
Theorem ark_zero_poly_args s D missing :
  (missing = [] -> ark_zero_poly W s D missing = Ok ([], [])) /\
  (missing <> [] -> (D <= length missing)%nat \/ (max_width s < D)%nat \/ (forall m, D <> 2 ^ m)%nat ->
     ark_zero_poly W s D missing = Err).
Proof.
  split; [intros ->; reflexivity|]. intros Hn H. unfold ark_zero_poly.
  assert (0 < length missing)%nat by (destruct missing; [congruence|simpl; lia]).
  destruct (Nat.eqb_spec (length missing) 0); [lia|].
  destruct (Nat.leb_spec D (length missing)); auto. destruct (Nat.ltb_spec (max_width s) D); auto.
  destruct H as [H|[H|H]]; try lia. destruct (std_is_pow2 D) eqn:E; auto.
  apply std_is_pow2_spec in E as (m & ->). now specialize (H m).
Qed.

(** ** too many missing: the same error *)
Section Fail.
Variables (rs : list K) (s : fft_settings K) (ks : nat).
Hypothesis HG : good s ks.
Let w := nth ks table 0.
Let HS : settings_ok s ks w := proj1 HG.
Let Hks : (ks < 32)%nat := proj2 HG.
Variables (f P : nat).
Notation m := (length rs).
Notation D := (64 * 2 ^ f)%nat.
Notation WW := (64 * 2 ^ S f)%nat.
Hypothesis HDk : (f + 6 <= ks)%nat.
Hypothesis HmD : (m < D)%nat.
Hypothesis HP : (63 * (P - 1) < m <= 63 * P)%nat.
Hypothesis Hf : (2 <= f)%nat.
Hypothesis Hbig : (2 ^ f + 1 < P)%nat.
Lemma ark_zp_tree_fails (missing : list nat) stride :
  length missing = m ->
  (forall i, (i < m)%nat -> idx (expanded_roots s) (nth i missing 0%nat * stride) = Ok (nth i rs 0)) ->
  next_pow2 (P * 64) = Ok WW ->
  ark_zp_tree W s D (Nat.min WW D) P stride missing = Err.
Proof.
  intros Hml Hid HNP. unfold ark_zp_tree.
  assert (HPe := P_le rs f P HmD HP Hf).
  assert (HB : (N.of_nat (P * 64) <= 2 ^ 63)%N).
  { assert (P * 64 <= 2 ^ 40)%nat.
    { transitivity (2 ^ (7 + f))%nat; [rewrite Nat.pow_add_r; simpl (2 ^ 7)%nat; cbn [Nat.pow] in HPe; lia|].
      apply Nat.pow_le_mono_r; lia. }
    transitivity (2 ^ 40)%N; [|apply N.pow_le_mono_r; lia].
    replace (2 ^ 40)%N with (N.of_nat (2 ^ 40)) by (rewrite Nat2N.inj_pow; reflexivity). lia. }
  rewrite std_next_pow2_eq by (auto; lia). rewrite HNP. cbn [bind].
  destruct (zp_partials_spec rs s ks Hks f P HDk HmD HP (S f) missing stride) as (work & offs & E & Lw & Lo & Hs & Hz); auto; [lia|].
  rewrite (ark_partials_proj _ _ _ _ _ _ E). cbn [bind]; unfold drop3; cbn [fst]. rewrite usub_ok by lia. cbn [bind]. rewrite usub_ok by lia. cbn [bind].
  rewrite upd_ok by (rewrite repeat_length; lia). cbn [bind]. rewrite Hml.
  set (lens := set (repeat 64%nat P) (P - 1) (1 + m - (P - 1) * 63)%nat).
  assert (Ll : length lens = P) by (unfold lens; now rewrite set_length, repeat_length).
  assert (Hfull : forall t, (t + 1 < P)%nat -> nth t lens 0%nat = (gsz 0 + 1)%nat).
  { intros t Ht. unfold lens. rewrite nth_set_other by (rewrite ?repeat_length; lia). rewrite nth_repeat' by lia. reflexivity. }
  assert (Hlast : (length (grp rs 0 (P - 1)) + 1 <= nth (P - 1) lens 0 <= gsz 0 + 1)%nat).
  { unfold lens. rewrite nth_set_same by (rewrite repeat_length; lia). rewrite grp_length. unfold gsz. simpl (4 ^ 0)%nat. lia. }
  assert (Hc : (1 < P <= P)%nat) by lia.
  assert (S0 : slotsz 0 = 64%nat) by reflexivity.
  assert (HW : (P * slotsz 0 <= WW)%nat) by (rewrite S0; lia).
  assert (Hm : (m <= gsz 0 * P)%nat) by (unfold gsz; simpl (4 ^ 0)%nat; lia).
  assert (EC : Nat.min WW D = D) by (cbn [Nat.pow]; lia). rewrite EC.
  assert (E4 := pow2_4 f Hf). set (q := (2 ^ (f - 2))%nat) in *.
  assert (Hq : (q <= (P - 1) / 4)%nat) by (apply Nat.div_le_lower_bound; lia).
  cbn [while_]. destruct (Nat.ltb_spec 1 (fst (P, (work, lens)))) as [_|Q]; [|cbn [fst] in Q; lia].
  unfold ark_zp_level at 1. rewrite (idx_ok lens 0 0%nat) by lia. cbn [bind]. rewrite Hfull by lia.
  change (std_next_pow2 (gsz 0 + 1)) with (Ok 64%nat). cbn [bind].
  assert (Hs' : forall t x : nat, (t < P)%nat -> (x < slotsz 0)%nat -> nth (t * slotsz 0 + x) work 0 = coef (vanish_poly (grp rs 0 t)) x) by exact Hs.
  assert (Hz' : forall x, (P * slotsz 0 <= x)%nat -> nth x work 0 = 0) by exact Hz.
  destruct (for_range_inv (fun i st => midinv rs WW P 0 P work lens i st) (zp_group s D D P (slotsz 0)) 0 q (work, lens, offs)) as (st & EG & I).
  - lia.
  - repeat split; auto; lia.
  - intros i st Hi I. apply (zp_group_spec rs s ks w HS D D WW P 0 P Hc HW Hm work lens Ll Hs' Hz' Hfull Hlast); auto; [lia|].
    unfold group_fits. rewrite S0. split; [lia|]. intros H1.
    assert (N4 : num P i = 4%nat) by (unfold num; lia).
    exists 8%nat. split; [lia|]. change (2 ^ 8)%nat with 256%nat. split; [lia|].
    assert (LE := newdeg_le rs s ks w HS WW P 0 P Hc HW Hm work lens Ll Hs' Hz' Hfull Hlast i ltac:(lia)).
    rewrite N4 in LE. change (gsz 0) with 63%nat in LE. lia.
  - assert (EG32 : ark_zp_group W s D D P (slotsz 0) q (drop3 st) = Err).
    { destruct st as [[work' lens'] offs']. pose proof I as (L1 & L2 & L3 & _). unfold drop3. cbn [fst].
      unfold ark_zp_group. rewrite S0. rewrite usub_ok by lia. cbn [bind]. rewrite usub_ok by lia. cbn [bind].
      assert (I2 : midinv rs WW P 0 P work lens q (work', lens', set offs' q (q * 4 * 64)%nat)).
      { destruct I as (J1 & J2 & J3 & J4). repeat split; auto; try apply J4. now rewrite set_length. }
      destruct (zp_views_spec rs s ks w HS WW P 0 P Hc HW Hm work lens Ll Hs' Hz' Hfull Hlast q work' lens' _ ltac:(lia) I2)
        as (offs2 & EV & _).
      rewrite S0 in EV. fold (num P q). apply views_proj in EV. rewrite EV. cbn [bind snd].
      destruct (Nat.ltb_spec 1 (num P q)) as [_|Q]; [|unfold num in Q; lia].
      replace (Nat.min (Nat.min ((q * 4 + 4) * 64) D - q * 4 * 64) D) with 0%nat by lia.
      rewrite ark_reduce_short; [reflexivity| |lia].
      apply Forall_forall. intros p Hp. apply in_map_iff in Hp as (j & <- & Hj). apply in_seq in Hj.
      assert (B := lens_bounds rs s ks w HS WW P 0 P Hc HW Hm work lens Ll Hs' Hz' Hfull Hlast q j ltac:(unfold num in Hj; lia)). unfold view. intros EE. apply (f_equal (@length _)) in EE.
      rewrite length_map_seq in EE. simpl in EE. lia. }
    rewrite S0 in EG, EG32.
    apply (proj_for_range drop3 _ (ark_zp_group W s D D P 64) _ _ _ (fun j t => ark_group_proj s ks HG D D P 64 j t)) in EG.
    unfold drop3 in EG at 1. cbn [fst] in EG.
    rewrite (for_range_err _ (1 + (P - 1) / 4) q (work, lens) (drop3 st)); [reflexivity|lia|exact EG|exact EG32].
Qed.
End Fail.

Theorem ark_zero_poly_fails (s : fft_settings K) ks dm (missing : list nat) :
  good s ks -> (dm <= ks)%nat ->
  (63 * (2 ^ dm / 64 + 1) < length missing < 2 ^ dm)%nat ->
  Forall (fun i => (i < 2 ^ dm)%nat) missing ->
  ark_zero_poly W s (2 ^ dm) missing = Err.
Proof.
  intros (HS & Hks) Hdm HL HF. set (w := nth ks table 0) in *.
  set (wd := w ^ (2 ^ (ks - dm))). set (rs := map (fpow wd) missing).
  pose proof HS as (MW & _ & _ & EXP & _).
  assert (Lrs : length rs = length missing) by apply map_length.
  unfold ark_zero_poly.
  destruct (Nat.eqb_spec (length missing) 0); [lia|].
  destruct (Nat.leb_spec (2 ^ dm) (length missing)); [lia|].
  assert (Pd : (2 ^ dm <= 2 ^ ks)%nat) by (apply Nat.pow_le_mono_r; lia).
  rewrite MW. destruct (Nat.ltb_spec (2 ^ ks) (2 ^ dm)); [lia|]. rewrite std_is_pow2_eq, is_pow2_pow. assert (Pp := pow2_pos dm). destruct (Nat.eqb_spec (2 ^ dm) 0); [lia|]. cbn [negb andb]. rewrite count_eq by lia.
  assert (Str : (2 ^ ks / 2 ^ dm = 2 ^ (ks - dm))%nat) by (apply pow2_div; auto). rewrite Str.
  set (P := (1 + (length missing - 1) / 63)%nat).
  assert (Dm := Nat.div_mod (length missing - 1) 63 ltac:(lia)).
  assert (Mb := Nat.mod_upper_bound (length missing - 1) 63 ltac:(lia)).
  assert (HP : (63 * (P - 1) < length rs <= 63 * P)%nat) by (unfold P; lia).
  assert (Hid : forall i, (i < length rs)%nat -> idx (expanded_roots s) (nth i missing 0%nat * 2 ^ (ks - dm)) = Ok (nth i rs 0)).
  { intros i Hi. assert (Hn : (nth i missing 0 < 2 ^ dm)%nat).
    { rewrite Forall_forall in HF. apply HF. apply nth_In. lia. }
    assert (Es := pow2_split ks dm Hdm).
    assert (Ps := pow2_pos (ks - dm)).
    rewrite EXP. rewrite (idx_ok _ _ 0) by (rewrite length_map_seq; nia). rewrite nth_map_seq by nia.
    f_equal. unfold rs. rewrite (nth_indep _ 0 (wd ^ 0)) by (rewrite map_length; lia). rewrite map_nth.
    unfold wd. rewrite <- fpow_mul. f_equal. lia. }
  assert (D6 := pow2_ge_64 dm (length missing) ltac:(lia) ltac:(lia)). set (f := (dm - 6)%nat).
  assert (ED : (2 ^ dm = 64 * 2 ^ f)%nat) by (unfold f; rewrite (pow2_split dm 6 D6); reflexivity).
  assert (Dv : (2 ^ dm / 64 = 2 ^ f)%nat) by (rewrite ED, Nat.mul_comm; apply Nat.div_mul; lia).
  rewrite Dv, ED in HL.
  assert (F2 : (2 <= f)%nat).
  { destruct (Nat.le_gt_cases 2 f); auto. assert (2 ^ f <= 2 ^ 1)%nat by (apply Nat.pow_le_mono_r; lia). simpl (2 ^ 1)%nat in *. lia. }
  assert (Hbig : (2 ^ f + 1 < P)%nat) by (unfold P; nia).
  assert (HmD : (length rs < 64 * 2 ^ f)%nat) by lia.
  assert (HPe := P_le rs f P HmD HP F2).
  assert (HB : (N.of_nat (P * 64) <= 2 ^ 63)%N).
  { assert (P * 64 <= 2 ^ 40)%nat.
    { transitivity (2 ^ (7 + f))%nat; [rewrite Nat.pow_add_r; simpl (2 ^ 7)%nat; cbn [Nat.pow] in HPe; lia|].
      apply Nat.pow_le_mono_r; lia. }
    transitivity (2 ^ 40)%N; [|apply N.pow_le_mono_r; lia].
    replace (2 ^ 40)%N with (N.of_nat (2 ^ 40)) by (rewrite Nat2N.inj_pow; reflexivity). lia. }
  assert (NP : next_pow2 (P * 64) = Ok (64 * 2 ^ S f)%nat).
  { replace (64 * 2 ^ S f)%nat with (2 ^ S (f + 6))%nat.
    - apply next_pow2_between.
      + assert (P * 64 <= 2 ^ 40)%nat.
        { transitivity (2 ^ (7 + f))%nat; [rewrite Nat.pow_add_r; simpl (2 ^ 7)%nat; cbn [Nat.pow] in HPe; lia|].
          apply Nat.pow_le_mono_r; lia. }
        transitivity (2 ^ 40)%N; [|apply N.pow_le_mono_r; lia].
        replace (2 ^ 40)%N with (N.of_nat (2 ^ 40)) by (rewrite Nat2N.inj_pow; reflexivity). lia.
      + cbn [Nat.pow] in *. rewrite Nat.pow_add_r. simpl (2 ^ 6)%nat. lia.
    - cbn [Nat.pow]. rewrite Nat.pow_add_r. simpl (2 ^ 6)%nat. lia. }
  rewrite std_next_pow2_eq by (exact HB || (unfold P; lia)). rewrite NP. cbn [bind]. destruct (Nat.leb_spec (length missing) 63); [lia|].
  rewrite ED.
  rewrite (ark_zp_tree_fails rs s ks (conj HS Hks) f P ltac:(unfold f; lia) HmD HP F2 Hbig missing (2 ^ (ks - dm)) (eq_sym Lrs) Hid NP).
  reflexivity.
Qed.

(** ** recovery *)
Section R.
Variables (s : fft_settings K) (k : nat) (m : nat).
Hypothesis HG : good s k.
Let w := nth k table 0.
Let HS : settings_ok s k w := proj1 HG.
Let Hk : (k < 32)%nat := proj2 HG.
Hypothesis Hm : (m <= k)%nat.
Hypothesis H5 : fnat 5 <> (0:K).
Notation n := (2 ^ m)%nat.
Notation wd := (w ^ (2 ^ (k - m))).

Lemma ark_core_eq (evals Z out : list K) : length evals = n -> length Z = n ->
  (forall i, (i < n)%nat -> peval Z (finv (fnat 5) * wd ^ i) <> 0) ->
  recover_core n s n evals Z = Ok out -> ark_recover_core W s n evals Z = Ok out.
Proof.
  intros LE LZ NZ. unfold ark_recover_core, recover_core. assert (P0 := pow2_pos m).
  rewrite !(fft_eq s k) by auto.
  destruct (ifft_fr_interpolates s k w m evals HS Hm LE) as (P & EP & LP & _). rewrite EP. cbn [unwrap bind].
  rewrite !(proj1 (ark_scale_spec _ H5)). cbn [bind]. rewrite LP, LZ.
  assert (SC : forall q : list K, length q = n -> scale_poly n q n = Ok (map (fun i => nth i q 0 * (finv (fnat 5)) ^ i) (seq 0 n))).
  { intros q Lq. rewrite <- Lq. apply scale_poly_spec; lia. }
  assert (US : forall q : list K, length q = n -> unscale_poly n q n = Ok (map (fun i => nth i q 0 * (fnat 5) ^ i) (seq 0 n))).
  { intros q Lq. rewrite <- Lq. apply unscale_poly_spec; lia. }
  assert (PG : forall (q : list K) c x, length q = n -> peval (map (fun i => nth i q 0 * c ^ i) (seq 0 n)) x = peval q (c * x)).
  { intros q c x Lq. rewrite <- Lq. apply peval_geom0. }
  rewrite !SC by auto. cbn [bind]. rewrite !(fft_eq s k) by auto. unfold coef.
  rewrite (fft_fr_spec s k w m (map (fun i => nth i P 0 * _) _)) by (auto; apply length_map_seq). cbn [unwrap bind].
  rewrite (fft_fr_spec s k w m (map (fun i => nth i Z 0 * _) _)) by (auto; apply length_map_seq). cbn [unwrap bind].
  match goal with |- bind ?a _ = Ok _ -> bind ?b _ = Ok _ => assert (EF : b = a) end.
  { apply for_range_ext. intros i l Hi. rewrite !(idx_ok _ i 0) by (rewrite length_map_seq; lia). cbn [bind].
    rewrite !nth_map_seq by lia. rewrite !PG by auto.
    unfold ark_fr_div. rewrite lib_fdiv_ok by (apply NZ; lia). reflexivity. }
  rewrite EF. clear EF.
  match goal with |- bind ?a _ = _ -> _ => destruct a as [evr| | |] eqn:EE; cbn [bind]; auto end.
  rewrite (fft_eq s k) by auto.
  assert (Le : length evr = n).
  { apply (for_keep (fun _ l => length l = n)) in EE; auto; [apply length_map_seq|].
    intros j t t' _ Lt Et. destruct (idx _ j); cbn [bind] in Et; try discriminate. destruct (idx _ j); cbn [bind] in Et; try discriminate.
    unfold fr_div in Et. cbn [unwrap bind] in Et. apply upd_len in Et. lia. }
  destruct (ifft_fr_interpolates s k w m evr HS Hm Le) as (Q & EQ & LQ & _).
  rewrite EQ. cbn [unwrap bind]. rewrite (proj2 (ark_scale_spec _ H5)), US by auto. cbn [bind]. rewrite LQ.
  now rewrite (fft_eq s k).
Qed.

Theorem ark_recover_spec (samples : list (option K)) : (fnat 5 : K) ^ n <> 1 -> length samples = n ->
  ark_recover W s samples = recover_opt n s samples.
Proof.
  intros H5n L. unfold ark_recover. assert (P0 := pow2_pos m).
  rewrite L, std_is_pow2_eq, is_pow2_pow. destruct (Nat.eqb_spec n 0) as [Z0|_]; [lia|]. cbn [negb andb bind].
  change (@zk_is_none K) with (fun o : option K => match o with None => true | Some _ => false end).
  rewrite (missing_spec _ None), L. set (sm := fun i => nth i samples None).
  change (filter _ (seq 0 n)) with (gaps sm n).
  assert (GF := gaps_forall k m n Hk Hm (le_n _) sm n).
  destruct (Nat.eq_dec (length (gaps sm n)) 0) as [G0|G0].
  { (* nothing missing *)
    apply length_zero_iff_nil in G0. rewrite G0. cbn [ark_zero_poly length Nat.eqb unwrap bind Nat.min].
    destruct (samples_vals k m Hk Hm samples) as (vs & ->).
    { intros i Hi E. assert (In i (gaps sm n)) by (apply (in_gaps k m n Hk Hm (le_n _)); split; auto; lia). rewrite G0 in *. auto. }
    rewrite map_length in L. rewrite (recover_opt_complete n s vs m L).
    change (for_range 0 0 _ tt) with (Ok tt : res unit). cbn [bind].
    unfold for_range at 1. rewrite Nat.sub_0_r. destruct n as [|n'] eqn:En; [lia|]. cbn [for_].
    destruct vs as [|v vs]; [simpl in L; lia|]. reflexivity. }
  assert (RL : recover_opt n s samples = let* z := unwrap (zero_poly_via_multiplication s n (gaps sm n)) in
     let (zero_eval, zero_poly) := z in
     let* _ := for_range 0 n (fun i _ =>
        let* sm := idx samples i in
        let* ze := idx zero_eval i in
        assert (Bool.eqb (match sm with None => true | Some _ => false end) (feqb ze f0))) tt in
     let* evals := for_range 0 n (fun i l =>
        let* sm := idx samples i in
        match sm with
        | None => Ok (l ++ [f0])
        | Some v => let* ze := idx zero_eval i in Ok (l ++ [fmul v ze])
        end) [] in
     let* data := recover_core n s n evals zero_poly in
     let* _ := for_range 0 n (fun i _ =>
        let* sm := idx samples i in
        match sm with
        | None => Ok tt
        | Some v => let* d := idx data i in assert (feqb d v)
        end) tt in
     Ok data).
  { unfold recover_opt. rewrite L, is_pow2_pow. cbn [negb]. rewrite (missing_spec _ None), L. reflexivity. }
  destruct (Nat.lt_ge_cases (length (gaps sm n)) n) as [C|C].
  2: { rewrite RL. rewrite (proj2 (ark_zero_poly_args s n (gaps sm n))); [|intros Z; rewrite Z in G0; simpl in G0; lia|auto].
       unfold zero_poly_via_multiplication. destruct (Nat.eqb_spec (length (gaps sm n)) 0) as [Z1|_]; [lia|].
       destruct (Nat.leb_spec n (length (gaps sm n))) as [_|Z1]; [|lia]. reflexivity. }
  destruct (Nat.le_gt_cases (length (gaps sm n)) (63 * (n / 64 + 1))) as [C2|C2].
  2: { rewrite RL. rewrite (ark_zero_poly_fails s k m), (zero_poly_fails s k w m) by auto. reflexivity. }
  clear RL.
  destruct (recover_interp s k w m n HS Hk Hm (le_n _) sm) as (D & LD & HDv).
  assert (R := recover_opt_spec s k w m n HS Hk Hm (le_n _) H5 H5n samples D L). cbv zeta in R. fold sm in R.
  rewrite R by (auto; lia). clear R. cbn [unwrap].
  assert (Hu : (0 < length (gaps sm n) < n)%nat) by lia.
  assert (ZP := zp_ok s k w m n HS Hk Hm (le_n _) sm Hu C2).
  assert (n57' : (N.of_nat n <= 2 ^ 57)%N) by (apply (pow2_N_le m 57); lia).
  rewrite (ark_zero_poly_carries s k HG n (gaps sm n) n57' _ ZP). cbn [unwrap bind].
  rewrite length_map_seq, Nat.min_id. rewrite check_loop.
  2: { intros i Hi. rewrite (idx_ok _ i 0) by (rewrite length_map_seq; auto). cbn [bind].
       rewrite (idx_ok samples i None) by lia. cbn [bind]. rewrite nth_map_seq by auto.
       rewrite (zero_at s k w m n HS Hk Hm (le_n _) sm) by auto. unfold sm. destruct (nth i samples None); reflexivity. }
  cbn [bind].
  rewrite (write_loop k m Hk Hm (fun i => match sm i with None => 0 | Some v => v * vanish (map (fpow wd) (gaps sm n)) (wd ^ i) end)).
  2: { intros i l Hi _. rewrite (idx_ok samples i None) by lia. cbn [bind]. fold (sm i). destruct (sm i); auto.
       rewrite (idx_ok _ i 0) by (rewrite length_map_seq; auto). cbn [bind]. now rewrite nth_map_seq by auto. }
  cbn [bind].
  erewrite ark_core_eq; [| apply length_map_seq | apply length_map_seq | |
    apply (core_ok s k w m n HS Hk Hm (le_n _) H5 H5n sm Hu C2 D ltac:(lia) HDv);
      [apply length_map_seq|intros i Hi; now rewrite nth_map_seq by auto]].
  2: { intros i Hi. rewrite (peval_ext _ (vanish_poly (map (fpow wd) (gaps sm n)))).
       - rewrite vanish_poly_eval. apply (scaled_not_root s k w m HS Hm H5 H5n). now apply (gap_roots s k w m HS Hm).
       - intros j. rewrite coef_map_seq. destruct (Nat.ltb_spec j n); auto. symmetry. apply coef_over. rewrite vanish_poly_length, map_length. lia. }
  cbn [bind]. rewrite check_loop; [reflexivity|].
  intros i Hi. rewrite (idx_ok samples i None) by lia. cbn [bind]. fold (sm i). destruct (sm i) as [v|] eqn:E; auto.
  rewrite (idx_ok _ i 0) by (rewrite length_map_seq; auto). cbn [bind]. rewrite nth_map_seq by auto.
  rewrite (HDv i v) by auto. rewrite (proj2 (feqb_spec _ v v)) by auto. reflexivity.
Qed.
End R.

Theorem ark_recover_lengths (s : fft_settings K) (samples : list (option K)) :
  ((forall m, length samples <> 2 ^ m)%nat -> ark_recover W s samples = Err) /\
  (forall m, length samples = (2 ^ m)%nat -> (max_width s < 2 ^ m)%nat -> ark_recover W s samples = Panic).
Proof.
  split; [intros H|intros m L H]; unfold ark_recover.
  - destruct (std_is_pow2 (length samples)) eqn:E; [|reflexivity]. apply std_is_pow2_spec in E as (m & E). now apply H in E.
  - rewrite L. assert (P0 := pow2_pos m). rewrite std_is_pow2_eq, is_pow2_pow. destruct (Nat.eqb_spec (2 ^ m) 0); [lia|]. cbn [negb andb bind].
    set (ms := missing_positions _ samples). destruct ms as [|i ms0] eqn:E.
    + cbn [ark_zero_poly length Nat.eqb unwrap bind Nat.min]. change (for_range 0 0 _ tt) with (Ok tt : res unit). cbn [bind].
      unfold for_range at 1. rewrite Nat.sub_0_r. destruct (2 ^ m)%nat as [|n'] eqn:En; [lia|]. cbn [for_].
      destruct samples as [|[v|] l]; [simpl in L; lia|reflexivity|]. exfalso. unfold ms, missing_positions in E. simpl in E. discriminate.
    + rewrite (proj2 (ark_zero_poly_args s (2 ^ m) (i :: ms0))); [reflexivity|discriminate|auto].
Qed.
End Z.
