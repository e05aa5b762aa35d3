(** * Proof_Pippenger: signed digits, and the sum of the scalar multiples from them *)
From Coq Require Import List Arith Lia Bool ZArith NArith Ring Field.
From Verif Require Import Base Fld Loops Zr Proof_Scalar2 Model_ZkMsm Proof_ZkMsm Model_Pippenger.
Import ListNotations.
Local Open Scope Z_scope.

(** ** bits *)
Lemma word_bit s u k : 0 <= s -> 0 <= u -> 0 <= k -> Z.testbit (s / 2 ^ (64 * u) mod 2 ^ 64) k = (k <? 64) && Z.testbit s (64 * u + k).
Proof.
  intros Hs Hu Hk. destruct (Z.ltb_spec k 64); cbn [andb].
  - rewrite Z.mod_pow2_bits_low by lia. rewrite Z.div_pow2_bits by lia. f_equal. lia.
  - apply Z.mod_pow2_bits_high. lia.
Qed.

Lemma high_bit s n k : 0 <= s < 2 ^ n -> 0 <= n <= k -> Z.testbit s k = false.
Proof.
  intros Hs Hk. destruct (Z.eq_dec s 0) as [->|N]; [apply Z.bits_0|]. apply Z.bits_above_log2; [lia|].
  assert (Z.log2 s < n) by (apply Z.log2_lt_pow2; lia). lia.
Qed.

Lemma land_mask v w : 0 <= w -> Z.land v (2 ^ w - 1) = v mod 2 ^ w.
Proof. intros H. rewrite <- Z.land_ones by lia. rewrite Z.ones_equiv. now rewrite Z.sub_1_r. Qed.

Definition words_of (s : Z) : list Z := map (fun i => s / 2 ^ (64 * Z.of_nat i) mod 2 ^ 64) (seq 0 4).

Lemma radix_bits_spec s w i : 0 <= s < 2 ^ 256 -> (6 <= w <= 8)%nat -> (i < radix_count w)%nat ->
  exists v, radix_bits (words_of s) w i = Ok v /\ v mod 2 ^ Z.of_nat w = s / 2 ^ Z.of_nat (i * w) mod 2 ^ Z.of_nat w.
Proof.
  intros Hs Hw Hi. unfold radix_bits. set (off := (i * w)%nat).
  assert (Hoff : (off < 256)%nat).
  { unfold radix_count in Hi. assert (D := Nat.div_mod (256 + w - 1) w ltac:(lia)). assert (E := Nat.mod_upper_bound (256 + w - 1) w ltac:(lia)).
    unfold off. nia. }
  set (u := (off / 64)%nat). set (b := (off mod 64)%nat).
  assert (D := Nat.div_mod off 64 ltac:(lia)). fold u b in D. assert (Hb := Nat.mod_upper_bound off 64 ltac:(lia)). fold b in Hb.
  assert (Hu : (u < 4)%nat) by lia.
  assert (W : forall j, (j < 4)%nat -> nth j (words_of s) 0 = s / 2 ^ (64 * Z.of_nat j) mod 2 ^ 64) by (intros j Hj; unfold words_of; now rewrite nth_map_seq by lia).
  assert (L : length (words_of s) = 4%nat) by (unfold words_of; now rewrite length_map_seq).
  assert (Q : forall k, 0 <= k -> Z.testbit (s / 2 ^ Z.of_nat off) k = Z.testbit s (Z.of_nat off + k)).
  { intros k Hk. rewrite Z.div_pow2_bits by lia. f_equal. lia. }
  assert (Goal : forall v, (forall k, 0 <= k < Z.of_nat w -> Z.testbit v k = Z.testbit s (Z.of_nat off + k)) ->
    v mod 2 ^ Z.of_nat w = s / 2 ^ Z.of_nat off mod 2 ^ Z.of_nat w).
  { intros v H. apply Z.bits_inj'. intros k Hk. destruct (Z.ltb_spec k (Z.of_nat w)).
    - rewrite !Z.mod_pow2_bits_low by lia. rewrite Q by lia. apply H. lia.
    - rewrite !Z.mod_pow2_bits_high by lia. reflexivity. }
  destruct ((b <? 64 - w)%nat || (u =? 3)%nat) eqn:C.
  - rewrite (idx_ok _ u 0) by lia. cbn [bind]. eexists. split; [reflexivity|]. apply Goal. intros k Hk.
    rewrite Z.shiftr_spec by lia. rewrite W by lia. rewrite word_bit by lia.
    replace (64 * Z.of_nat u + (k + Z.of_nat b)) with (Z.of_nat off + k) by lia.
    destruct (Z.ltb_spec (k + Z.of_nat b) 64); [reflexivity|]. cbn [andb]. symmetry. apply (high_bit s 256); [lia|].
    apply orb_prop in C as [C|C]; [apply Nat.ltb_lt in C; lia|]. apply Nat.eqb_eq in C. lia.
  - apply orb_false_elim in C as [C1 C2]. apply Nat.ltb_ge in C1. apply Nat.eqb_neq in C2.
    rewrite (idx_ok _ u 0), (idx_ok _ (1 + u) 0) by lia. cbn [bind]. eexists. split; [reflexivity|]. apply Goal. intros k Hk.
    rewrite Z.lor_spec, Z.shiftr_spec by lia. rewrite !W by lia. rewrite word_bit by lia.
    rewrite Z.mod_pow2_bits_low by lia. rewrite Z.shiftl_spec by lia.
    replace (64 * Z.of_nat u + (k + Z.of_nat b)) with (Z.of_nat off + k) by lia.
    destruct (Z.ltb_spec (k + Z.of_nat b) 64); cbn [andb orb].
    + rewrite (Z.testbit_neg_r _ (k - (64 - Z.of_nat b))) by lia. apply orb_false_r.
    + rewrite word_bit by lia. replace (64 * Z.of_nat (1 + u) + (k - (64 - Z.of_nat b))) with (Z.of_nat off + k) by lia.
      destruct (Z.ltb_spec (k - (64 - Z.of_nat b)) 64); [reflexivity|lia].
Qed.

(** ** digits *)
Fixpoint zsum (n : nat) (f : nat -> Z) : Z := match n with O => 0 | S n => zsum n f + f n end.
Lemma zsum_ext n f g : (forall i, (i < n)%nat -> f i = g i) -> zsum n f = zsum n g.
Proof. induction n; intros H; cbn [zsum]; auto. now rewrite IHn, H by (intros; apply H || idtac; lia). Qed.

Lemma as_i8_small z : -128 <= z <= 127 -> as_i8 z = z.
Proof. intros H. unfold as_i8. rewrite Z.mod_small; lia. Qed.

Section Radix.
Variables (w : nat) (s : Z).
Hypothesis Hw : (6 <= w <= 8)%nat.
Hypothesis Hs : 0 <= s < r.
Let R := 2 ^ Z.of_nat w.
Let H2 := 2 ^ (Z.of_nat w - 1).

Lemma RH : R = 2 * H2 /\ 32 <= H2 <= 128.
Proof.
  unfold R, H2. replace (Z.of_nat w) with (1 + (Z.of_nat w - 1)) at 1 by lia. rewrite Z.pow_add_r by lia. split; [reflexivity|].
  assert (C : (w = 6 \/ w = 7 \/ w = 8)%nat) by lia. destruct C as [-> | [-> | ->]]; cbn; lia.
Qed.

Lemma s_256 : 0 <= s < 2 ^ 256.
Proof. assert (r < 2 ^ 256) by reflexivity. lia. Qed.

Lemma pow_step i : 2 ^ Z.of_nat (S i * w) = 2 ^ Z.of_nat (i * w) * R.
Proof. unfold R. rewrite <- Z.pow_add_r by lia. f_equal. lia. Qed.

Definition inv (t : nat) (st : list Z * Z) : Prop :=
  let (ds, c) := st in length ds = 43%nat /\ (c = 0 \/ c = 1) /\
  (forall i, (i < t)%nat -> - H2 <= nth i ds 0 < H2) /\ (forall i, (t <= i)%nat -> nth i ds 0 = 0) /\
  zsum t (fun i => nth i ds 0 * 2 ^ Z.of_nat (i * w)) + c * 2 ^ Z.of_nat (t * w) = s mod 2 ^ Z.of_nat (t * w) /\
  (c = 1 -> exists t', t = S t' /\ H2 <= 1 + s / 2 ^ Z.of_nat (t' * w)).

Lemma radix_loop : exists ds c, for_range 0 (radix_count w) (fun i (st : list Z * Z) =>
      let (digits, carry) := st in
      let* bit_buf := radix_bits (words_of s) w i in
      let coef := carry + Z.land bit_buf (R - 1) in
      let carry := Z.shiftr (coef + R / 2) (Z.of_nat w) in
      let* digits := upd digits i (as_i8 (coef - Z.shiftl carry (Z.of_nat w))) in
      Ok (digits, carry)) (repeat 0 43, 0) = Ok (ds, c) /\ inv (radix_count w) (ds, c).
Proof.
  destruct RH as (ER & HH). assert (HC : (radix_count w <= 43)%nat).
  { assert (C : (w = 6 \/ w = 7 \/ w = 8)%nat) by lia. destruct C as [-> | [-> | ->]]; cbn; lia. }
  match goal with |- context [for_range 0 (radix_count w) ?bd ?s0] =>
    destruct (for_range_inv inv bd 0%nat (radix_count w) s0) as ([ds c] & E & I) end.
  - lia.
  - unfold inv. split; [apply repeat_length|]. split; [auto|]. split; [intros; lia|]. split; [intros; apply nth_repeat|].
    split; [cbn [zsum Nat.mul]; rewrite Z.mod_1_r; reflexivity|]. intros; lia.
  - intros j [ds c] Hj (L & Hc & B & Z0 & S & _).
    destruct (radix_bits_spec s w j s_256 Hw) as (v & E & V); [lia|]. rewrite E. cbn [bind].
    assert (LM : Z.land v (R - 1) = v mod R) by (apply land_mask; lia). fold R in V. rewrite LM, V. set (win := s / 2 ^ Z.of_nat (j * w) mod R) in *.
    assert (Hwin : 0 <= win < R) by (apply Z.mod_pos_bound; lia).
    rewrite Z.shiftr_div_pow2, Z.shiftl_mul_pow2 by lia. fold R. set (c' := (c + win + R / 2) / R).
    assert (EH : R / 2 = H2) by (rewrite ER, Z.mul_comm; apply Z.div_mul; lia). 
    assert (DM := Z.div_mod (c + win + R / 2) R ltac:(lia)). fold c' in DM.
    assert (MB := Z.mod_pos_bound (c + win + R / 2) R ltac:(lia)).
    assert (Hc' : c' = 0 \/ c' = 1) by nia.
    rewrite as_i8_small by (destruct Hc' as [-> | ->]; lia).
    rewrite upd_ok by lia. cbn [bind]. eexists. split; [reflexivity|]. unfold inv. rewrite set_length.
    split; [auto|]. split; [auto|].
    assert (NS : forall i, nth i (set ds j (c + win - c' * R)) 0 = if (i =? j)%nat then c + win - c' * R else nth i ds 0).
    { intros i. destruct (Nat.eqb_spec i j) as [->|N]; [apply nth_set_same; lia|]. apply nth_set_other; lia. }
    split; [|split; [|split]].
    + intros i Hi. rewrite NS. destruct (Nat.eqb_spec i j); [destruct Hc' as [-> | ->]; lia|apply B; lia].
    + intros i Hi. rewrite NS. destruct (Nat.eqb_spec i j); [lia|apply Z0; lia].
    + cbn [zsum]. rewrite (zsum_ext j _ (fun i => nth i ds 0 * 2 ^ Z.of_nat (i * w))).
      2:{ intros i Hi. rewrite NS. destruct (Nat.eqb_spec i j); [lia|reflexivity]. }
      rewrite NS, Nat.eqb_refl. rewrite pow_step.
      set (q := 2 ^ Z.of_nat (j * w)) in *. assert (0 < q) by (apply Z.pow_pos_nonneg; lia).
      rewrite (Z.rem_mul_r s q R) by lia. unfold win. nia.
    + intros E1. exists j. split; [reflexivity|].
      assert (win <= s / 2 ^ Z.of_nat (j * w)) by (apply Z.mod_le; [apply Z.div_pos; [lia|apply Z.pow_pos_nonneg; lia]|lia]). nia.
  - exists ds, c. split; [exact E|exact I].
Qed.

(** the last digit of a reduced scalar leaves no carry *)
Lemma no_carry ds c : inv (radix_count w) (ds, c) -> c = 0.
Proof.
  intros (_ & Hc & _ & _ & _ & I). destruct Hc as [|E]; auto. destruct (I E) as (t' & Et & B). exfalso.
  assert (M : s / 2 ^ Z.of_nat (t' * w) <= (r - 1) / 2 ^ Z.of_nat (t' * w)) by (apply Z.div_le_mono; [apply Z.pow_pos_nonneg; lia|lia]).
  unfold H2 in B. assert (C : (w = 6 \/ w = 7 \/ w = 8)%nat) by lia.
  destruct C as [Ew | [Ew | Ew]]; rewrite Ew in *; cbn [radix_count] in Et.
  - assert (t' = 42%nat) by (change (radix_count 6) with 43%nat in Et; lia). subst t'.
    change ((r - 1) / 2 ^ Z.of_nat (42 * 6)) with 7 in M. change (2 ^ (Z.of_nat 6 - 1)) with 32 in B. lia.
  - assert (t' = 36%nat) by (change (radix_count 7) with 37%nat in Et; lia). subst t'.
    change ((r - 1) / 2 ^ Z.of_nat (36 * 7)) with 7 in M. change (2 ^ (Z.of_nat 7 - 1)) with 64 in B. lia.
  - assert (t' = 31%nat) by (change (radix_count 8) with 32%nat in Et; lia). subst t'.
    change ((r - 1) / 2 ^ Z.of_nat (31 * 8)) with 115 in M. change (2 ^ (Z.of_nat 8 - 1)) with 128 in B. lia.
Qed.
End Radix.

Lemma set_same_nth {A} (l : list A) i d : set l i (nth i l d) = l.
Proof. revert i. induction l as [|x l IH]; intros [|i]; cbn [set nth]; auto. now rewrite IH. Qed.

(** the digits, and how many of them are used *)
Lemma to_radix_spec x w : (6 <= w <= 8)%nat -> exists ds dc, to_radix_2w x w = Ok ds /\ to_radix_2w_size_hint w = Ok dc /\
  length ds = 43%nat /\ (0 < dc <= 43)%nat /\ (forall i, - 2 ^ (Z.of_nat w - 1) <= nth i ds 0 < 2 ^ (Z.of_nat w - 1)) /\
  (forall i, (dc <= i)%nat -> nth i ds 0 = 0) /\
  val x = zsum dc (fun i => nth i ds 0 * 2 ^ Z.of_nat (i * w)).
Proof.
  intros Hw. assert (Hx := val_range x). destruct (radix_loop w (val x) Hw Hx) as (ds & c & E & I).
  assert (C0 := no_carry w (val x) Hw Hx ds c I). subst c. destruct I as (L & _ & B & Z0 & SV & _).
  destruct (RH w Hw) as (_ & HH).
  assert (Cov : val x mod 2 ^ Z.of_nat (radix_count w * w) = val x).
  { apply Z.mod_small. split; [lia|]. assert (r < 2 ^ 256) by reflexivity.
    apply (Z.lt_le_trans _ (2 ^ 256)); [lia|]. apply Z.pow_le_mono_r; [lia|]. 
    assert (C : (w = 6 \/ w = 7 \/ w = 8)%nat) by lia. destruct C as [-> | [-> | ->]]; cbn; lia. }
  rewrite Cov in SV. rewrite Z.mul_0_l, Z.add_0_r in SV.
  assert (HC : (0 < radix_count w <= 43)%nat /\ (w = 8%nat -> radix_count w = 32%nat)).
  { assert (C : (w = 6 \/ w = 7 \/ w = 8)%nat) by lia. destruct C as [-> | [-> | ->]]; cbn; split; lia. }
  assert (BB : forall i, - 2 ^ (Z.of_nat w - 1) <= nth i ds 0 < 2 ^ (Z.of_nat w - 1)).
  { intros i. destruct (Nat.lt_ge_cases i (radix_count w)); [now apply B|]. rewrite Z0 by auto. lia. }
  assert (A8 : forall i, add_i8 (nth i ds 0) (as_i8 0) = Ok (nth i ds 0)).
  { intros i. rewrite as_i8_small by lia. unfold add_i8. rewrite Z.add_0_r. assert (Bi := BB i).
    destruct (Z.leb_spec (-128) (nth i ds 0)); [|lia]. destruct (Z.leb_spec (nth i ds 0) 127); [reflexivity|lia]. }
  exists ds. unfold to_radix_2w. cbv zeta in E |- *. change (radix_words x) with (words_of (val x)).
  rewrite E. cbn [bind]. rewrite Z.shiftl_0_l.
  assert (T : exists dc, to_radix_2w_size_hint w = Ok dc /\ (radix_count w <= dc <= 43)%nat /\
    (if (w =? 8)%nat then dc = S (radix_count w) else dc = radix_count w)).
  { assert (C : (w = 6 \/ w = 7 \/ w = 8)%nat) by lia. destruct C as [-> | [-> | ->]]; cbn; eexists; (split; [reflexivity|]); cbn; lia. }
  destruct T as (dc & Ed & Hdc & Edc). exists dc.
  split.
  - destruct (Nat.eqb_spec w 8) as [E8|N8].
    + rewrite (idx_ok _ _ 0) by lia. cbn [bind]. rewrite A8. cbn [bind]. rewrite upd_ok by lia. now rewrite set_same_nth.
    + rewrite usub_ok by lia. cbn [bind].
      rewrite (idx_ok _ _ 0) by lia. cbn [bind]. rewrite A8. cbn [bind]. rewrite upd_ok by lia. now rewrite set_same_nth.
  - split; [exact Ed|]. split; [exact L|]. split; [lia|]. split; [exact BB|]. split; [intros; apply Z0; lia|].
    rewrite <- SV. destruct (Nat.eqb_spec w 8); rewrite Edc; [|reflexivity]. cbn [zsum]. rewrite (Z0 (radix_count w)) by lia. lia.
Qed.

(** ** columns *)
Section Neg.
Context {K : fld}.
Add Field Kfpip : (fld_field K).
Lemma neg_mul (a : K) : fneg a = fmul a (fneg f1).
Proof. ring. Qed.
End Neg.

Section Columns.
Context {M : gmod Fr}.
Definition zmul (z : Z) (a : M) : M := smul (fr_of z) a.
Lemma zmul_add a b (p : M) : zmul (a + b) p = gadd (zmul a p) (zmul b p).
Proof. unfold zmul. now rewrite fr_of_add, smul_add_l. Qed.
Lemma zmul_mul a b (p : M) : zmul a (zmul b p) = zmul (a * b) p.
Proof. unfold zmul. now rewrite smul_smul, fr_of_mul. Qed.
Lemma zmul_0 (p : M) : zmul 0 p = g0.
Proof. unfold zmul. change (fr_of 0) with (f0 : Fr). apply smul_0_l. Qed.
Lemma zmul_gadd a (p q : M) : zmul a (gadd p q) = gadd (zmul a p) (zmul a q).
Proof. apply smul_add_r. Qed.
Lemma zmul_nmul n (p : M) : nmul n p = zmul (Z.of_nat n) p.
Proof. unfold nmul, zmul. now rewrite fnat_Fr. Qed.
Lemma zmul_neg z (p : M) : zmul (- z) p = zmul z (gneg p).
Proof. rewrite gneg_smul. unfold zmul. rewrite smul_smul, fr_of_neg. now rewrite neg_mul. Qed.

Lemma pair_spec B i (digits : list Z) (pt : M) (bs : list M) : (i < length digits)%nat -> length bs = B ->
  - Z.of_nat B <= nth i digits 0 <= Z.of_nat B ->
  exists bs', pip_pair i (digits, pt) bs = Ok bs' /\ length bs' = B /\ weigh 1 bs' = gadd (weigh 1 bs) (zmul (nth i digits 0) pt).
Proof.
  intros Hi L HB. unfold pip_pair. rewrite (idx_ok _ i 0) by lia. cbn [bind]. set (d := nth i digits 0) in *.
  destruct (Z.ltb_spec 0 d); [|destruct (Z.ltb_spec d 0)].
  - rewrite (idx_ok _ _ g0) by lia. cbn [bind]. rewrite upd_ok by lia. eexists. split; [reflexivity|]. rewrite set_length. split; [auto|].
    rewrite weigh_set by lia. f_equal. rewrite zmul_nmul. f_equal. lia.
  - rewrite (idx_ok _ _ g0) by lia. cbn [bind]. rewrite upd_ok by lia. eexists. split; [reflexivity|]. rewrite set_length. split; [auto|].
    unfold gsub. rewrite weigh_set by lia. f_equal. rewrite zmul_nmul. rewrite <- zmul_neg. f_equal. lia.
  - eexists. split; [reflexivity|]. split; [auto|]. replace d with 0 by lia. now rewrite zmul_0, gadd_0_r.
Qed.

Lemma pairs_spec B i (pairs : list (list Z * M)) : forall bs, length bs = B ->
  Forall (fun dp => (i < length (fst dp))%nat /\ - Z.of_nat B <= nth i (fst dp) 0 <= Z.of_nat B) pairs ->
  exists bs', for_each pairs (pip_pair i) bs = Ok bs' /\ length bs' = B /\
    weigh 1 bs' = gadd (weigh 1 bs) (lsum (fun dp => zmul (nth i (fst dp) 0) (snd dp)) pairs).
Proof.
  induction pairs as [|[digits pt] pairs IH]; intros bs L F; cbn [for_each lsum fold_right].
  - exists bs. rewrite gadd_0_r. auto.
  - inversion F as [|? ? (H1 & H2) F']; subst. cbn [fst] in H1, H2.
    destruct (pair_spec (length bs) i digits pt bs H1 eq_refl H2) as (b1 & E1 & L1 & W1). rewrite E1. cbn [bind].
    destruct (IH b1 L1 F') as (b2 & E2 & L2 & W2). exists b2. split; [exact E2|]. split; [exact L2|]. rewrite W2, W1. cbn [fst snd].
    now rewrite gadd_assoc.
Qed.

Lemma for_each_map {A B S} (f : A -> B) (body : B -> S -> res S) (l : list A) : forall s, for_each (map f l) body s = for_each l (fun a => body (f a)) s.
Proof. induction l; intros s; cbn [map for_each]; auto. destruct (body (f a) s); cbn [bind]; auto. Qed.
Lemma for_each_ext {A S} (f g : A -> S -> res S) (l : list A) : (forall a s, In a l -> f a s = g a s) -> forall s, for_each l f s = for_each l g s.
Proof. induction l; intros H s; cbn [for_each]; auto. rewrite H by now left. destruct (g a s); cbn [bind]; auto. apply IHl. intros. apply H. now right. Qed.

Lemma sums_spec (bs : list M) (top : M) : for_each (rev (seq 0 (length bs))) (fun i (st : M * M) =>
      let (intermediate, sum) := st in
      let* b := idx (bs ++ [top]) i in
      let intermediate := gadd intermediate b in
      Ok (intermediate, gadd sum intermediate)) (top, top) =
  Ok (gadd top (lsum (fun b => b) bs), gadd top (gadd (nmul (length bs) top) (weigh 1 bs))).
Proof.
  rewrite <- (running_sums bs top top).
  replace (rev bs) with (map (fun i => nth i bs g0) (rev (seq 0 (length bs)))).
  2:{ rewrite map_rev. f_equal. apply (nth_ext' g0); rewrite length_map_seq; auto. intros i Hi. now rewrite nth_map_seq by auto. }
  rewrite for_each_map. apply for_each_ext. intros i [a b] Hin. apply in_rev in Hin. apply in_seq in Hin.
  rewrite (idx_ok _ i g0) by (rewrite app_length; lia). cbn [bind]. now rewrite app_nth1 by lia.
Qed.

Lemma column_spec B i (pairs : list (list Z * M)) : (0 < B)%nat ->
  Forall (fun dp => (i < length (fst dp))%nat /\ - Z.of_nat B <= nth i (fst dp) 0 <= Z.of_nat B) pairs ->
  pip_column pairs B i = Ok (lsum (fun dp => zmul (nth i (fst dp) 0) (snd dp)) pairs).
Proof.
  intros HB F. unfold pip_column. destruct (pairs_spec B i pairs (repeat g0 B) (repeat_length _ _) F) as (bs & E & L & W).
  rewrite E. cbn [bind]. rewrite usub_ok by lia. cbn [bind].
  destruct (exists_last (l := bs)) as (l & top & ->); [intros ->; simpl in L; lia|]. rewrite app_length in L. cbn [length] in L.
  rewrite (idx_ok _ (B - 1) g0) by (rewrite app_length; cbn [length]; lia). cbn [bind].
  rewrite app_nth2 by lia. replace (B - 1 - length l)%nat with 0%nat by lia. cbn [nth].
  replace (B - 1)%nat with (length l) by lia. rewrite sums_spec. cbn [bind snd]. f_equal.
  rewrite weigh_repeat, gadd_0_l in W. rewrite <- W. rewrite weigh_app. cbn [weigh]. rewrite gadd_0_r.
  rewrite gadd_assoc, gadd_comm. f_equal. replace (1 + length l)%nat with (S (length l)) by lia. rewrite nmul_S. apply gadd_comm.
Qed.

Lemma mul_pow_spec (p : M) k : (0 < k)%nat -> mul_by_pow_2 p k = Ok (zmul (2 ^ Z.of_nat k) p).
Proof.
  intros Hk. unfold mul_by_pow_2. rewrite usub_ok by lia. cbn [bind]. rewrite dbl_loop. cbn [bind]. f_equal.
  rewrite !zmul_nmul, <- zmul_add. f_equal. rewrite Nat2Z.inj_pow. replace (Z.of_nat k) with (1 + Z.of_nat (k - 1)) by lia. rewrite Z.pow_add_r by lia. lia.
Qed.

Lemma horner_spec (col : nat -> M) (f : nat -> res M) w n : (0 < w)%nat -> (forall i, (i < n)%nat -> f i = Ok (col i)) -> forall total,
  for_each (rev (seq 0 n)) (fun i total => let* p := f i in let* t := mul_by_pow_2 total w in Ok (gadd t p)) total =
  Ok (gadd (zmul (2 ^ Z.of_nat (n * w)) total) (gsum n (fun i => zmul (2 ^ Z.of_nat (i * w)) (col i)))).
Proof.
  intros Hw. induction n; intros H total.
  - cbn [seq rev for_each gsum Nat.mul]. change (2 ^ Z.of_nat 0) with 1. unfold zmul. change (fr_of 1) with (f1 : Fr). now rewrite smul_1, gadd_0_r.
  - rewrite seq_S, rev_app_distr. cbn [rev app for_each]. cbn [Nat.add]. rewrite H by lia. cbn [bind]. rewrite mul_pow_spec by auto. cbn [bind].
    rewrite IHn by (intros; apply H; lia). f_equal. rewrite zmul_gadd, zmul_mul. cbn [gsum].
    replace (2 ^ Z.of_nat (n * w) * 2 ^ Z.of_nat w) with (2 ^ Z.of_nat (S n * w)) by (rewrite <- Z.pow_add_r by lia; f_equal; lia).
    rewrite <- gadd_assoc. f_equal. apply gadd_comm.
Qed.

Lemma gsum_zsum n (f : nat -> Z) (p : M) : gsum n (fun i => zmul (f i) p) = zmul (zsum n f) p.
Proof. induction n; cbn [gsum zsum]; [now rewrite zmul_0|]. now rewrite IHn, zmul_add. Qed.

Lemma gsum_lsum {A} n (f : nat -> A -> M) (l : list A) : gsum n (fun i => lsum (f i) l) = lsum (fun a => gsum n (fun i => f i a)) l.
Proof.
  induction l as [|a l IH]; cbn [lsum fold_right]; [apply gsum_0; reflexivity|]. rewrite gsum_add. f_equal. exact IH.
Qed.

Lemma combine_map_l {A B C} (f : A -> B) (l : list A) : forall m : list C, combine (map f l) m = map (fun p => (f (fst p), snd p)) (combine l m).
Proof. induction l; intros [|c m]; cbn [map combine]; auto. now rewrite IHl. Qed.
Lemma lsum_map {A B} (f : B -> M) (g : A -> B) l : lsum f (map g l) = lsum (fun a => f (g a)) l.
Proof. induction l; cbn [map lsum fold_right]; auto. f_equal. exact IHl. Qed.
Lemma lsum_combine (scalars : list Fr) : forall points : list M, lsum (fun sp => smul (fst sp) (snd sp)) (combine scalars points) =
  gsum (Nat.min (length scalars) (length points)) (fun i => smul (nth i scalars f0) (nth i points g0)).
Proof.
  induction scalars as [|x xs IH]; intros [|p ps]; cbn [combine lsum fold_right length Nat.min gsum]; auto.
  change (gadd (gsum (Nat.min (length xs) (length ps)) (fun i => smul (nth i (x :: xs) f0) (nth i (p :: ps) g0)))
     (smul (nth (Nat.min (length xs) (length ps)) (x :: xs) f0) (nth (Nat.min (length xs) (length ps)) (p :: ps) g0)))
    with (gsum (S (Nat.min (length xs) (length ps))) (fun i => smul (nth i (x :: xs) f0) (nth i (p :: ps) g0))).
  rewrite gsum_S_l. cbn [nth fst snd]. f_equal. apply IH.
Qed.

Theorem pippenger_spec size (points : list M) (scalars : list Fr) : pippenger size points scalars =
  Ok (gsum (Nat.min (length scalars) (length points)) (fun i => smul (nth i scalars f0) (nth i points g0))).
Proof.
  unfold pippenger. set (w := if (size <? 500)%nat then 6%nat else if (size <? 800)%nat then 7%nat else 8%nat).
  assert (Hw : (6 <= w <= 8)%nat) by (unfold w; destruct (size <? 500)%nat; [lia|]; destruct (size <? 800)%nat; lia). clearbody w.
  set (dg := fun x => match to_radix_2w x w with Ok l => l | _ => [] end).
  destruct (to_radix_spec f0 w Hw) as (_ & dc & _ & Edc & _ & Hdc & _).
  assert (DG : forall x, to_radix_2w x w = Ok (dg x) /\ length (dg x) = 43%nat /\
    (forall i, - 2 ^ (Z.of_nat w - 1) <= nth i (dg x) 0 < 2 ^ (Z.of_nat w - 1)) /\ val x = zsum dc (fun i => nth i (dg x) 0 * 2 ^ Z.of_nat (i * w))).
  { intros x. destruct (to_radix_spec x w Hw) as (ds & dc' & E & Ed & L & _ & B & _ & V). unfold dg. rewrite E.
    rewrite Edc in Ed. assert (dc' = dc) by congruence. subst dc'. auto. }
  rewrite Edc. cbn [bind]. rewrite (for_each_push (fun s => to_radix_2w s w) dg) by (intros; apply DG). cbn [app bind].
  rewrite combine_map_l. set (pairs := map _ _).
  assert (EB : Z.of_nat (2 ^ w / 2) = 2 ^ (Z.of_nat w - 1)).
  { assert (C : (w = 6 \/ w = 7 \/ w = 8)%nat) by lia. destruct C as [-> | [-> | ->]]; reflexivity. }
  assert (HB : (0 < 2 ^ w / 2)%nat) by (assert (0 < 2 ^ (Z.of_nat w - 1)) by (apply Z.pow_pos_nonneg; lia); lia).
  assert (COL : forall i, (i < dc)%nat -> pip_column pairs (2 ^ w / 2) i = Ok (lsum (fun dp => zmul (nth i (fst dp) 0) (snd dp)) pairs)).
  { intros i Hi. apply column_spec; [exact HB|]. apply Forall_forall. intros dp Hin. unfold pairs in Hin. apply in_map_iff in Hin as ((x & p) & <- & _).
    cbn [fst snd]. destruct (DG x) as (_ & L & B & _). rewrite L, EB. assert (Bi := B i). lia. }
  destruct dc as [|n]; [lia|]. rewrite seq_S, rev_app_distr. cbn [rev app Nat.add]. rewrite COL by lia. cbn [bind].
  rewrite (horner_spec (fun i => lsum (fun dp => zmul (nth i (fst dp) 0) (snd dp)) pairs) (pip_column pairs (2 ^ w / 2))); [|lia|intros; apply COL; lia].
  f_equal. rewrite gadd_comm.
  change (gsum (S n) (fun i => zmul (2 ^ Z.of_nat (i * w)) (lsum (fun dp : list Z * M => zmul (nth i (fst dp) 0) (snd dp)) pairs)) =
    gsum (Nat.min (length scalars) (length points)) (fun i => smul (nth i scalars f0) (nth i points g0))).
  rewrite <- lsum_combine. unfold pairs.
  transitivity (gsum (S n) (fun i => lsum (fun sp : Fr * M => zmul (nth i (dg (fst sp)) 0 * 2 ^ Z.of_nat (i * w)) (snd sp)) (combine scalars points))).
  - apply gsum_ext. intros i Hi. rewrite lsum_map. cbn [fst snd].
    clear COL pairs. induction (combine scalars points) as [|sp l IHl]; cbn [lsum fold_right]; [apply smul_0_r|].
    rewrite zmul_gadd. f_equal; [|exact IHl]. rewrite zmul_mul. f_equal. lia.
  - rewrite gsum_lsum. apply lsum_ext. intros [x p] _. cbn [fst snd]. rewrite gsum_zsum.
    destruct (DG x) as (_ & _ & _ & V). rewrite <- V. unfold zmul. now rewrite fr_of_val.
Qed.
End Columns.

(** ** statements *)
Lemma zsum_list n f : zsum n f = fold_right Z.add 0 (map f (seq 0 n)).
Proof.
  induction n; [reflexivity|]. cbn [zsum]. rewrite seq_S, map_app, fold_right_app. cbn [map fold_right Nat.add].
  assert (G : forall l c, fold_right Z.add c l = fold_right Z.add 0 l + c) by (induction l as [|a l IHl]; intros c; cbn [fold_right]; [|rewrite (IHl c)]; lia).
  rewrite G, <- IHn. lia.
Qed.
Lemma digits_spec x w : (6 <= w <= 8)%nat -> exists ds dc, to_radix_2w x w = Ok ds /\ to_radix_2w_size_hint w = Ok dc /\
  length ds = 43%nat /\ (dc <= 43)%nat /\ (forall d, In d ds -> - 2 ^ (Z.of_nat w - 1) <= d < 2 ^ (Z.of_nat w - 1)) /\
  (forall i, (dc <= i)%nat -> nth i ds 0 = 0) /\
  val x = fold_right Z.add 0 (map (fun i => nth i ds 0 * 2 ^ Z.of_nat (i * w)) (seq 0 dc)).
Proof.
  intros Hw. destruct (to_radix_spec x w Hw) as (ds & dc & E & Ed & L & D & B & Z0 & V). exists ds, dc.
  rewrite zsum_list in V. repeat (split; [assumption || lia|]). split; [|auto].
  intros d Hd. apply (In_nth _ _ 0) in Hd as (i & _ & <-). apply B.
Qed.
Lemma mul_pow_all (M : gmod Fr) (p : M) k : mul_by_pow_2 p k = if (k =? 0)%nat then Panic else Ok (smul (fr_of (2 ^ Z.of_nat k)) p).
Proof. destruct k; [reflexivity|]. cbn [Nat.eqb]. apply mul_pow_spec. lia. Qed.
