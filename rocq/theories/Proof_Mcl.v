(** * Proof_Mcl: the mcl backend's settings, transforms and extension *)
From Coq Require Import List Arith Lia Bool Field NArith ZArith.
From Verif Require Import Base Fld Poly Loops Model_Utils Proof_Utils Model_FFT Spec Proof_FFT Model_Das Model_Mcl.
Import ListNotations.

(** ** Words *)
Lemma as_i32_small n : (N.of_nat n < 2 ^ 31)%N -> as_i32 (N.of_nat n) = Z.of_nat n.
Proof.
  intros H. unfold as_i32. rewrite N.mod_small by (change (2^32)%N with 4294967296%N; change (2^31)%N with 2147483648%N in H; lia).
  rewrite nat_N_Z. destruct (Z.ltb_spec (Z.of_nat n) (2 ^ 31)); auto.
  change (2^31)%N with 2147483648%N in H. change (2^31)%Z with 2147483648%Z in H0. lia.
Qed.

Lemma as_i32_edge n : (N.of_nat n = 2 ^ 31)%N -> as_i32 (N.of_nat n) = (- Z.of_nat n)%Z.
Proof.
  intros H. assert (E : Z.of_nat n = (2 ^ 31)%Z) by (rewrite <- nat_N_Z, H; reflexivity).
  rewrite H, E. reflexivity.
Qed.

Lemma mcl_log_2_spec x : (0 < x < 2 ^ 64)%N -> mcl_log_2 x = N.log2 x.
Proof.
  intros (H0 & H). unfold mcl_log_2, leading_zeros. destruct (N.eqb_spec x 0); [lia|].
  assert (N.log2 x < 64)%N by (apply N.log2_lt_pow2; lia). lia.
Qed.

Lemma mcl_is_power_of_2_spec n : (n <> 0)%N -> mcl_is_power_of_2 n = Ok (is_power_of_two n).
Proof.
  intros H. unfold mcl_is_power_of_2, is_power_of_two. destruct (N.eqb_spec n 0); [contradiction|reflexivity].
Qed.

(** [next_pow_of_2] rounds up to a power of two *)
Lemma mcl_next_pow_spec n : (N.of_nat n <= 2 ^ 63)%N ->
  exists m, mcl_next_pow_of_2 (N.of_nat n) = Ok (N.of_nat (2 ^ m)) /\ n <= 2 ^ m /\ (m = 0 \/ 2 ^ (m - 1) < n).
Proof.
  intros H. unfold mcl_next_pow_of_2.
  destruct (N.eqb_spec (N.of_nat n) 0) as [E|E].
  { exists 0. repeat split; simpl; auto. lia. }
  rewrite mcl_is_power_of_2_spec by auto. cbn [bind].
  destruct (is_power_of_two (N.of_nat n)) eqn:P.
  - change (is_pow2 n = true) in P. apply is_pow2_spec in P as (m & ->). exists m. repeat split; auto.
    destruct m; [now left|right]. replace (S m - 1) with m by lia. assert (Q := pow2_pos m). simpl. lia.
  - assert (B : (0 < N.of_nat n < 2 ^ 64)%N).
    { split; [lia|]. eapply N.le_lt_trans; [exact H|]. reflexivity. }
    rewrite mcl_log_2_spec by auto.
    assert (L := N.log2_spec (N.of_nat n) ltac:(lia)). set (l := N.log2 (N.of_nat n)) in *.
    assert (NE : (2 ^ l <> N.of_nat n)%N).
    { intros E2. assert (Q : is_pow2 n = true).
      { apply is_pow2_spec. exists (N.to_nat l). apply Nat2N.inj. rewrite <- E2.
        rewrite Nat2N.inj_pow, N2Nat.id. reflexivity. }
      unfold is_pow2 in Q. congruence. }
    assert (Hl : (l < 63)%N) by (apply (N.pow_lt_mono_r_iff 2); lia).
    destruct (N.leb_spec 64 (l + 1)); [lia|].
    exists (S (N.to_nat l)). repeat split.
    + f_equal. rewrite N.shiftl_1_l, Nat2N.inj_pow. change (N.of_nat 2) with 2%N. rewrite Nat2N.inj_succ, N2Nat.id.
      f_equal. lia.
    + apply Nat.lt_le_incl. assert (Q : (N.of_nat n < N.of_nat (2 ^ S (N.to_nat l)))%N); [|lia].
      rewrite Nat2N.inj_pow. change (N.of_nat 2) with 2%N. rewrite Nat2N.inj_succ, N2Nat.id. lia.
    + right. replace (S (N.to_nat l) - 1) with (N.to_nat l) by lia.
      assert (N.of_nat (2 ^ N.to_nat l) < N.of_nat n)%N.
      { rewrite Nat2N.inj_pow, N2Nat.id. change (N.of_nat 2) with 2%N. lia. }
      lia.
Qed.

Section Mcl.
Context {K : fld}.
Add Field Kfm : (fld_field K).
Local Open Scope fld_scope.

Lemma mcl_from_int_nat n : (mcl_from_int (Z.of_nat n) : K) = fnat n.
Proof. unfold mcl_from_int. destruct (Z.ltb_spec (Z.of_nat n) 0); [lia|]. now rewrite Nat2Z.id. Qed.

Lemma mcl_from_int_neg n : (mcl_from_int (- Z.of_nat n) : K) = - fnat n.
Proof.
  unfold mcl_from_int. destruct (Z.ltb_spec (- Z.of_nat n) 0).
  - now rewrite Z.opp_involutive, Nat2Z.id.
  - assert (n = 0%nat) by lia. subst. simpl. ring.
Qed.

Lemma mcl_fr_pow_spec (x : K) n : mcl_fr_pow x n = Ok (if (n =? 0)%nat then x else x ^ n).
Proof.
  unfold mcl_fr_pow. destruct n; [reflexivity|]. cbn [Nat.eqb].
  destruct (for_range_inv (fun t (r : K) => r = x ^ t) (fun _ res => Ok (res * x)) 1 (S n) x) as (r & E & I).
  - lia.
  - now rewrite fpow_1.
  - intros j t Hj ->. eexists. split; [reflexivity|]. simpl. ring.
  - rewrite E. now subst.
Qed.

(** ** The root table *)
Lemma mcl_expand_loop (w : K) n fuel : forall m,
  (1 <= m)%nat -> (m <= n)%nat -> (n < fuel + m)%nat -> w ^ n = 1 ->
  (forall i, (m <= i < n)%nat -> w ^ i <> 1) ->
  while_ fuel
    (fun s : list K * nat => match nth_error (fst s) (snd s) with
                             | Some x => negb (feqb x f1) | None => true end)
    (fun s => let* x := idx (fst s) (snd s) in Ok (fst s ++ [x * w], S (snd s)))
    (map (fpow w) (seq 0 (S m)), m) = Ok (map (fpow w) (seq 0 (S n)), n).
Proof.
  induction fuel; intros m H1 H2 H3 HW HN; [lia|].
  cbn [while_ fst snd]. rewrite nth_error_map_seq by lia.
  destruct (feqb (w ^ m) 1) eqn:E; cbn [negb].
  - apply feqb_spec in E. destruct (Nat.eq_dec m n) as [->|]; [reflexivity|].
    exfalso. apply (HN m); auto. lia.
  - apply feqb_false in E. rewrite (idx_ok _ m 0) by (rewrite length_map_seq; lia).
    rewrite nth_map_seq by lia. cbn [bind]. rewrite expand_snoc.
    assert (m <> n) by congruence.
    apply IHfuel; try lia; auto. intros i Hi. apply HN. lia.
Qed.

Lemma mcl_expand_ok (w : K) n fuel : (0 < n)%nat -> primitive w n -> (n <= fuel)%nat ->
  mcl_expand fuel w = Ok (map (fpow w) (seq 0 (S n))).
Proof.
  intros Hn (H1 & H2) Hf. unfold mcl_expand.
  assert (E : [f1; w] = map (fpow w) (seq 0 2)) by (simpl; do 2 f_equal; ring).
  rewrite E, (mcl_expand_loop w n fuel 1); auto; lia.
Qed.

(** a root of infinite (or no) order: the loop never ends, whatever the fuel *)
Lemma mcl_expand_diverges_loop (w : K) fuel : forall m, (1 <= m)%nat ->
  (forall i, (1 <= i)%nat -> w ^ i <> 1) ->
  while_ fuel
    (fun s : list K * nat => match nth_error (fst s) (snd s) with
                             | Some x => negb (feqb x f1) | None => true end)
    (fun s => let* x := idx (fst s) (snd s) in Ok (fst s ++ [x * w], S (snd s)))
    (map (fpow w) (seq 0 (S m)), m) = NoFuel.
Proof.
  induction fuel; intros m H1 HN; [reflexivity|].
  cbn [while_ fst snd]. rewrite nth_error_map_seq by lia.
  destruct (feqb (w ^ m) 1) eqn:E; cbn [negb].
  - apply feqb_spec in E. exfalso. now apply (HN m).
  - rewrite (idx_ok _ m 0) by (rewrite length_map_seq; lia).
    rewrite nth_map_seq by lia. cbn [bind]. rewrite expand_snoc. apply IHfuel; auto; lia.
Qed.

Lemma mcl_expand_diverges (w : K) fuel : (forall i, (1 <= i)%nat -> w ^ i <> 1) -> mcl_expand fuel w = NoFuel.
Proof.
  intros H. unfold mcl_expand.
  assert (E : [f1; w] = map (fpow w) (seq 0 2)) by (simpl; do 2 f_equal; ring).
  rewrite E, mcl_expand_diverges_loop; auto.
Qed.

Lemma mcl_build_ok fuel k (w : K) : primitive w (2 ^ k) -> (2 ^ k <= fuel)%nat ->
  exists s, mcl_build fuel k w = Ok s /\ settings_ok s k w.
Proof.
  intros Hw Hf. unfold mcl_build. rewrite (mcl_expand_ok w (2 ^ k)) by auto using pow2_pos. cbn [bind].
  eexists. split; [reflexivity|]. unfold settings_ok. cbn [max_width expanded_roots reverse_roots root_of_unity].
  repeat split; try apply Hw. apply rev_map_seq.
Qed.

(** the same object as the blst constructor makes from the same table *)
Lemma mcl_build_blst fuel table k : table_ok table -> (k < length table)%nat -> (2 ^ k <= fuel)%nat ->
  mcl_build fuel k (nth k table (0:K)) = fft_settings_new table k.
Proof.
  intros HT Hk Hf. unfold mcl_build, fft_settings_new.
  rewrite (mcl_expand_ok _ (2 ^ k)) by auto using pow2_pos. cbn [bind].
  destruct (Nat.leb_spec (length table) k); [lia|].
  rewrite (idx_ok table k 0) by auto. cbn [bind].
  rewrite expand_root_of_unity_ok; auto using pow2_pos.
Qed.

Lemma parse_all_some (l : list K) : parse_all (map Some l) = Ok l.
Proof. induction l; simpl; auto. now rewrite IHl. Qed.

(** ** History independence *)
Definition consistent (pr5 : list K) (g : globals K) : Prop := g_init g && g_default g = true -> g_table g = pr5.

Lemma init_globals_table pr5 g : consistent pr5 g -> g_table (init_globals pr5 g) = pr5.
Proof. unfold consistent, init_globals. intros H. destruct (g_init g && g_default g); auto. Qed.

Lemma run_call_consistent fuel pr5 c g : consistent pr5 g -> consistent pr5 (snd (run_call fuel pr5 c g)).
Proof.
  intros H. destruct c as [k|strings k]; cbn [run_call].
  - unfold mcl_new. cbn [snd]. intros _. now apply init_globals_table.
  - unfold mcl_new_custom. destruct (parse_all strings); cbn [snd]; auto. intros E. discriminate E.
Qed.

Lemma run_calls_consistent fuel pr5 h : forall g, consistent pr5 g -> consistent pr5 (run_calls fuel pr5 h g).
Proof. induction h; intros g H; cbn [run_calls]; auto. apply IHh, run_call_consistent, H. Qed.

Lemma run_call_history fuel pr5 c g g' : consistent pr5 g -> consistent pr5 g' ->
  fst (run_call fuel pr5 c g) = fst (run_call fuel pr5 c g').
Proof.
  intros H H'. destruct c as [k|strings k]; cbn [run_call].
  - unfold mcl_new. cbn [fst]. now rewrite !init_globals_table.
  - unfold mcl_new_custom. destruct (parse_all strings); reflexivity.
Qed.

Lemma globals0_consistent pr5 : consistent pr5 globals0.
Proof. intros E. discriminate E. Qed.

(** ** Transforms *)
Section G.
Context {M : gmod K}.

Lemma acc_loop n (f : nat -> M) (body : nat -> M -> res M) :
  (0 < n)%nat -> (forall j x, (1 <= j < n)%nat -> body j x = Ok (gadd x (f j))) ->
  for_range 1 n body (f 0%nat) = Ok (gsum n f).
Proof.
  intros Hn HB.
  destruct (for_range_inv (fun t x => x = gsum t f) body 1 n (f 0%nat)) as (x & E & ->); auto.
  - simpl. now rewrite gadd_0_l.
  - intros j t Hj ->. rewrite HB by auto. eexists. split; reflexivity.
Qed.

(** value [i] of the transform of [n] values taken from [data] at [off, off+stride, ...] *)
Definition dval (w : K) n (data : list M) off stride i : M :=
  gsum n (fun j => smul (w ^ (i * j)) (nth (off + j * stride) data g0)).

Lemma mcl_simple_g1_spec (w : K) n (values out : list M) off stride roots rs :
  length out = n -> (0 < n)%nat -> (off + (n - 1) * stride < length values)%nat ->
  (forall i, (i < n)%nat -> idx roots (i * rs) = Ok (w ^ i)) -> ((1 < n)%nat -> w ^ n = 1) ->
  mcl_simple_fft_g1 values off stride roots rs out = Ok (map (dval w n values off stride) (seq 0 n)).
Proof.
  intros HL Hn Hv HR HW. unfold mcl_simple_fft_g1. rewrite HL.
  apply (copy_loop g0); [auto|]. intros i r Hi Lr.
  rewrite (idx_ok values off g0) by lia. cbn [bind].
  assert (R0 := HR 0%nat ltac:(lia)). change (0 * rs)%nat with 0%nat in R0. rewrite R0. cbn [bind].
  set (f := fun j => smul (w ^ (i * j)) (nth (off + j * stride) values g0)).
  replace (smul (w ^ 0) (nth off values g0)) with (f 0%nat) by (unfold f; rewrite Nat.mul_0_r, Nat.add_0_r; reflexivity).
  rewrite (acc_loop n f); auto.
  - cbn [bind]. rewrite upd_ok by lia. reflexivity.
  - intros j x Hj. rewrite (idx_ok values (off + j * stride) g0) by nia. cbn [bind].
    rewrite HR by (apply Nat.mod_upper_bound; lia). cbn [bind].
    unfold f. rewrite fpow_mod by (try apply HW; lia). reflexivity.
Qed.

Lemma dval_dft (w : K) n (data : list M) : map (dval w n data 0 1) (seq 0 n) = dft w n data.
Proof.
  apply map_ext_seq. intros i Hi. unfold dval. apply gsum_ext. intros j Hj. now rewrite Nat.mul_1_r.
Qed.

(** the two halves of a transform combine by butterflies *)
Lemma dval_combine h (w : K) (data r' : list M) off stride :
  (0 < h)%nat -> w ^ h = - (1) -> length r' = (2 * h)%nat ->
  (forall i, (i < h)%nat ->
     nth i r' g0 = gadd (dval (w * w) h data off (stride * 2) i)
                        (smul (w ^ i) (dval (w * w) h data (off + stride) (stride * 2) i)) /\
     nth (h + i) r' g0 = gsub (dval (w * w) h data off (stride * 2) i)
                        (smul (w ^ i) (dval (w * w) h data (off + stride) (stride * 2) i))) ->
  r' = map (dval w (2 * h) data off stride) (seq 0 (2 * h)).
Proof.
  intros Hh HW2 HL I.
  assert (Hlo : forall i, dval (w * w) h data off (stride * 2) i =
         gsum h (fun j => smul (w ^ (i * (2 * j))) (nth (off + 2 * j * stride) data g0))).
  { intros i. apply gsum_ext. intros j Hj. f_equal.
    - rewrite <- fpow_2, <- fpow_mul. f_equal. lia.
    - f_equal. lia. }
  assert (Hhi : forall i, smul (w ^ i) (dval (w * w) h data (off + stride) (stride * 2) i) =
         gsum h (fun j => smul (w ^ (i * (2 * j + 1))) (nth (off + (2 * j + 1) * stride) data g0))).
  { intros i. unfold dval. rewrite <- gsum_smul.
    apply gsum_ext. intros j Hj. rewrite smul_smul. f_equal.
    - rewrite <- fpow_2, <- fpow_mul, <- fpow_add. f_equal. lia.
    - f_equal. lia. }
  apply (nth_ext' g0); [now rewrite length_map_seq|].
  intros p Hp. rewrite nth_map_seq by lia. unfold dval at 1. rewrite gsum_even_odd.
  destruct (Nat.lt_ge_cases p h) as [Hlt|Hge].
  - rewrite (proj1 (I p Hlt)), Hlo, Hhi. reflexivity.
  - destruct (I (p - h)%nat) as [_ I2]; [lia|].
    replace (h + (p - h))%nat with p in I2 by lia. rewrite I2, Hlo, Hhi.
    unfold gsub. rewrite <- gsum_neg. f_equal.
    + apply gsum_ext. intros j Hj. f_equal.
      replace (p * (2 * j))%nat with ((p - h) * (2 * j) + h * 2 * j)%nat by nia.
      rewrite fpow_add, (fpow_mul w (h * 2) j), (fpow_mul w h 2), HW2, fpow_2.
      replace (- (1) * - (1)) with (1 : K) by ring. rewrite fpow_1_l. ring.
    + apply gsum_ext. intros j Hj. rewrite <- smul_neg_l. f_equal.
      replace (p * (2 * j + 1))%nat with ((p - h) * (2 * j + 1) + h + h * 2 * j)%nat by nia.
      rewrite !fpow_add, (fpow_mul w (h * 2) j), (fpow_mul w h 2), HW2, fpow_2.
      replace (- (1) * - (1)) with (1 : K) by ring. rewrite fpow_1_l. ring.
Qed.

Lemma mcl_butterfly_g1_spec (roots : list K) rs h (w : K) (out : list M) :
  length out = (2 * h)%nat -> (forall i, (i < h)%nat -> idx roots (i * rs) = Ok (w ^ i)) ->
  exists r', mcl_butterfly_g1 roots rs h out = Ok r' /\ length r' = (2 * h)%nat /\
    forall i, (i < h)%nat ->
      nth i r' g0 = gadd (nth i out g0) (smul (w ^ i) (nth (h + i) out g0)) /\
      nth (h + i) r' g0 = gsub (nth i out g0) (smul (w ^ i) (nth (h + i) out g0)).
Proof.
  intros HL HR. unfold mcl_butterfly_g1.
  apply (pair_loop (g0 : M) h) with
    (f := fun i (a b : M) => gadd a (smul (w ^ i) b)) (g := fun i (a b : M) => gsub a (smul (w ^ i) b)); auto.
  intros i r Hi Lr. rewrite (idx_ok r i g0) by lia. cbn [bind].
  rewrite (idx_ok r (i + h) g0) by lia. cbn [bind]. rewrite HR by auto. cbn [bind].
  rewrite upd_ok by lia. cbn [bind]. rewrite upd_ok by (rewrite set_length; lia).
  rewrite (Nat.add_comm i h). reflexivity.
Qed.

Lemma halves {A} (lo hi : list A) h d i : length lo = h -> length hi = h -> (i < h)%nat ->
  nth i (lo ++ hi) d = nth i lo d /\ nth (h + i) (lo ++ hi) d = nth i hi d.
Proof.
  intros L1 L2 Hi. split.
  - apply app_nth1. lia.
  - rewrite app_nth2 by lia. f_equal. lia.
Qed.

Lemma root_pow_n (w : K) k : ((0 < k)%nat -> w ^ (2 ^ (k - 1)) = - (1)) -> (1 < 2 ^ k)%nat -> w ^ (2 ^ k) = 1.
Proof.
  intros HW H. destruct k; [simpl in H; lia|].
  replace (2 ^ S k)%nat with (2 ^ (S k - 1) * 2)%nat by (simpl; rewrite Nat.sub_0_r; lia).
  rewrite fpow_mul, HW by lia. rewrite fpow_2. ring.
Qed.

Lemma mcl_fft_g1_rec k : forall fuel (values out : list M) off stride roots rs (w : K),
  (k < fuel)%nat -> length out = (2 ^ k)%nat ->
  (off + (2 ^ k - 1) * stride < length values)%nat ->
  (forall i, (i < 2 ^ k)%nat -> idx roots (i * rs) = Ok (w ^ i)) ->
  ((0 < k)%nat -> w ^ (2 ^ (k - 1)) = - (1)) ->
  mcl_fft_g1_ fuel values off stride roots rs out = Ok (map (dval w (2 ^ k) values off stride) (seq 0 (2 ^ k))).
Proof.
  induction k as [|k IH]; intros fuel values out off stride roots rs w Hf HL HV HR HW;
    (destruct fuel as [|fuel]; [lia|]); cbn [mcl_fft_g1_]; rewrite HL.
  - cbn [Nat.pow Nat.leb]. apply mcl_simple_g1_spec; auto. intros; lia.
  - assert (P := pow2_pos k). destruct (Nat.leb_spec (2 ^ S k) 4) as [C|C].
    { apply mcl_simple_g1_spec; auto using pow2_pos, root_pow_n. }
    set (h := (2 ^ k)%nat) in *. assert (E2 : (2 ^ S k = 2 * h)%nat) by (unfold h; simpl; lia).
    rewrite E2 in *. replace (2 * h / 2)%nat with h by (rewrite Nat.mul_comm, Nat.div_mul; lia).
    assert (HW2 : w ^ h = - (1)).
    { replace (S k - 1)%nat with k in HW by lia. apply HW. lia. }
    assert (HR' : forall i, (i < h)%nat -> idx roots (i * (rs * 2)) = Ok ((w * w) ^ i)).
    { intros i Hi. replace (i * (rs * 2))%nat with ((2 * i) * rs)%nat by lia.
      rewrite HR by lia. rewrite fpow_mul, fpow_2. reflexivity. }
    assert (HW' : (0 < k)%nat -> (w * w) ^ (2 ^ (k - 1)) = - (1)).
    { intros Hk. rewrite <- fpow_2, <- fpow_mul.
      replace (2 * 2 ^ (k - 1))%nat with h; auto.
      unfold h. replace k with (S (k - 1)) at 1 by lia. reflexivity. }
    rewrite (IH fuel values (firstn h out) off (stride * 2)%nat roots (rs * 2)%nat (w * w));
      auto; [|lia|rewrite firstn_length; lia|nia]. cbn [bind].
    rewrite (IH fuel values (skipn h out) (off + stride)%nat (stride * 2)%nat roots (rs * 2)%nat (w * w));
      auto; [|lia|rewrite skipn_length; lia|nia]. cbn [bind].
    match goal with |- mcl_butterfly_g1 _ _ _ (?a ++ ?b) = _ => set (lo := a); set (hi := b) end.
    assert (Llo : length lo = h) by apply length_map_seq.
    assert (Lhi : length hi = h) by apply length_map_seq.
    destruct (mcl_butterfly_g1_spec roots rs h w (lo ++ hi)) as (r' & E & L' & I).
    { rewrite app_length. lia. }
    { intros i Hi. apply HR. lia. }
    rewrite E. f_equal. apply dval_combine; auto.
    intros i Hi. destruct (I i Hi) as [I1 I2]. destruct (halves lo hi h g0 i Llo Lhi Hi) as [H1 H2].
    rewrite H1, H2 in I1, I2. unfold lo, hi in I1, I2. rewrite !nth_map_seq in I1, I2 by auto. auto.
Qed.

Lemma firstn_roots (roots : list K) n i (x : K) : (i < n)%nat -> idx roots i = Ok x -> idx (firstn n roots) i = Ok x.
Proof.
  intros Hi H. destruct (idx_inv _ _ _ 0 H) as [L E].
  rewrite (idx_ok _ i 0) by (rewrite firstn_length; lia). now rewrite nth_firstn', E.
Qed.

(** the roots a transform of size [2^m] reads under settings of width [2^k] *)
Lemma settings_roots s k (w : K) m (inverse : bool) : settings_ok s k w -> (m <= k)%nat ->
  let u := if inverse then finv w ^ (2 ^ (k - m)) else w ^ (2 ^ (k - m)) in
  (forall i, (i < 2 ^ m)%nat ->
     idx (firstn (max_width s) (if inverse then reverse_roots s else expanded_roots s)) (i * 2 ^ (k - m)) = Ok (u ^ i)) /\
  ((0 < m)%nat -> u ^ (2 ^ (m - 1)) = - (1)).
Proof.
  intros (Hmw & Hw & _ & Hexp & Hrev) Hm u.
  assert (P := pow2_pos m). assert (Pk := pow2_pos k). assert (Pkm := pow2_pos (k - m)).
  assert (Ek : (2 ^ k = 2 ^ m * 2 ^ (k - m))%nat) by (rewrite <- Nat.pow_add_r; f_equal; lia).
  split.
  - intros i Hi. assert (Hlt : (i * 2 ^ (k - m) < 2 ^ k)%nat) by nia.
    rewrite Hmw. apply firstn_roots; auto. unfold u.
    destruct inverse; [rewrite Hrev|rewrite Hexp]; rewrite (idx_ok _ _ 0) by (rewrite length_map_seq; lia);
      rewrite nth_map_seq by lia; f_equal.
    + rewrite <- fpow_mul, fpow_inv.
      rewrite (Nat.mul_comm (2 ^ (k - m)) i).
      symmetry. apply finv_unique. rewrite <- fpow_add.
      replace (i * 2 ^ (k - m) + (2 ^ k - i * 2 ^ (k - m)))%nat with (2 ^ k)%nat by lia. apply Hw.
    + rewrite <- fpow_mul. f_equal. lia.
  - intros Hm0. replace m with (S (m - 1)) in Ek by lia.
    assert (Hh : w ^ (2 ^ (k - 1)) = - (1)).
    { apply primitive_half; auto using pow2_pos.
      replace (2 * 2 ^ (k - 1))%nat with (2 ^ k)%nat; auto.
      replace k with (S (k - 1)) at 1 by lia. reflexivity. }
    assert (E2 : (2 ^ (k - m) * 2 ^ (m - 1) = 2 ^ (k - 1))%nat).
    { rewrite <- Nat.pow_add_r. f_equal. lia. }
    unfold u. destruct inverse; rewrite <- fpow_mul, E2; auto.
    rewrite fpow_inv, Hh. apply finv_unique. ring.
Qed.

(** the factor applied after an inverse transform of length [n] *)
Definition mcl_inv_len (n : nat) : K := finv (mcl_from_int (as_i32 (N.of_nat n))).

Lemma mcl_inv_len_small n : (N.of_nat n < 2 ^ 31)%N -> mcl_inv_len n = finv (fnat n).
Proof. intros H. unfold mcl_inv_len. now rewrite as_i32_small, mcl_from_int_nat. Qed.

Lemma mcl_inv_len_edge n : (N.of_nat n = 2 ^ 31)%N -> (fnat n : K) <> 0 -> mcl_inv_len n = - finv (fnat n).
Proof.
  intros H H0. unfold mcl_inv_len. rewrite as_i32_edge, mcl_from_int_neg by auto.
  apply finv_unique. field. auto.
Qed.

Lemma is_pow2_N m : is_power_of_two (N.of_nat (2 ^ m)) = true.
Proof. exact (is_pow2_pow m). Qed.

Lemma mcl_fft_g1_core s k (w : K) m (data : list M) (inverse : bool) :
  settings_ok s k w -> (m <= k)%nat -> length data = (2 ^ m)%nat ->
  mcl_fft_g1_ (S (length (repeat (g0 : M) (length data)))) data 0 1
     (firstn (max_width s) (if inverse then reverse_roots s else expanded_roots s)) (max_width s / length data)
     (repeat g0 (length data)) =
  Ok (dft (if inverse then finv w ^ (2 ^ (k - m)) else w ^ (2 ^ (k - m))) (2 ^ m) data).
Proof.
  intros HS Hm HL. destruct (settings_roots s k w m inverse HS Hm) as [HR HW].
  rewrite HL. destruct HS as (Hmw & _). rewrite Hmw at 2. rewrite pow2_div by auto. rewrite repeat_length.
  rewrite (mcl_fft_g1_rec m) with (w := if inverse then finv w ^ (2 ^ (k - m)) else w ^ (2 ^ (k - m))); auto.
  - now rewrite dval_dft.
  - assert (m < 2 ^ m)%nat by (apply Nat.pow_gt_lin_r; lia). lia.
  - apply repeat_length.
  - rewrite HL. assert (P := pow2_pos m). lia.
Qed.

Lemma mcl_fft_g1_spec s k (w : K) m (data : list M) (inverse : bool) :
  settings_ok s k w -> (m <= k)%nat -> length data = (2 ^ m)%nat ->
  mcl_fft_g1 s data inverse =
  Ok (if inverse then map (smul (mcl_inv_len (2 ^ m))) (dft (finv w ^ (2 ^ (k - m))) (2 ^ m) data)
      else dft (w ^ (2 ^ (k - m))) (2 ^ m) data).
Proof.
  intros HS Hm HL. unfold mcl_fft_g1. assert (P := pow2_pos m).
  destruct (Nat.ltb_spec (max_width s) (length data)) as [C|C].
  { exfalso. destruct HS as (E & _). rewrite E, HL in C.
    assert (2 ^ m <= 2 ^ k)%nat by (apply Nat.pow_le_mono_r; lia). lia. }
  rewrite mcl_is_power_of_2_spec by lia. cbn [bind].
  replace (is_power_of_two (N.of_nat (length data))) with true by (now rewrite HL, is_pow2_N). cbn [negb].
  destruct (Nat.eqb_spec (length data) 0); [lia|].
  rewrite (mcl_fft_g1_core s k w m data inverse HS Hm HL). cbn [bind].
  destruct inverse; auto. now rewrite HL.
Qed.

(** for every length below 2^31 the mcl transform is the blst transform *)
Lemma mcl_fft_g1_blst s k (w : K) m (data : list M) (inverse : bool) :
  settings_ok s k w -> (m <= k)%nat -> length data = (2 ^ m)%nat -> (N.of_nat (2 ^ m) < 2 ^ 31)%N ->
  mcl_fft_g1 s data inverse = fft_g1 s data inverse.
Proof.
  intros HS Hm HL HB. rewrite (mcl_fft_g1_spec s k w m) by auto. destruct inverse.
  - rewrite (ifft_g1_spec s k w m) by auto. now rewrite mcl_inv_len_small.
  - now rewrite (fft_g1_spec s k w m).
Qed.

End G.

(** ** The field version *)
Lemma mcl_simple_self (values out : list K) off stride roots rs : (0 < length out)%nat ->
  mcl_simple_fft values off stride roots rs out =
  mcl_simple_fft_g1 (M := self_mod K) values off stride roots rs out.
Proof.
  intros Hl. unfold mcl_simple_fft, mcl_simple_fft_g1. change (gcar K (self_mod K)) with (car K).
  destruct (idx values off) as [v0| | |] eqn:E0; cbn [bind].
  2-4: unfold idx in E0; destruct (nth_error values off); try discriminate E0.
  2:{ destruct (length out) as [|n] eqn:EL; [lia|]. unfold for_range. cbn [Nat.sub for_]. reflexivity. }
  destruct (idx roots 0) as [r0| | |] eqn:E1; cbn [bind].
  2-4: unfold idx in E1; destruct (nth_error roots 0); try discriminate E1.
  2:{ destruct (length out) as [|n] eqn:EL; [lia|]. unfold for_range. cbn [Nat.sub for_]. reflexivity. }
  unfold for_range at 1 3. apply for_ext. intros i t Hi.
  assert (E : forall (a b : K), a = b ->
    for_range 1 (length out) (fun j last =>
      let* jv := idx values (off + j * stride) in
      let* r := idx roots ((i * j) mod length out * rs) in Ok (last + jv * r)) a =
    for_range 1 (length out) (fun (j : nat) (last : self_mod K) =>
      let* jv := idx values (off + j * stride) in
      let* r := idx roots ((i * j) mod length out * rs) in Ok (gadd last (smul r (jv : self_mod K)))) b).
  { intros a b ->. unfold for_range. apply for_ext. intros j x Hj.
    change (gcar K (self_mod K)) with (car K) in *.
    destruct (idx values (off + j * stride)) as [jv| | |]; cbn [bind]; auto.
    destruct (idx roots ((i * j) mod length out * rs)) as [r| | |]; cbn [bind]; auto. f_equal.
    cbn [smul self_mod gadd]. ring. }
  rewrite (E (v0 * r0) (smul r0 (v0 : self_mod K))) by (cbn [smul self_mod]; ring). reflexivity.
Qed.

Lemma mcl_butterfly_spec (roots : list K) rs h (w : K) (out : list K) :
  length out = (2 * h)%nat -> (forall i, (i < h)%nat -> idx roots (i * rs) = Ok (w ^ i)) ->
  exists r', mcl_butterfly roots rs h out = Ok r' /\ length r' = (2 * h)%nat /\
    forall i, (i < h)%nat ->
      nth i r' 0 = nth i out 0 + w ^ i * nth (h + i) out 0 /\
      nth (h + i) r' 0 = nth i out 0 - w ^ i * nth (h + i) out 0.
Proof.
  intros HL HR. unfold mcl_butterfly.
  apply (pair_loop (0 : K) h) with
    (f := fun i (a b : K) => a + w ^ i * b) (g := fun i (a b : K) => a - w ^ i * b); auto.
  intros i r Hi Lr. rewrite HR by auto. cbn [bind].
  rewrite (idx_ok r (i + h) 0) by lia. cbn [bind]. rewrite (idx_ok r i 0) by lia. cbn [bind].
  rewrite upd_ok by lia. cbn [bind]. rewrite (idx_ok _ i 0) by (rewrite set_length; lia). cbn [bind].
  rewrite upd_ok by (rewrite set_length; lia). rewrite nth_set_other by lia. f_equal.
  rewrite (Nat.add_comm i h).
  replace (nth (h + i) r 0 * w ^ i) with (w ^ i * nth (h + i) r 0) by ring.
  apply (nth_ext' (0:K)); [now rewrite !set_length|]. intros j Hj. rewrite !set_length in Hj.
  rewrite !nth_set by (rewrite ?set_length; lia).
  destruct (Nat.eqb_spec j i), (Nat.eqb_spec j (h + i)); auto; lia.
Qed.

Lemma mcl_fft_rec k : forall fuel (values out : list K) off stride roots rs (w : K),
  (k < fuel)%nat -> length out = (2 ^ k)%nat ->
  (off + (2 ^ k - 1) * stride < length values)%nat ->
  (forall i, (i < 2 ^ k)%nat -> idx roots (i * rs) = Ok (w ^ i)) ->
  ((0 < k)%nat -> w ^ (2 ^ (k - 1)) = - (1)) ->
  mcl_fft_ fuel values off stride roots rs out =
  Ok (map (dval (M := self_mod K) w (2 ^ k) values off stride) (seq 0 (2 ^ k))).
Proof.
  induction k as [|k IH]; intros fuel values out off stride roots rs w Hf HL HV HR HW;
    (destruct fuel as [|fuel]; [lia|]); cbn [mcl_fft_]; rewrite HL.
  - cbn [Nat.pow Nat.leb]. rewrite mcl_simple_self by (rewrite HL; auto).
    apply (mcl_simple_g1_spec (M := self_mod K)); auto. intros; lia.
  - assert (P := pow2_pos k). destruct (Nat.leb_spec (2 ^ S k) 4) as [C|C].
    { rewrite mcl_simple_self by (rewrite HL; auto using pow2_pos).
      apply (mcl_simple_g1_spec (M := self_mod K)); auto using pow2_pos, root_pow_n. }
    set (h := (2 ^ k)%nat) in *. assert (E2 : (2 ^ S k = 2 * h)%nat) by (unfold h; simpl; lia).
    rewrite E2 in *. replace (2 * h / 2)%nat with h by (rewrite Nat.mul_comm, Nat.div_mul; lia).
    assert (HW2 : w ^ h = - (1)).
    { replace (S k - 1)%nat with k in HW by lia. apply HW. lia. }
    assert (HR' : forall i, (i < h)%nat -> idx roots (i * (rs * 2)) = Ok ((w * w) ^ i)).
    { intros i Hi. replace (i * (rs * 2))%nat with ((2 * i) * rs)%nat by lia.
      rewrite HR by lia. rewrite fpow_mul, fpow_2. reflexivity. }
    assert (HW' : (0 < k)%nat -> (w * w) ^ (2 ^ (k - 1)) = - (1)).
    { intros Hk. rewrite <- fpow_2, <- fpow_mul.
      replace (2 * 2 ^ (k - 1))%nat with h; auto.
      unfold h. replace k with (S (k - 1)) at 1 by lia. reflexivity. }
    rewrite (IH fuel values (firstn h out) off (stride * 2)%nat roots (rs * 2)%nat (w * w));
      auto; [|lia|rewrite firstn_length; lia|nia]. cbn [bind].
    rewrite (IH fuel values (skipn h out) (off + stride)%nat (stride * 2)%nat roots (rs * 2)%nat (w * w));
      auto; [|lia|rewrite skipn_length; lia|nia]. cbn [bind].
    match goal with |- mcl_butterfly _ _ _ (?a ++ ?b) = _ => set (lo := a : list K); set (hi := b : list K) end.
    assert (Llo : length lo = h) by apply length_map_seq.
    assert (Lhi : length hi = h) by apply length_map_seq.
    destruct (mcl_butterfly_spec roots rs h w (lo ++ hi)) as (r' & E & L' & I).
    { rewrite app_length. lia. }
    { intros i Hi. apply HR. lia. }
    transitivity (Ok r'); [exact E|]. f_equal. apply (dval_combine (M := self_mod K)); auto.
    intros i Hi. destruct (I i Hi) as [I1 I2]. destruct (halves lo hi h 0 i Llo Lhi Hi) as [H1 H2].
    rewrite H1, H2 in I1, I2. unfold lo, hi in I1, I2. rewrite !nth_map_seq in I1, I2 by auto.
    rewrite gsub_self. auto.
Qed.

Lemma mcl_inplace_spec s k (w : K) m (data : list K) (inverse : bool) :
  settings_ok s k w -> (m <= k)%nat -> length data = (2 ^ m)%nat ->
  mcl_inplace_fft s data inverse =
  Ok (if inverse then map (smul (mcl_inv_len (2 ^ m))) (dft (M := self_mod K) (finv w ^ (2 ^ (k - m))) (2 ^ m) data)
      else dft (M := self_mod K) (w ^ (2 ^ (k - m))) (2 ^ m) data).
Proof.
  intros HS Hm HL. destruct (settings_roots s k w m inverse HS Hm) as [HR HW].
  unfold mcl_inplace_fft. assert (P := pow2_pos m).
  destruct (Nat.eqb_spec (length data) 0); [lia|].
  rewrite HL. destruct HS as (Hmw & _). rewrite Hmw at 2. rewrite pow2_div by auto. rewrite repeat_length.
  rewrite (mcl_fft_rec m) with (w := if inverse then finv w ^ (2 ^ (k - m)) else w ^ (2 ^ (k - m))); auto.
  - cbn [bind]. rewrite dval_dft.
    destruct inverse; [|reflexivity]. f_equal. apply map_ext. intros x.
    change (@eq K (fmul x (mcl_inv_len (2 ^ m))) (fmul (mcl_inv_len (2 ^ m)) x)). ring.
  - assert (m < 2 ^ m)%nat by (apply Nat.pow_gt_lin_r; lia). lia.
  - apply repeat_length.
  - rewrite HL. lia.
Qed.

Lemma mcl_inplace_blst s k (w : K) m (data : list K) (inverse : bool) :
  settings_ok s k w -> (m <= k)%nat -> length data = (2 ^ m)%nat -> (N.of_nat (2 ^ m) < 2 ^ 31)%N ->
  mcl_inplace_fft s data inverse = fft_fr s data inverse.
Proof.
  intros HS Hm HL HB. rewrite (mcl_inplace_spec s k w m), fft_fr_self by auto. destruct inverse.
  - rewrite (ifft_g1_spec (M := self_mod K) s k w m) by auto. now rewrite mcl_inv_len_small.
  - now rewrite (fft_g1_spec (M := self_mod K) s k w m).
Qed.

(** [fft] is the transform of the zero-padded input *)
Lemma mcl_fft_pad s k (w : K) (data : list K) (inverse : bool) :
  settings_ok s k w -> (length data <= 2 ^ k)%nat -> (N.of_nat (2 ^ k) <= 2 ^ 63)%N ->
  exists m, (m <= k)%nat /\ (length data <= 2 ^ m)%nat /\ (m = 0 \/ 2 ^ (m - 1) < length data)%nat /\
    mcl_fft s data inverse = mcl_inplace_fft s (data ++ repeat 0 (2 ^ m - length data)) inverse.
Proof.
  intros HS HL HB. destruct (mcl_next_pow_spec (length data)) as (m & E & H1 & H2); [lia|].
  exists m. split; [|split; [exact H1|split; [exact H2|]]].
  - destruct H2 as [->|H2]; [lia|]. assert (Q : (2 ^ (m - 1) < 2 ^ k)%nat) by lia.
    apply Nat.pow_lt_mono_r_iff in Q; lia.
  - unfold mcl_fft. destruct HS as (Hmw & _). rewrite Hmw.
    destruct (Nat.ltb_spec (2 ^ k) (length data)); [lia|]. rewrite E. cbn [bind].
    rewrite Nat2N.id. rewrite usub_ok by lia. reflexivity.
Qed.

(** ** Extension *)
Lemma mcl_das_split_blst s half stride (values : list K) :
  mcl_das_split s half stride values = das_split s half stride values.
Proof. reflexivity. Qed.

Lemma mcl_das_join_blst s half stride (values : list K) :
  mcl_das_join s half stride values = das_join s half stride values.
Proof.
  unfold mcl_das_join, das_join, for_range. apply for_ext. intros i t Hi.
  replace ((i * 2 + 1) * stride)%nat with ((1 + 2 * i) * stride)%nat by lia.
  rewrite (Nat.add_comm i half).
  unfold idx. destruct (nth_error (expanded_roots s) ((1 + 2 * i) * stride)),
    (nth_error t (half + i)), (nth_error t i); reflexivity.
Qed.

Lemma mcl_das_blst fuel : forall s (values : list K) stride,
  mcl_das_ fuel s values stride = das_stride_ fuel s values stride.
Proof.
  induction fuel; intros s values stride; [reflexivity|]. cbn [mcl_das_ das_stride_].
  destruct (Nat.compare_spec (length values) 2) as [C|C|C].
  - rewrite C. reflexivity.
  - destruct (Nat.ltb_spec (length values) 2); [reflexivity|lia].
  - destruct (Nat.ltb_spec (length values) 2); [lia|]. destruct (Nat.eqb_spec (length values) 2); [lia|].
    rewrite mcl_das_split_blst.
    destruct (das_split _ _ _ _); cbn [bind]; auto. rewrite IHfuel.
    destruct (das_stride_ fuel s (firstn _ _) _); cbn [bind]; auto. rewrite IHfuel.
    destruct (das_stride_ fuel s (skipn _ _) _); cbn [bind]; auto. apply mcl_das_join_blst.
Qed.

Lemma for_len {A} (body : nat -> list A -> res (list A)) n : forall i l l',
  (forall i l l', body i l = Ok l' -> length l' = length l) ->
  for_ n i body l = Ok l' -> length l' = length l.
Proof.
  induction n; intros i l l' HB E; cbn [for_] in E.
  - injection E as <-. reflexivity.
  - apply bind_inv in E as (x & E1 & E2). rewrite (IHn _ _ _ HB E2). eauto.
Qed.

Lemma upd_len {A} (l l' : list A) i x : upd l i x = Ok l' -> length l' = length l.
Proof. unfold upd. destruct (_ <? _)%nat; [|discriminate]. intros E. injection E as <-. apply set_length. Qed.

Ltac inv_binds := repeat match goal with
  | H : bind _ _ = Ok _ |- _ => apply bind_inv in H as (? & ? & ?)
  | H : upd _ _ _ = Ok _ |- _ => apply upd_len in H
  end.

Lemma das_stride_len fuel : forall s (values o : list K) stride,
  das_stride_ fuel s values stride = Ok o -> length o = length values.
Proof.
  induction fuel; intros s values o stride E; [discriminate|]. cbn [das_stride_] in E.
  destruct (length values ?= 2)%nat.
  - inv_binds. lia.
  - injection E as <-. reflexivity.
  - apply bind_inv in E as (v & E1 & E). apply bind_inv in E as (lo & E2 & E). apply bind_inv in E as (hi & E3 & E).
    apply IHfuel in E2, E3. unfold das_split, das_join, for_range in E1, E.
    apply for_len in E1; [|intros; inv_binds; lia]. apply for_len in E; [|intros; inv_binds; lia].
    rewrite E, app_length, E2, E3, <- app_length, firstn_skipn. exact E1.
Qed.

Lemma mcl_das_extension_blst s k (w : K) (values : list K) :
  settings_ok s k w -> (k <= 31)%nat -> mcl_das_fft_extension s values = das_fft_extension s values.
Proof.
  intros HS Hk. unfold mcl_das_fft_extension, das_fft_extension, das_fft_extension_stride.
  destruct (Nat.eqb_spec (length values) 0); auto.
  rewrite mcl_is_power_of_2_spec by lia. cbn [bind]. fold (is_pow2 (length values)).
  destruct (is_pow2 (length values)) eqn:P; cbn [negb]; auto.
  destruct HS as (Hmw & Hr). rewrite Hmw.
  destruct (Nat.ltb_spec (2 ^ k) (length values * 2)) as [C|C]; auto.
  rewrite mcl_das_blst.
  destruct (das_stride_ _ _ _ _) as [o| | |] eqn:E; cbn [bind]; auto.
  apply das_stride_len in E. rewrite as_i32_small, mcl_from_int_nat; auto.
  rewrite E. assert (Q : (N.of_nat (2 ^ k) <= 2 ^ 31)%N).
  { rewrite Nat2N.inj_pow. apply N.pow_le_mono_r; lia. }
  change (2 ^ 31)%N with 2147483648%N in *. lia.
Qed.

End Mcl.
