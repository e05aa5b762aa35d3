(** * Proof_Scalar3: inversion, division, integer powers, shifts and square roots *)
From Coq Require Import ZArith Lia List Bool Znumtheory Ring Field Arith.
From Verif Require Import Base Fld Fermat Tables Zr Model_Scalar Spec_Scalar Proof_Scalar Proof_Scalar2.
Import ListNotations.
Local Open Scope Z_scope.

Add Field Fr_field3 : (fld_field Fr).

Lemma ct_eq_spec a b : ct_eq a b = true <-> a = b.
Proof.
  destruct a as [a0 a1 a2 a3], b as [b0 b1 b2 b3]. unfold ct_eq. rewrite !andb_true_iff, !Z.eqb_eq.
  split; [intros [[[-> ->] ->] ->]; reflexivity|intros H; injection H; auto].
Qed.
Lemma ct_eq_rep a b x y : rep a x -> rep b y -> (ct_eq a b = true <-> x = y).
Proof.
  intros A B. rewrite ct_eq_spec. split.
  - intros ->. exact (rep_unique b x y A B).
  - intros ->. exact (rep_inj a b y A B).
Qed.
Lemma ct_eq_feqb a b x y : rep a x -> rep b y -> ct_eq a b = feqb x y.
Proof.
  intros A B. apply eq_true_iff_eq. rewrite (ct_eq_rep a b x y A B). symmetry. apply (feqb_spec Fr).
Qed.

Lemma invert_spec a x : rep a x ->
  (x = f0 -> invert a = None) /\ (x <> f0 -> exists t, invert a = Some t /\ rep t (finv x)).
Proof.
  intros A. unfold invert. assert (E := ct_eq_rep a zero x f0 A rep_zero).
  split; intros H.
  - apply E in H. rewrite H. reflexivity.
  - destruct (ct_eq a zero) eqn:C; [exfalso; apply H, E; reflexivity|].
    exists (invert_chain a). split; [reflexivity|].
    replace (finv x) with (Fr_pow x (r - 2)); [apply (invert_chain_spec x a A)|].
    assert (F := Fr_pow_fermat x H).
    transitivity (fdiv (fmul (Fr_pow x (r - 2)) x) x); [field; exact H|]. rewrite F. field. exact H.
Qed.

Lemma zk_inverse_spec a x : rep a x ->
  (x = f0 -> zk_inverse a = Panic) /\ (x <> f0 -> exists t, zk_inverse a = Ok t /\ rep t (finv x)).
Proof.
  intros A. destruct (invert_spec a x A) as [N S]. unfold zk_inverse. split; intros H.
  - now rewrite (N H).
  - destruct (S H) as (t & -> & T). exists t. auto.
Qed.
Lemma zk_div_spec a b x y : rep a x -> rep b y -> exists t, zk_div a b = Ok t /\ rep t (fdiv x y).
Proof.
  intros A B. unfold zk_div, is_zero. assert (E := ct_eq_rep b zero y f0 B rep_zero).
  destruct (ct_eq b zero).
  - assert (Y : y = f0) by (apply E; reflexivity). exists zero. split; [reflexivity|].
    rewrite Y. unfold fdiv. rewrite finv0. replace (fmul x f0) with (f0 : Fr) by ring. apply rep_zero.
  - assert (Y : y <> f0) by (intros Y; apply E in Y; discriminate).
    destruct (proj2 (zk_inverse_spec b y B) Y) as (t & -> & T). cbn [bind].
    exists (mul a t). split; [reflexivity|]. apply rep_mul; assumption.
Qed.

(** *** [pow] with a machine-word exponent *)
Lemma zk_pow_loop_spec x fuel : forall n2 tmp out e t, 0 <= n2 < 2 ^ Z.of_nat (S fuel) -> pw x tmp t -> pw x out e ->
  exists s, zk_pow_loop (S fuel) n2 tmp out = Ok s /\ pw x s (e + t * n2).
Proof.
  induction fuel; intros n2 tmp out e t B T O.
  - change (2 ^ Z.of_nat 1) with 2 in B. cbn [zk_pow_loop].
    assert (C : n2 = 0 \/ n2 = 1) by lia. destruct C as [-> | ->].
    + exists out. split; [reflexivity|]. now rewrite Z.mul_0_r, Z.add_0_r.
    + exists (mul out tmp). split; [reflexivity|]. rewrite Z.mul_1_r. now apply pw_mul.
  - remember (S fuel) as f. cbn [zk_pow_loop].
    assert (D := Z.div_mod n2 2 ltac:(lia)).
    replace (Z.land n2 1) with (n2 mod 2) by (change 1 with (Z.ones 1); now rewrite Z.land_ones by lia).
    rewrite shr_div by lia. change (2 ^ 1) with 2.
    assert (M := Z.mod_pos_bound n2 2 ltac:(lia)).
    set (out' := if n2 mod 2 =? 1 then mul out tmp else out).
    assert (O' : pw x out' (e + t * (n2 mod 2))).
    { unfold out'. assert (C : n2 mod 2 = 0 \/ n2 mod 2 = 1) by lia. destruct C as [C|C]; rewrite C; cbn [Z.eqb].
      - now rewrite Z.mul_0_r, Z.add_0_r.
      - change (1 =? 1) with true. cbv iota. rewrite Z.mul_1_r. now apply pw_mul. }
    destruct (n2 / 2 =? 0) eqn:Q.
    + apply Z.eqb_eq in Q. exists out'. split; [reflexivity|].
      replace (t * n2) with (t * (n2 mod 2)); [exact O'|]. rewrite D at 2. rewrite Q. reflexivity.
    + subst f. destruct (IHfuel (n2 / 2) (square tmp) out' (e + t * (n2 mod 2)) (t + t)) as (s & Es & Hs).
      * split; [apply Z.div_pos; lia|]. apply Z.div_lt_upper_bound; [lia|].
        rewrite Nat2Z.inj_succ, Z.pow_succ_r in B by lia. lia.
      * now apply pw_square.
      * exact O'.
      * exists s. split; [exact Es|].
        replace (e + t * n2) with (e + t * (n2 mod 2) + (t + t) * (n2 / 2)); [exact Hs|].
        rewrite D at 3. ring.
Qed.
Lemma zk_pow_spec x a n : rep a x -> 0 <= n < 2 ^ 64 -> exists s, zk_pow a n = Ok s /\ rep s (Fr_pow x n).
Proof.
  intros A B. destruct (zk_pow_loop_spec x 63 n a one 0 1) as (s & E & [_ H]); auto using pw_self, pw_one.
  exists s. split; [exact E|]. now rewrite Z.mul_1_l in H.
Qed.

Lemma to_u64_arr_spec a x : rep a x ->
  Forall u64 (to_u64_arr a) /\ length (to_u64_arr a) = 4%nat /\ limbs_val (to_u64_arr a) = val x.
Proof.
  intros A. destruct (to_bytes_spec a x A) as [B V]. destruct (words_val4 _ B) as [(W0 & W1 & W2 & W3) S].
  unfold to_u64_arr. split; [repeat constructor; apply W0 || apply W1 || apply W2 || apply W3|].
  split; [reflexivity|]. rewrite <- V, <- S. unfold sval. cbn [limbs_val]. change (2 ^ 64) with W. ring.
Qed.

(** *** [divn]: right shift of the limbs *)
Lemma lor_disjoint hi lo n : 0 <= n -> 0 <= lo < 2 ^ n -> Z.lor lo (hi * 2 ^ n) = hi * 2 ^ n + lo.
Proof.
  intros N L. rewrite <- Z.shiftl_mul_pow2 by exact N.
  assert (D : Z.land lo (Z.shiftl hi n) = 0).
  { apply Z.bits_inj'. intros i Hi. rewrite Z.land_spec, Z.bits_0.
    destruct (Z_lt_ge_dec i n) as [H|H].
    - rewrite (Z.shiftl_spec_low hi n i) by lia. apply andb_false_r.
    - rewrite <- (Z.mod_small lo (2 ^ n)) by exact L. rewrite Z.mod_pow2_bits_high by lia. reflexivity. }
  rewrite <- Z.lxor_lor, <- Z.add_nocarry_lxor by exact D. ring.
Qed.

(** one limb: the new limb is (l + 2^64 h) / 2^n mod 2^64 *)
Lemma divn_limb l h n : u64 l -> u64 h -> 0 < n < 64 ->
  u64 (Z.lor (shr l n) (shl h (64 - n))) /\ Z.lor (shr l n) (shl h (64 - n)) = l / 2 ^ n + (h mod 2 ^ n) * 2 ^ (64 - n).
Proof.
  intros L H N. rewrite shr_div, shl_mod by lia.
  assert (E : (h * 2 ^ (64 - n)) mod W = (h mod 2 ^ n) * 2 ^ (64 - n)).
  { change W with (2 ^ 64). replace (2 ^ 64) with (2 ^ n * 2 ^ (64 - n)) by (rewrite <- Z.pow_add_r by lia; f_equal; lia).
    rewrite Z.mul_mod_distr_r by (apply Z.pow_nonzero; lia). reflexivity. }
  rewrite E. assert (P1 : 0 < 2 ^ n) by (apply Z.pow_pos_nonneg; lia). assert (P2 : 0 < 2 ^ (64 - n)) by (apply Z.pow_pos_nonneg; lia).
  assert (Q : W = 2 ^ n * 2 ^ (64 - n)) by (rewrite <- Z.pow_add_r by lia; replace (n + (64 - n)) with 64 by ring; reflexivity).
  unfold u64 in *.
  assert (B : 0 <= l / 2 ^ n < 2 ^ (64 - n)).
  { split; [apply Z.div_pos; lia|]. apply Z.div_lt_upper_bound; [lia|]. rewrite <- Q. apply L. }
  rewrite lor_disjoint by (try lia). rewrite Z.add_comm.
  assert (M := Z.mod_pos_bound h (2 ^ n) P1). split; [|reflexivity]. rewrite Q. nia.
Qed.

Lemma divn_words_spec l0 l1 l2 l3 : wf (Scalar l0 l1 l2 l3) ->
  wf (Scalar l1 l2 l3 0) /\ sval (Scalar l1 l2 l3 0) = sval (Scalar l0 l1 l2 l3) / W.
Proof.
  intros (A & B & C & D). split; [repeat split; try apply B; try apply C; try apply D; reflexivity || discriminate|].
  apply (Z.div_unique _ _ _ l0); [left; exact A|]. unfold sval. ring.
Qed.

Lemma divn_loop_spec f : forall n a, wf a -> 0 <= n < 64 * Z.of_nat f ->
  exists n' a', while_ f (fun st => 64 <=? fst st) divn_words (n, a) = Ok (n', a') /\
    0 <= n' < 64 /\ wf a' /\ forall m, sval a' / 2 ^ n' = m <-> sval a / 2 ^ n = m.
Proof.
  induction f; intros n a A N; [exfalso; lia|]. cbn [while_ fst].
  destruct (64 <=? n) eqn:E.
  - apply Z.leb_le in E. destruct a as [l0 l1 l2 l3]. cbn [divn_words bind].
    destruct (divn_words_spec l0 l1 l2 l3 A) as [A' V].
    destruct (IHf (n - 64) _ A') as (n' & a' & X & Y & Z & T); [lia|].
    exists n', a'. split; [exact X|]. split; [exact Y|]. split; [exact Z|]. intros m. rewrite T, V.
    rewrite Z.div_div by (try reflexivity; try discriminate; apply Z.pow_pos_nonneg; lia).
    replace (W * 2 ^ (n - 64)) with (2 ^ n); [reflexivity|]. change W with (2 ^ 64). rewrite <- Z.pow_add_r by lia. f_equal. lia.
  - apply Z.leb_gt in E. exists n, a. split; [reflexivity|]. split; [lia|]. split; [exact A|]. reflexivity.
Qed.

Lemma divn_spec a n : wf a -> 0 <= n -> exists s, divn a n = Ok s /\ wf s /\ sval s = sval a / 2 ^ n.
Proof.
  intros A N. unfold divn. destruct (256 <=? n) eqn:E.
  - apply Z.leb_le in E. exists (from_u64 0). split; [reflexivity|].
    replace (from_u64 0) with zero by (vm_compute; reflexivity).
    split; [repeat split; reflexivity || discriminate|]. symmetry.
    apply Z.div_small. assert (Ra := sval_range a A). split; [lia|].
    apply Z.lt_le_trans with (2 ^ 256); [apply Ra|]. apply Z.pow_le_mono_r; lia.
  - apply Z.leb_gt in E. destruct (divn_loop_spec 5 n a A) as (n' & a' & X & Y & Z & T); [lia|].
    rewrite X. cbn [bind]. destruct (0 <? n') eqn:P.
    + apply Z.ltb_lt in P. destruct a' as [l0 l1 l2 l3]. destruct Z as (A0 & A1 & A2 & A3).
      eexists. split; [reflexivity|].
      destruct (divn_limb l0 l1 n' A0 A1) as [U0 V0]; [lia|].
      destruct (divn_limb l1 l2 n' A1 A2) as [U1 V1]; [lia|].
      destruct (divn_limb l2 l3 n' A2 A3) as [U2 V2]; [lia|].
      assert (P1 : 0 < 2 ^ n') by (apply Z.pow_pos_nonneg; lia).
      assert (P2 : 0 < 2 ^ (64 - n')) by (apply Z.pow_pos_nonneg; lia).
      assert (Q : W = 2 ^ n' * 2 ^ (64 - n')) by (rewrite <- Z.pow_add_r by lia; replace (n' + (64 - n')) with 64 by ring; reflexivity).
      assert (U3 : u64 (Z.lor (shr l3 n') 0)).
      { rewrite Z.lor_0_r. rewrite shr_div by lia. unfold u64 in *. split; [apply Z.div_pos; lia|]. apply Z.div_lt_upper_bound; [lia|]. nia. }
      split; [repeat split; apply U0 || apply U1 || apply U2 || apply U3|].
      cbn [sval]. rewrite V0, V1, V2, Z.lor_0_r. rewrite shr_div by lia. symmetry. apply T.
      assert (D0 := Z.div_mod l0 (2 ^ n') ltac:(lia)). assert (D1 := Z.div_mod l1 (2 ^ n') ltac:(lia)).
      assert (D2 := Z.div_mod l2 (2 ^ n') ltac:(lia)). assert (D3 := Z.div_mod l3 (2 ^ n') ltac:(lia)).
      assert (M0 := Z.mod_pos_bound l0 (2 ^ n') P1).
      symmetry. apply (Z.div_unique _ _ _ (l0 mod 2 ^ n')); [left; exact M0|]. cbn [sval].
      set (d := 2 ^ n') in *. set (e := 2 ^ (64 - n')) in *.
      rewrite D0 at 1. rewrite D1 at 1. rewrite D2 at 1. rewrite D3 at 1. rewrite Q. ring.
    + apply Z.ltb_ge in P. assert (n' = 0) by lia. subst n'. exists a'. split; [reflexivity|]. split; [exact Z|].
      symmetry. apply T. change (2 ^ 0) with 1. apply Z.div_1_r.
Qed.
