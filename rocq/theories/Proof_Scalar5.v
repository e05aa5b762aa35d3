(** * Proof_Scalar5: the scalar results in terms of Spec_Scalar *)
From Coq Require Import ZArith Lia List Bool Ring Field.
From Verif Require Import Base Fld Fermat Tables Zr Model_Scalar Spec_Scalar Proof_Scalar Proof_Scalar2 Proof_Scalar3 Proof_Scalar4.
Import ListNotations.
Local Open Scope Z_scope.

Add Field Fr_field5 : (fld_field Fr).

Lemma C41_representation_proof :
  (forall s n, limbs s n -> n < r -> exists x, represents s x /\ forall y, represents s y -> y = x) /\
  (forall x, exists s, represents s x /\ forall t, represents t x -> t = s).
Proof.
  split.
  - intros s n L H. apply wf_limbs in L as [Wf E].
    assert (C : canonical s) by (split; [exact Wf|lia]).
    exists (fdiv (fr_of (sval s)) RR). rewrite represents_rep. split; [now apply canonical_rep|].
    intros y Y. apply represents_rep in Y. apply (rep_unique s); [exact Y|now apply canonical_rep].
  - intros x. set (n := (val x * 2 ^ 256) mod r).
    assert (N : 0 <= n < 2 ^ 256).
    { assert (B := Z.mod_pos_bound (val x * 2 ^ 256) r r_pos). split; [apply B|]. apply Z.lt_trans with r; [apply B|reflexivity]. }
    set (s := Scalar (n mod W) (n / W mod W) (n / W / W mod W) (n / W / W / W)).
    assert (S : limbs s n).
    { apply wf_limbs. assert (PW : 0 < W) by reflexivity. assert (W0 : W <> 0) by discriminate. split.
      - unfold s. repeat split; try (apply Z.mod_pos_bound; exact PW).
        + repeat apply Z.div_pos; try exact PW. apply N.
        + rewrite !Z.div_div by (try exact PW; discriminate). apply Z.div_lt_upper_bound; [reflexivity|]. apply N.
      - unfold s, sval. assert (D : forall m, m mod W + W * (m / W) = m).
        { intros m. rewrite (Z.div_mod m W W0) at 3. ring. }
        now rewrite !D. }
    exists s. split; [exact S|]. intros t T. apply represents_rep in T. apply (rep_inj t s x T). now apply represents_rep.
Qed.

Lemma C41_operations_proof a b x y : represents a x -> represents b y ->
  represents (add a b) (fadd x y) /\ represents (sub a b) (fsub x y) /\ represents (mul a b) (fmul x y) /\
  represents (neg a) (fneg x) /\ represents (double a) (fadd x x) /\ represents (square a) (fmul x x) /\
  represents zero f0 /\ represents one f1 /\ (ct_eq a b = true <-> x = y).
Proof.
  rewrite !represents_rep. intros A B.
  split; [now apply rep_add|]. split; [now apply rep_sub|]. split; [now apply rep_mul|]. split; [now apply rep_neg|].
  split; [now apply rep_add|]. split; [now apply rep_square|]. split; [exact rep_zero|]. split; [exact rep_one|].
  exact (ct_eq_rep a b x y A B).
Qed.

Lemma C42_encode_proof a x : represents a x ->
  is_bytes 32 (to_bytes a) /\ bytes_val (to_bytes a) = val x /\ from_bytes (to_bytes a) = Some a.
Proof.
  rewrite represents_rep. intros A. destruct (to_bytes_spec a x A) as [B V]. split; [exact B|]. split; [exact V|].
  destruct (from_bytes_spec _ B) as [S _]. destruct S as (s & -> & H); [rewrite V; apply val_range|].
  rewrite V, fr_of_val in H. f_equal. exact (rep_inj s a x H A).
Qed.
Lemma C42_decode_proof bs : is_bytes 32 bs ->
  (bytes_val bs < r -> exists s, from_bytes bs = Some s /\ represents s (fr_of (bytes_val bs)) /\ to_bytes s = bs) /\
  (r <= bytes_val bs -> from_bytes bs = None).
Proof.
  intros B. destruct (from_bytes_spec bs B) as [S N]. split; [|exact N]. intros L.
  destruct (S L) as (s & E & H). exists s. split; [exact E|]. split; [now apply represents_rep|].
  destruct (to_bytes_spec s _ H) as [B' V]. destruct B as [Bl Bf], B' as [Bl' Bf'].
  apply bytes_val_inj; auto; [congruence|]. rewrite V, val_fr_of. apply Z.mod_small.
  split; [apply bytes_val_range, Bf|exact L].
Qed.
Lemma C42_wide_proof bs : is_bytes 64 bs -> represents (from_bytes_wide bs) (fr_of (bytes_val bs)).
Proof. intros B. rewrite represents_rep. exact (from_bytes_wide_spec bs B). Qed.

Lemma u64_2_64 l : 0 <= l < 2 ^ 64 -> u64 l. Proof. auto. Qed.
Lemma C42_words_proof l0 l1 l2 l3 n : limbs (Scalar l0 l1 l2 l3) n ->
  represents (from_raw l0 l1 l2 l3) (fr_of n) /\ represents (from_u64 l0) (fr_of l0).
Proof.
  intros L. assert (L' := L). apply wf_limbs in L as [Wf E]. split; apply represents_rep.
  - unfold from_raw. rewrite <- E. now apply rep_mul_R2.
  - unfold from_u64. assert (Wf' : wf (Scalar l0 0 0 0)) by (repeat split; apply Wf || reflexivity || discriminate).
    assert (H := rep_mul_R2 _ Wf'). replace (sval (Scalar l0 0 0 0)) with l0 in H; [exact H|]. unfold sval. ring.
Qed.
Lemma C42_limbs_proof a x : represents a x ->
  exists l0 l1 l2 l3, to_u64_arr a = [l0; l1; l2; l3] /\ limbs (Scalar l0 l1 l2 l3) (val x).
Proof.
  rewrite represents_rep. intros A. destruct (to_u64_arr_spec a x A) as (F & L & V).
  destruct (to_u64_arr a) as [|l0 [|l1 [|l2 [|l3 [|]]]]]; try discriminate.
  exists l0, l1, l2, l3. split; [reflexivity|].
  inversion_clear F as [|? ? U0 F1]. inversion_clear F1 as [|? ? U1 F2]. inversion_clear F2 as [|? ? U2 F3]. inversion_clear F3 as [|? ? U3 F4].
  unfold limbs. split; [exact U0|]. split; [exact U1|]. split; [exact U2|]. split; [exact U3|]. now rewrite V.
Qed.

Lemma C43_invert_proof a x : represents a x ->
  (x = f0 -> invert a = None /\ zk_inverse a = Panic) /\
  (x <> f0 -> exists t, invert a = Some t /\ zk_inverse a = Ok t /\ represents t (finv x) /\ fmul x (finv x) = f1).
Proof.
  rewrite represents_rep. intros A. destruct (invert_spec a x A) as [N S]. unfold zk_inverse. split; intros H.
  - rewrite (N H). auto.
  - destruct (S H) as (t & E & T). exists t. rewrite E. split; [reflexivity|]. split; [reflexivity|].
    split; [now apply represents_rep|]. field. exact H.
Qed.
Lemma C43_div_proof a b x y : represents a x -> represents b y ->
  exists t, zk_div a b = Ok t /\ (y <> f0 -> represents t (fdiv x y)) /\ (y = f0 -> represents t f0).
Proof.
  rewrite !represents_rep. intros A B. destruct (zk_div_spec a b x y A B) as (t & E & T).
  exists t. split; [exact E|]. rewrite !represents_rep. split; [auto|]. intros ->.
  unfold fdiv in T. rewrite finv0 in T. now replace (fmul x f0) with (f0 : Fr) in T by ring.
Qed.
Lemma C43_pow_proof a x e0 e1 e2 e3 e : represents a x -> limbs (Scalar e0 e1 e2 e3) e ->
  represents (pow a [e0; e1; e2; e3]) (Fr_pow x e) /\ represents (pow_vartime a [e0; e1; e2; e3]) (Fr_pow x e).
Proof.
  rewrite !represents_rep. intros A (U0 & U1 & U2 & U3 & ->).
  assert (F : Forall u64 [e0; e1; e2; e3]) by (repeat constructor; apply U0 || apply U1 || apply U2 || apply U3).
  split; [apply (pow_spec x a _ A F)|apply (pow_vartime_spec x a _ A F)].
Qed.
Lemma C04_zk_proof a x n : represents a x -> 0 <= n < 2 ^ 64 ->
  exists s, zk_pow a n = Ok s /\ represents s (fpow x (Z.to_nat n)).
Proof.
  rewrite represents_rep. intros A N. destruct (zk_pow_spec x a n A N) as (s & E & H). exists s. split; [exact E|].
  apply represents_rep. replace (fpow x (Z.to_nat n)) with (Fr_pow x n); [exact H|].
  rewrite <- (fr_of_val x) at 2. rewrite fpow_Fr, Z2Nat.id by lia. reflexivity.
Qed.

Lemma C48_proof a y : represents a y ->
  ((exists x, fmul x x = y) -> exists s x, sqrt a = Some s /\ represents s x /\ fmul x x = y) /\
  (~ (exists x, fmul x x = y) -> sqrt a = None).
Proof.
  rewrite represents_rep. intros A. destruct (sqrt_spec a y A) as [S N]. split; [|exact N].
  intros H. destruct (S H) as (s & x & E & X & Q). exists s, x. rewrite represents_rep. auto.
Qed.

Lemma C49_divn_proof a m n : limbs a m -> 0 <= n -> exists s, divn a n = Ok s /\ limbs s (m / 2 ^ n).
Proof.
  intros L N. apply wf_limbs in L as [Wf E]. destruct (divn_spec a n Wf N) as (s & D & Ws & V).
  exists s. split; [exact D|]. apply wf_limbs. split; [exact Ws|]. now rewrite V, E.
Qed.
Lemma C49_reduce_proof a x : represents a x -> limbs (reduce a) (val x).
Proof.
  rewrite represents_rep. intros A. destruct (reduce_spec a x A) as [[Wf _] V]. now apply wf_limbs.
Qed.

Lemma C27_zk_proof a x : represents a x -> is_null a = false /\ is_null null = true /\ forall y, ~ represents null y.
Proof.
  intros A. assert (N : forall y, ~ represents null y).
  { intros y Y. apply represents_rep in Y as [[_ L] _]. discriminate L. }
  split; [|split; [reflexivity|exact N]].
  unfold is_null. destruct (ct_eq a null) eqn:E; [|reflexivity]. apply ct_eq_spec in E. subst a. destruct (N x A).
Qed.
