(** * Proof_ZkMsmFr: the bucket method at the scalar field, for limbs and for field elements *)
From Coq Require Import List Arith Lia Bool ZArith NArith.
From Verif Require Import Base Fld Loops Zr Model_Scalar Spec_Scalar Proof_Scalar4 Proof_Scalar5 Model_ZkMsm Proof_ZkMsm.
Import ListNotations.

Lemma val_bound (x : Fr) : (0 <= val x < r)%Z.
Proof. apply val_range. Qed.

Lemma val_nat_lt (x : Fr) : Z.to_nat (val x) < 2 ^ 255.
Proof.
  assert (B := val_bound x). apply Nat2Z.inj_lt. rewrite Z2Nat.id by lia. rewrite Nat2Z.inj_pow.
  change (Z.of_nat 2) with 2%Z. change (Z.of_nat 255) with 255%Z.
  eapply Z.lt_trans; [apply B|]. reflexivity.
Qed.

Lemma val_nat_eq (x : Fr) n : (0 <= n < r)%Z -> Z.to_nat (val x) = Z.to_nat n <-> x = fr_of n.
Proof.
  intros Hn. assert (B := val_bound x). split.
  - intros H. apply val_inj. rewrite val_to_Fr. rewrite Z.mod_small by lia. lia.
  - intros ->. rewrite val_to_Fr. now rewrite Z.mod_small by lia.
Qed.

Lemma digit_nat v w c : (0 <= v)%Z ->
  Z.to_nat (v / 2 ^ Z.of_nat w mod 2 ^ Z.of_nat c) = Z.to_nat v / 2 ^ w mod 2 ^ c.
Proof.
  intros Hv. assert (P : forall k, (0 < 2 ^ Z.of_nat k)%Z) by (intros; apply Z.pow_pos_nonneg; lia).
  rewrite Z2Nat.inj_mod, Z2Nat.inj_div; try (apply Z.lt_le_incl; apply P); auto; [|apply Z.div_pos; auto].
  rewrite !Z2Nat.inj_pow by lia. rewrite !Nat2Z.id. reflexivity.
Qed.

Lemma nmul_val {M : gmod Fr} (x : Fr) (a : M) : nmul (Z.to_nat (val x)) a = smul x a.
Proof.
  unfold nmul. f_equal. rewrite fnat_Fr. rewrite Z2Nat.id by apply val_bound. apply val_inj. rewrite val_to_Fr.
  apply Z.mod_small. apply val_bound.
Qed.

Lemma lsum_combine {M : gmod Fr} {A} (f : A -> M -> M) (d : A) (l : list A) : forall (l' : list M),
  lsum (fun sp => f (fst sp) (snd sp)) (combine l l') = gsum (Nat.min (length l) (length l')) (fun i => f (nth i l d) (nth i l' g0)).
Proof.
  induction l as [|a l IH]; intros l'; [reflexivity|]. destruct l' as [|b l']; [reflexivity|].
  cbn [combine length Nat.min]. rewrite gsum_S_l. cbn [lsum fold_right fst snd nth]. f_equal. apply IH.
Qed.

Theorem msm_fr_spec {M : gmod Fr} (points : list M) (scalars : list Fr) : (N.of_nat (length scalars) < 2 ^ 64)%N ->
  msm_fr points scalars =
  Ok (gsum (Nat.min (length scalars) (length points)) (fun i => smul (nth i scalars f0) (nth i points g0))).
Proof.
  intros HL. unfold msm_fr. rewrite (msm_gen _ _ _ (fun x : Fr => Z.to_nat (val x))); auto.
  - f_equal. rewrite (lsum_combine (fun (x : Fr) a => nmul (Z.to_nat (val x)) a) f0). apply gsum_ext. intros i _. apply nmul_val.
  - apply Forall_forall. intros x _. split; [apply val_nat_lt|]. rewrite !feqb_spec. split; [|split].
    + rewrite <- (val_nat_eq x 0) by (split; [lia|reflexivity]). reflexivity.
    + rewrite <- (val_nat_eq x 1) by (split; [lia|reflexivity]). reflexivity.
    + intros w c Hc Hw. unfold fr_digit. f_equal. apply digit_nat. apply val_bound.
Qed.

(** ** limbs *)
Definition limbs_int (s : scalar) : Z := let '(Scalar l0 l1 l2 l3) := s in Tables.limbs_val [l0; l1; l2; l3].
Lemma limbs_int_eq s n : limbs s n -> limbs_int s = n.
Proof. destruct s. intros (_ & _ & _ & _ & ->). reflexivity. Qed.

Lemma limb0_mod s n c : limbs s n -> c <= 64 -> match s with Scalar l0 _ _ _ => (l0 mod 2 ^ Z.of_nat c = n mod 2 ^ Z.of_nat c)%Z end.
Proof.
  destruct s as [l0 l1 l2 l3]. intros (_ & _ & _ & _ & ->) Hc.
  assert (E : (2 ^ 64 = 2 ^ (64 - Z.of_nat c) * 2 ^ Z.of_nat c)%Z) by (rewrite <- Z.pow_add_r by lia; f_equal; lia).
  unfold Tables.limbs_val. cbn [fold_right].
  match goal with |- _ = (?v mod _)%Z => replace v with (l0 + (l1 + 2 ^ 64 * (l2 + 2 ^ 64 * l3)) * 2 ^ (64 - Z.of_nat c) * 2 ^ Z.of_nat c)%Z end.
  - now rewrite Z.mod_add by (apply Z.pow_nonzero; lia).
  - rewrite <- Z.mul_assoc, <- E. lia.
Qed.

Theorem msm_limbs_spec {M : gmod Fr} (points : list M) (scalars : list scalar) (xs : list Fr) :
  Forall2 represents scalars xs -> (N.of_nat (length scalars) < 2 ^ 64)%N ->
  msm_limbs points scalars =
  Ok (gsum (Nat.min (length xs) (length points)) (fun i => smul (nth i xs f0) (nth i points g0))).
Proof.
  intros H HL. unfold msm_limbs. rewrite (msm_gen _ _ _ (fun s => Z.to_nat (limbs_int (reduce s)))); auto.
  - f_equal. rewrite <- (lsum_combine (fun (x : Fr) a => smul x a) f0). clear HL. revert points.
    induction H as [|s x scalars xs R H IH]; intros points; [reflexivity|]. destruct points as [|p points]; [reflexivity|].
    cbn [combine lsum fold_right fst snd]. f_equal; [|apply IH].
    rewrite (limbs_int_eq _ _ (C49_reduce_proof s x R)). apply nmul_val.
  - induction H as [|s x scalars xs R H IH]; constructor.
    2:{ apply IH. cbn [length] in HL. lia. }
    assert (RL := C49_reduce_proof s x R). rewrite (limbs_int_eq _ _ RL). split; [apply val_nat_lt|].
    destruct (C41_operations_proof s s x x R R) as (_ & _ & _ & _ & _ & _ & Z0 & Z1 & _).
    destruct (C41_operations_proof s zero x f0 R Z0) as (_ & _ & _ & _ & _ & _ & _ & _ & E0).
    destruct (C41_operations_proof s one x f1 R Z1) as (_ & _ & _ & _ & _ & _ & _ & _ & E1).
    split; [|split].
    + unfold Model_Scalar.is_zero. rewrite E0. rewrite <- (val_nat_eq x 0) by (split; [lia|reflexivity]). reflexivity.
    + unfold Model_Scalar.is_one. rewrite E1. rewrite <- (val_nat_eq x 1) by (split; [lia|reflexivity]). reflexivity.
    + intros w c Hc Hw. unfold limb_digit. destruct (C49_divn_proof _ _ (Z.of_nat w) RL ltac:(lia)) as (t & -> & Lt). cbn [bind].
      assert (Q := limb0_mod t _ c Lt ltac:(lia)). destruct t as [l0 l1 l2 l3]. rewrite Q. f_equal. apply digit_nat. apply val_bound.
Qed.
