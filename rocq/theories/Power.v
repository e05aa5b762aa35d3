(** * Power: integer powers in a field, and the p-th power in characteristic p *)
From Coq Require Import ZArith List Bool Lia Znumtheory Ring Field.
From Verif Require Import Base Fld.
Import ListNotations.

(** [x^e] for an integer [e]; negative powers are powers of the inverse *)
Definition zpow {K : fld} (x : K) (e : Z) : K :=
  match e with
  | Z0 => f1
  | Zpos q => Pos.iter_op fmul q x
  | Zneg q => Pos.iter_op fmul q (finv x)
  end.

Section Zpow.
Context {K : fld}.
Add Field Kz : (fld_field K).
Local Open Scope fld_scope.
Implicit Types x y : K.

Lemma pos_pow q x : Pos.iter_op fmul q x = x ^ Pos.to_nat q.
Proof.
  induction q using Pos.peano_ind.
  - change (x = x * 1). ring.
  - rewrite Pos.iter_op_succ by (intros; ring). rewrite IHq, Pos2Nat.inj_succ. reflexivity.
Qed.
Lemma zpow_of_nat x n : zpow x (Z.of_nat n) = x ^ n.
Proof. destruct n as [|n]; [reflexivity|]. cbn [Z.of_nat zpow]. rewrite pos_pow, SuccNat2Pos.id_succ. reflexivity. Qed.
Lemma zpow_nat x e : (0 <= e)%Z -> zpow x e = x ^ Z.to_nat e.
Proof. intros H. rewrite <- zpow_of_nat, Z2Nat.id by exact H. reflexivity. Qed.
Lemma zpow_0 x : zpow x 0 = 1. Proof. reflexivity. Qed.
Lemma zpow_1 x : zpow x 1 = x. Proof. reflexivity. Qed.
Lemma zpow_opp x e : zpow x (- e) = zpow (finv x) e.
Proof. destruct e; cbn [zpow Z.opp]; [reflexivity|reflexivity|]. rewrite finv_involutive. reflexivity. Qed.
Lemma zpow_inv x e : zpow (finv x) e = finv (zpow x e).
Proof.
  destruct e; cbn [zpow].
  - symmetry. apply finv1.
  - rewrite !pos_pow. apply fpow_inv.
  - rewrite !pos_pow. rewrite <- fpow_inv. reflexivity.
Qed.
Lemma zpow_add_nn x a b : (0 <= a)%Z -> (0 <= b)%Z -> zpow x (a + b) = zpow x a * zpow x b.
Proof. intros A B. rewrite !zpow_nat by lia. rewrite Z2Nat.inj_add by assumption. apply fpow_add. Qed.
Lemma zpow_succ_nn x a : (0 <= a)%Z -> zpow x (a + 1) = x * zpow x a.
Proof. intros A. rewrite zpow_add_nn by lia. rewrite zpow_1. ring. Qed.
Lemma zpow_nonzero x e : x <> 0 -> zpow x e <> 0.
Proof.
  intros N. destruct e; cbn [zpow]; [apply f1_neq_0| |]; rewrite pos_pow; apply fpow_neq_0; [exact N|].
  apply finv_neq_0. exact N.
Qed.
Lemma zpow_succ x a : x <> 0 -> zpow x (a + 1) = x * zpow x a.
Proof.
  intros N. destruct (Z_le_gt_dec 0 a) as [L|G]; [apply zpow_succ_nn; exact L|].
  assert (Ha : exists m, (0 <= m)%Z /\ a = (- (m + 1))%Z) by (exists (- (a + 1))%Z; lia). destruct Ha as (m & M & ->).
  replace (- (m + 1) + 1)%Z with (- m)%Z by ring. rewrite !zpow_opp, !zpow_inv, zpow_succ_nn by exact M.
  field. split; [apply zpow_nonzero; exact N|exact N].
Qed.
Lemma zpow_add x a b : x <> 0 -> zpow x (a + b) = zpow x a * zpow x b.
Proof.
  intros N. revert a. 
  assert (H : forall b, (0 <= b)%Z -> forall a, zpow x (a + b) = zpow x a * zpow x b).
  { apply (natlike_ind (fun b => forall a, zpow x (a + b) = zpow x a * zpow x b)).
    - intros a. rewrite Z.add_0_r, zpow_0. ring.
    - intros c C IH a. replace (a + Z.succ c)%Z with (a + c + 1)%Z by ring.
      replace (Z.succ c) with (c + 1)%Z by ring. rewrite !zpow_succ by exact N. rewrite IH. ring. }
  intros a. destruct (Z_le_gt_dec 0 b) as [L|G]; [apply H; exact L|].
  pose proof (H (- b)%Z ltac:(lia) (a + b)%Z) as E. replace (a + b + - b)%Z with a in E by ring.
  rewrite E, zpow_opp, zpow_inv. field. apply zpow_nonzero. exact N.
Qed.
Lemma zpow_mul_nn x a b : (0 <= a)%Z -> (0 <= b)%Z -> zpow x (a * b) = zpow (zpow x a) b.
Proof.
  intros A B. rewrite (zpow_nat x (a * b)) by (apply Z.mul_nonneg_nonneg; assumption).
  rewrite (zpow_nat (zpow x a)) by exact B. rewrite (zpow_nat x a) by exact A. rewrite Z2Nat.inj_mul by assumption. apply fpow_mul.
Qed.
Lemma zpow_mul x a b : x <> 0 -> zpow x (a * b) = zpow (zpow x a) b.
Proof.
  intros N. 
  assert (H : forall b, (0 <= b)%Z -> zpow x (a * b) = zpow (zpow x a) b).
  { apply (natlike_ind (fun b => zpow x (a * b) = zpow (zpow x a) b)).
    - rewrite Z.mul_0_r. reflexivity.
    - intros c C IH. replace (Z.succ c) with (c + 1)%Z by ring.
      rewrite (zpow_succ (zpow x a)) by (apply zpow_nonzero; exact N). rewrite <- IH.
      rewrite <- zpow_add by exact N. f_equal. ring. }
  destruct (Z_le_gt_dec 0 b) as [L|G]; [apply H; exact L|].
  replace b with (- - b)%Z by ring. rewrite (zpow_opp (zpow x a)), zpow_inv, <- H by lia.
  rewrite <- zpow_inv, <- zpow_opp. f_equal. ring.
Qed.
Lemma zpow_mul_base x y e : zpow (x * y) e = zpow x e * zpow y e.
Proof.
  destruct e; cbn [zpow]; [ring| |]; rewrite !pos_pow; [apply fpow_mul_base|].
  rewrite finv_mul. apply fpow_mul_base.
Qed.
Lemma zpow_1_l e : zpow 1 e = (1 : K).
Proof. destruct e; cbn [zpow]; [reflexivity| |]; rewrite pos_pow; rewrite ?finv1; apply fpow_1_l. Qed.
Lemma zpow_0_l e : (0 < e)%Z -> zpow 0 e = (0 : K).
Proof. intros H. rewrite zpow_nat by lia. apply fpow_0_l. lia. Qed.
Lemma zpow_2 x : zpow x 2 = x * x.
Proof. reflexivity. Qed.
End Zpow.

Section Binom.
Local Open Scope nat_scope.
(** ** binomial coefficients *)
Fixpoint binom (n k : nat) : nat :=
  match n, k with
  | _, O => 1
  | O, S _ => 0
  | S n', S k' => binom n' k' + binom n' k
  end.
Lemma binom_0 n : binom n 0 = 1. Proof. destruct n; reflexivity. Qed.
Lemma binom_S n k : binom (S n) (S k) = binom n k + binom n (S k). Proof. reflexivity. Qed.
Lemma binom_gt n : forall k, n < k -> binom n k = 0.
Proof.
  induction n as [|n IH]; intros k H; destruct k as [|k]; try lia; [reflexivity|].
  rewrite binom_S, !IH by lia. reflexivity.
Qed.
Lemma binom_diag n : binom n n = 1.
Proof. induction n as [|n IH]; [reflexivity|]. rewrite binom_S, IH, binom_gt by lia. reflexivity. Qed.
Lemma binom_absorb n : forall k, S k * binom (S n) (S k) = S n * binom n k.
Proof.
  induction n as [|n IH]; intros k.
  - destruct k as [|k]; [reflexivity|]. cbn. lia.
  - rewrite binom_S. destruct k as [|k].
    + rewrite !binom_0. specialize (IH 0%nat). rewrite binom_0 in IH. lia.
    + rewrite Nat.mul_add_distr_l.
      assert (E : S (S k) * binom (S n) (S k) = S k * binom (S n) (S k) + binom (S n) (S k)) by lia.
      rewrite E, (IH k), (IH (S k)).
      rewrite (binom_S n k). lia.
Qed.
Lemma binom_prime n k : prime (Z.of_nat n) -> (0 < k < n)%nat -> (Z.of_nat n | Z.of_nat (binom n k)).
Proof.
  intros PR H. destruct n as [|n]; [lia|]. destruct k as [|k]; [lia|].
  pose proof (binom_absorb n k) as E. apply (f_equal Z.of_nat) in E. rewrite !Nat2Z.inj_mul in E.
  apply (Gauss _ (Z.of_nat (S k))).
  - exists (Z.of_nat (binom n k)). rewrite E. ring.
  - apply prime_rel_prime; [exact PR|]. intros D. apply Z.divide_pos_le in D; lia.
Qed.

End Binom.

Section Freshman.
Context {K : fld}.
Add Field Kfr : (fld_field K).
Local Open Scope fld_scope.
Lemma binomial (x y : K) n : (x + y) ^ n = sum (S n) (fun k => fnat (binom n k) * (x ^ k * y ^ (n - k))).
Proof.
  induction n as [|n IH].
  - cbn [sum fpow binom Nat.sub]. rewrite fnat_1. ring.
  - rewrite fpow_S, IH.
    set (t := fun k => fnat (binom n k) * (x ^ k * y ^ (n - k))).
    transitivity (x * sum (S n) t + y * sum (S n) t); [ring|].
    rewrite <- !sum_mul_l.
    rewrite (sum_S_l (S n) (fun k => fnat (binom (S n) k) * (x ^ k * y ^ (S n - k)))).
    rewrite (sum_ext (S n) (fun i => fnat (binom (S n) (S i)) * (x ^ S i * y ^ (S n - S i)))
      (fun i => x * t i + fnat (binom n (S i)) * (x ^ S i * y ^ (n - i)))).
    2:{ intros i Hi. unfold t. rewrite binom_S, fnat_add. replace (S n - S i)%nat with (n - i)%nat by lia.
        rewrite fpow_S. ring. }
    rewrite sum_add.
    rewrite (sum_S_l n (fun i => y * t i)).
    assert (E : sum (S n) (fun i => fnat (binom n (S i)) * (x ^ S i * y ^ (n - i)))
      = sum n (fun i => y * t (S i))).
    { cbn [sum]. rewrite (binom_gt n (S n)) by lia.
      rewrite (sum_ext n (fun i => fnat (binom n (S i)) * (x ^ S i * y ^ (n - i))) (fun i => y * t (S i))).
      - cbn [fnat]. ring.
      - intros i Hi. unfold t. replace (n - i)%nat with (S (n - S i)) by lia. rewrite (fpow_S y). ring. }
    rewrite E. unfold t at 2. rewrite !binom_0. cbn [fpow]. rewrite Nat.sub_0_r. cbn [Nat.sub]. rewrite (fpow_S y). ring.
Qed.
Context (n : nat) (PR : prime (Z.of_nat n)) (CH : fnat n = (0 : K)).
Theorem freshman (x y : K) : (x + y) ^ n = x ^ n + y ^ n.
Proof.
  pose proof (prime_ge_2 _ PR) as G. rewrite binomial. cbn [sum].
  destruct n as [|m] eqn:En; [lia|]. rewrite sum_S_l, sum_0.
  - rewrite binom_0, binom_diag, Nat.sub_diag, Nat.sub_0_r, fnat_1. cbn [fpow]. ring.
  - intros i Hi. destruct (binom_prime (S m) (S i) PR ltac:(lia)) as (c & E).
    assert (C : (0 <= c)%Z) by nia.
    replace (binom (S m) (S i)) with (Z.to_nat c * S m)%nat by nia.
    rewrite fnat_mul, CH. ring.
Qed.
Lemma pow_neg (x : K) : (- x) ^ n = - x ^ n.
Proof.
  assert (E : (x + - x) ^ n = x ^ n + (- x) ^ n) by apply freshman.
  replace (x + - x) with (0 : K) in E by ring. rewrite fpow_0_l in E by (pose proof (prime_ge_2 _ PR); lia).
  transitivity (x ^ n + (- x) ^ n - x ^ n); [ring|]. rewrite <- E. ring.
Qed.
End Freshman.
