(** * Group: integer multiples in an abelian group given on a subset *)
From Coq Require Import ZArith Lia List.
Import ListNotations.
Local Open Scope Z_scope.

Section AG.
Context {A : Type} (D : A -> Prop) (add : A -> A -> A) (neg : A -> A) (zero : A).
Hypothesis D0 : D zero.
Hypothesis Dadd : forall x y, D x -> D y -> D (add x y).
Hypothesis Dneg : forall x, D x -> D (neg x).
Hypothesis assoc : forall x y z, D x -> D y -> D z -> add x (add y z) = add (add x y) z.
Hypothesis comm : forall x y, D x -> D y -> add x y = add y x.
Hypothesis add0 : forall x, D x -> add zero x = x.
Hypothesis addneg : forall x, D x -> add x (neg x) = zero.

Definition zmul (n : Z) (x : A) : A :=
  match n with
  | Z0 => zero
  | Zpos q => Pos.iter (add x) zero q
  | Zneg q => neg (Pos.iter (add x) zero q)
  end.

Lemma add_0_r x : D x -> add x zero = x.
Proof. intros H. rewrite comm; auto. Qed.
Lemma neg_unique x y : D x -> D y -> add x y = zero -> y = neg x.
Proof.
  intros X Y H. rewrite <- (add0 y Y), <- (addneg x X), (comm x (neg x)) by auto.
  rewrite <- assoc by auto. rewrite H. apply add_0_r. auto.
Qed.
Lemma neg_zero : neg zero = zero.
Proof. symmetry. apply neg_unique; auto. Qed.
Lemma neg_neg x : D x -> neg (neg x) = x.
Proof. intros X. symmetry. apply neg_unique; auto. rewrite comm; auto. Qed.
Lemma neg_add x y : D x -> D y -> neg (add x y) = add (neg x) (neg y).
Proof.
  intros X Y. symmetry. apply neg_unique; auto.
  rewrite (comm (neg x)) by auto. rewrite assoc by auto. rewrite <- (assoc x y (neg y)) by auto.
  rewrite (addneg y Y), add_0_r by auto. auto.
Qed.
Lemma cancel x y z : D x -> D y -> D z -> add x y = add x z -> y = z.
Proof.
  intros X Y Z0 H. rewrite <- (add0 y Y), <- (add0 z Z0), <- (addneg x X), (comm x (neg x)) by auto.
  rewrite <- !assoc by auto. now rewrite H.
Qed.
Lemma add_swap x y z : D x -> D y -> D z -> add x (add y z) = add y (add x z).
Proof. intros. rewrite !assoc by auto. now rewrite (comm x y) by auto. Qed.

Lemma D_iter x q : D x -> D (Pos.iter (add x) zero q).
Proof. intros X. apply Pos.iter_invariant; auto. Qed.
Lemma D_zmul n x : D x -> D (zmul n x).
Proof. intros X. destruct n; cbn; auto using D_iter. Qed.

Lemma zmul_0 x : zmul 0 x = zero. Proof. reflexivity. Qed.
Lemma zmul_1 x : D x -> zmul 1 x = x. Proof. intros X. cbn. now apply add_0_r. Qed.
Lemma zmul_opp n x : D x -> zmul (- n) x = neg (zmul n x).
Proof.
  intros X. destruct n; cbn; [symmetry; apply neg_zero|reflexivity|].
  symmetry. apply neg_neg. now apply D_iter.
Qed.
Lemma zmul_pos_succ n x : 0 <= n -> D x -> zmul (n + 1) x = add x (zmul n x).
Proof.
  intros H X. destruct n; [reflexivity| |lia]. rewrite <- Pos2Z.inj_add. cbn [zmul].
  rewrite Pos.add_1_r. apply Pos.iter_succ.
Qed.
Lemma zmul_succ n x : D x -> zmul (n + 1) x = add x (zmul n x).
Proof.
  intros X. destruct (Z.le_gt_cases 0 n) as [H|H]; [now apply zmul_pos_succ|].
  (* n = - (m + 1) *)
  set (m := - n - 1). assert (M : 0 <= m) by lia. replace (n + 1) with (- m) by lia. replace n with (- (m + 1)) by lia.
  rewrite !zmul_opp, zmul_pos_succ by auto. rewrite neg_add, assoc by auto using D_zmul.
  rewrite addneg, add0; auto using D_zmul.
Qed.
Lemma zmul_add m n x : D x -> zmul (m + n) x = add (zmul m x) (zmul n x).
Proof.
  intros X. revert m. apply Z.peano_ind.
  - cbn [zmul Z.add]. symmetry. apply add0. now apply D_zmul.
  - intros m IH. replace (Z.succ m + n) with (m + n + 1) by lia. unfold Z.succ.
    rewrite !zmul_succ, IH by exact X. now rewrite assoc by auto using D_zmul.
  - intros m IH. apply (cancel x); auto using D_zmul. rewrite <- zmul_succ by exact X.
    rewrite assoc, <- zmul_succ by auto using D_zmul.
    replace (Z.pred m + n + 1) with (m + n) by lia. replace (Z.pred m + 1) with m by lia. exact IH.
Qed.
Lemma zmul_zero n : zmul n zero = zero.
Proof.
  revert n. apply Z.peano_ind; [reflexivity| |].
  - intros n IH. unfold Z.succ. rewrite zmul_succ, IH by auto. auto.
  - intros n IH. rewrite <- (add0 (zmul (Z.pred n) zero)) by auto using D_zmul. rewrite <- zmul_succ by auto.
    replace (Z.pred n + 1) with n by lia. exact IH.
Qed.
Lemma zmul_mul m n x : D x -> zmul (m * n) x = zmul m (zmul n x).
Proof.
  intros X. revert m. apply Z.peano_ind; [reflexivity| |].
  - intros m IH. replace (Z.succ m * n) with (n + m * n) by lia. unfold Z.succ.
    rewrite zmul_add, zmul_succ, IH by auto using D_zmul. reflexivity.
  - intros m IH. apply (cancel (zmul n x)); auto using D_zmul.
    rewrite <- zmul_add, <- zmul_succ by auto using D_zmul.
    replace (n + Z.pred m * n) with (m * n) by lia. replace (Z.pred m + 1) with m by lia. exact IH.
Qed.
Lemma zmul_add_r n x y : D x -> D y -> zmul n (add x y) = add (zmul n x) (zmul n y).
Proof.
  intros X Y. revert n.
  assert (P : forall n, 0 <= n -> zmul n (add x y) = add (zmul n x) (zmul n y)).
  { apply natlike_ind; [cbn; now rewrite add0|]. intros n Hn IH. unfold Z.succ.
    rewrite !zmul_succ, IH by auto.
    rewrite <- !assoc by auto using D_zmul. f_equal. apply add_swap; auto using D_zmul. }
  intros n. destruct (Z.le_gt_cases 0 n) as [H|H]; [now apply P|].
  replace n with (- - n) by lia. rewrite !(zmul_opp (- n)), P, neg_add by (auto using D_zmul; lia). reflexivity.
Qed.
Lemma zmul_neg_r n x : D x -> zmul n (neg x) = neg (zmul n x).
Proof.
  intros X. apply neg_unique; auto using D_zmul. rewrite <- zmul_add_r by auto. rewrite addneg by auto. apply zmul_zero.
Qed.
Lemma zmul_mod n m x : D x -> m <> 0 -> zmul m x = zero -> zmul (n mod m) x = zmul n x.
Proof.
  intros X Hm H. rewrite (Z_div_mod_eq_full n m) at 2. rewrite zmul_add, (Z.mul_comm m), zmul_mul, H, zmul_zero, add0 by auto using D_zmul.
  reflexivity.
Qed.

(** an element whose multiple by a prime vanishes has no smaller period, unless it is zero *)
Lemma zmul_prime_order q n x : D x -> Znumtheory.prime q -> zmul q x = zero -> zmul n x = zero -> x <> zero -> n mod q = 0.
Proof.
  intros X P Q N Z0. destruct (Z.eq_dec (n mod q) 0) as [E|E]; [exact E|exfalso]. apply Z0.
  assert (R : Znumtheory.rel_prime q n).
  { apply Znumtheory.prime_rel_prime; [exact P|]. intros H. apply E. apply Z.mod_divide; [|exact H].
    apply Znumtheory.prime_ge_2 in P. lia. }
  destruct (Znumtheory.rel_prime_bezout _ _ R) as [u v H].
  rewrite <- (zmul_1 x X), <- H, zmul_add, !zmul_mul, Q, N, !zmul_zero by auto using D_zmul. auto.
Qed.

(** double and add over a list of bits, most significant first *)
Fixpoint msb_val (acc : Z) (l : list bool) : Z :=
  match l with [] => acc | c :: t => msb_val (2 * acc + if c then 1 else 0) t end.
Lemma double_add_bits x l : D x -> forall acc n, acc = zmul n x ->
  fold_left (fun a (c : bool) => let a := add a a in if c then add a x else a) l acc = zmul (msb_val n l) x.
Proof.
  intros X. induction l as [|c l IH]; intros acc n ->; [reflexivity|]. cbn [fold_left msb_val].
  apply IH. cbv zeta. rewrite <- zmul_add by exact X. replace (n + n) with (2 * n) by lia.
  destruct c; [|now rewrite Z.add_0_r]. rewrite zmul_succ by exact X. apply comm; auto using D_zmul.
Qed.
End AG.
