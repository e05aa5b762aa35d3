(** * Fld: fields, powers, sums, modules over a field

    The field stands for the scalar field of BLS12-381 as implemented by the
    external blst library behind [blst-from-scratch/src/types/fr.rs:8-217]
    (add, sub, mul, negate, inverse, eucl_inverse, equals, is_zero, is_one).
    blst's inverse of zero is zero ([fr.rs:122-147]).  The module stands for the
    groups behind [types/g1.rs:41-115] and [types/g2.rs:13-89]. *)
From Coq Require Import List Arith Lia Bool Field Ring.
From Verif Require Import Base.
Import ListNotations.

Record fld := mkFld {
  car :> Type;
  f0 : car; f1 : car;
  fadd : car -> car -> car;
  fmul : car -> car -> car;
  fsub : car -> car -> car;
  fneg : car -> car;
  finv : car -> car;
  feqb : car -> car -> bool;
  fld_th : field_theory f0 f1 fadd fmul fsub fneg (fun x y => fmul x (finv y)) finv (@eq car);
  finv0 : finv f0 = f0;
  feqb_spec : forall x y, feqb x y = true <-> x = y
}.
Arguments f0 {_}. Arguments f1 {_}.
Arguments fadd {_} _ _. Arguments fmul {_} _ _. Arguments fsub {_} _ _.
Arguments fneg {_} _. Arguments finv {_} _. Arguments feqb {_} _ _.

Declare Scope fld_scope.
Delimit Scope fld_scope with F.
Bind Scope fld_scope with car.
Notation "0" := f0 : fld_scope.
Notation "1" := f1 : fld_scope.
Infix "+" := fadd : fld_scope.
Infix "*" := fmul : fld_scope.
Infix "-" := fsub : fld_scope.
Notation "- x" := (fneg x) : fld_scope.

(** [FsFr::div], types/fr.rs:169-174: multiplication by the inverse. *)
Definition fdiv {K : fld} (x y : K) : K := fmul x (finv y).
Infix "/" := fdiv : fld_scope.
Arguments fdiv {_} _%F _%F.

Lemma fld_field (K : fld) : field_theory (@f0 K) f1 fadd fmul fsub fneg fdiv finv eq.
Proof. exact (fld_th K). Qed.

(** [x^n] by repeated multiplication: the specification of powers. *)
Fixpoint fpow {K : fld} (x : K) (n : nat) : K :=
  match n with O => 1%F | S n' => (x * fpow x n')%F end.
Infix "^" := fpow : fld_scope.

(** the field element of a natural number ([Fr::from_u64]) *)
Fixpoint fnat {K : fld} (n : nat) : K :=
  match n with O => 0%F | S n' => (1 + fnat n')%F end.

Fixpoint sum {K : fld} (n : nat) (f : nat -> K) : K :=
  match n with O => 0%F | S n' => (sum n' f + f n')%F end.

Section FieldFacts.
Context {K : fld}.
Add Field Kf1 : (fld_field K).
Local Open Scope fld_scope.
Implicit Types x y z : K.

Lemma f1_neq_0 : (1:K) <> 0.
Proof. exact (F_1_neq_0 (fld_field K)). Qed.

Lemma feqb_refl x : feqb x x = true.
Proof. now apply feqb_spec. Qed.

Lemma feqb_false x y : feqb x y = false <-> x <> y.
Proof.
  rewrite <- (feqb_spec K x y). destruct (feqb x y); split; congruence.
Qed.

Lemma fdec x y : {x = y} + {x <> y}.
Proof.
  destruct (feqb x y) eqn:E; [left; now apply feqb_spec | right; now apply feqb_false].
Qed.

Lemma finv_l x : x <> 0 -> finv x * x = 1.
Proof. intros. apply (Finv_l (fld_field K)); auto. Qed.

Lemma finv_r x : x <> 0 -> x * finv x = 1.
Proof. intros. field. auto. Qed.

Lemma fmul_eq_0 x y : x * y = 0 -> x = 0 \/ y = 0.
Proof.
  intros H. destruct (fdec x 0) as [|N]; auto. right.
  transitivity (finv x * (x * y)).
  - field. auto.
  - rewrite H. ring.
Qed.

Lemma fmul_neq_0 x y : x <> 0 -> y <> 0 -> x * y <> 0.
Proof. intros A B C. destruct (fmul_eq_0 _ _ C); auto. Qed.

Lemma finv_neq_0 x : x <> 0 -> finv x <> 0.
Proof.
  intros A B. apply f1_neq_0. rewrite <- (finv_l x A), B. ring.
Qed.

Lemma fmul_cancel_l x y z : x <> 0 -> x * y = x * z -> y = z.
Proof.
  intros N H. transitivity (finv x * (x * y)).
  - field; auto.
  - rewrite H. field; auto.
Qed.

Lemma fsub_eq_0 x y : x - y = 0 -> x = y.
Proof. intros H. transitivity (x - y + y). ring. rewrite H. ring. Qed.

Lemma finv_unique x y : x * y = 1 -> finv x = y.
Proof.
  intros H. assert (x <> 0). { intros ->. apply f1_neq_0. rewrite <- H. ring. }
  apply (fmul_cancel_l x); auto. rewrite H. now apply finv_r.
Qed.

Lemma finv_involutive x : finv (finv x) = x.
Proof.
  destruct (fdec x 0) as [->|N].
  - now rewrite !finv0.
  - apply finv_unique. now apply finv_l.
Qed.

Lemma finv_mul x y : finv (x * y) = finv x * finv y.
Proof.
  destruct (fdec x 0) as [->|Nx].
  { replace (0 * y) with (0:K) by ring. rewrite finv0. ring. }
  destruct (fdec y 0) as [->|Ny].
  { replace (x * 0) with (0:K) by ring. rewrite finv0. ring. }
  apply finv_unique. field. auto.
Qed.

Lemma finv1 : finv 1 = (1:K).
Proof. apply finv_unique. ring. Qed.

(** ** powers *)
Lemma fpow_0 x : x ^ 0 = 1.
Proof. reflexivity. Qed.
Lemma fpow_S x n : x ^ (S n) = x * x ^ n.
Proof. reflexivity. Qed.
Lemma fpow_1 x : x ^ 1 = x.
Proof. simpl. ring. Qed.
Lemma fpow_add x n m : x ^ (n + m) = x ^ n * x ^ m.
Proof. induction n; simpl; [ring|]. rewrite IHn. ring. Qed.
Lemma fpow_mul x n m : x ^ (n * m) = (x ^ n) ^ m.
Proof.
  rewrite Nat.mul_comm. induction m; simpl; auto. rewrite fpow_add, IHm. ring.
Qed.
Lemma fpow_mul_base x y n : (x * y) ^ n = x ^ n * y ^ n.
Proof. induction n; simpl; [ring|]. rewrite IHn. ring. Qed.
Lemma fpow_1_l n : 1 ^ n = (1:K).
Proof. induction n; simpl; auto. rewrite IHn. ring. Qed.
Lemma fpow_0_l n : n <> O -> 0 ^ n = (0:K).
Proof. destruct n; [lia|]. simpl. intros. ring. Qed.
Lemma fpow_neq_0 x n : x <> 0 -> x ^ n <> 0.
Proof. intros H. induction n; simpl. apply f1_neq_0. now apply fmul_neq_0. Qed.
Lemma fpow_inv x n : finv x ^ n = finv (x ^ n).
Proof. induction n; simpl. now rewrite finv1. now rewrite IHn, finv_mul. Qed.
Lemma fpow_2 x : x ^ 2 = x * x.
Proof. simpl. ring. Qed.

Lemma fpow_mod x n i : x ^ n = 1 -> (n <> 0)%nat -> x ^ (i mod n) = x ^ i.
Proof.
  intros H Hn. rewrite (Nat.div_mod i n Hn) at 2.
  rewrite fpow_add, fpow_mul, H, fpow_1_l. ring.
Qed.

(** ** fnat *)
Lemma fnat_add n m : fnat (n + m) = fnat n + (fnat m : K).
Proof. induction n; simpl; [ring|]. rewrite IHn. ring. Qed.
Lemma fnat_mul n m : fnat (n * m) = fnat n * (fnat m : K).
Proof. induction n; simpl; [ring|]. rewrite fnat_add, IHn. ring. Qed.
Lemma fnat_pow n m : fnat (n ^ m) = (fnat n : K) ^ m.
Proof. induction m; simpl; [ring|]. now rewrite fnat_mul, IHm. Qed.
Lemma fnat_1 : fnat 1 = (1:K).
Proof. simpl; ring. Qed.
Lemma fnat_2 : fnat 2 = (1:K) + 1.
Proof. simpl; ring. Qed.

(** ** sums *)
Lemma sum_ext n (f g : nat -> K) : (forall i, i < n -> f i = g i) -> sum n f = sum n g.
Proof.
  induction n; simpl; intros H; auto. rewrite IHn, H; auto.
Qed.
Lemma sum_0 n (f : nat -> K) : (forall i, i < n -> f i = 0) -> sum n f = 0.
Proof.
  induction n; simpl; intros H; auto. rewrite IHn, H; auto. ring.
Qed.
Lemma sum_add n (f g : nat -> K) : sum n (fun i => f i + g i) = sum n f + sum n g.
Proof. induction n; simpl; [ring|]. rewrite IHn. ring. Qed.
Lemma sum_sub n (f g : nat -> K) : sum n (fun i => f i - g i) = sum n f - sum n g.
Proof. induction n; simpl; [ring|]. rewrite IHn. ring. Qed.
Lemma sum_mul_l n c (f : nat -> K) : sum n (fun i => c * f i) = c * sum n f.
Proof. induction n; simpl; [ring|]. rewrite IHn. ring. Qed.
Lemma sum_mul_r n c (f : nat -> K) : sum n (fun i => f i * c) = sum n f * c.
Proof. induction n; simpl; [ring|]. rewrite IHn. ring. Qed.
Lemma sum_const n c : sum n (fun _ => c) = fnat n * (c:K).
Proof. induction n; simpl; [ring|]. rewrite IHn. ring. Qed.
Lemma sum_S_l n (f : nat -> K) : sum (S n) f = f O + sum n (fun i => f (S i)).
Proof. induction n; simpl; [ring|]. simpl in IHn. rewrite IHn. ring. Qed.
Lemma sum_split n m (f : nat -> K) : sum (n + m)%nat f = sum n f + sum m (fun i => f (n + i)%nat).
Proof.
  induction m; simpl.
  - rewrite Nat.add_0_r. ring.
  - rewrite Nat.add_succ_r. simpl. rewrite IHm. ring.
Qed.
Lemma sum_swap n m (f : nat -> nat -> K) :
  sum n (fun i => sum m (f i)) = sum m (fun j => sum n (fun i => f i j)).
Proof.
  induction n; simpl.
  - symmetry. now apply sum_0.
  - rewrite IHn. rewrite <- sum_add. reflexivity.
Qed.
Lemma sum_single n k (f : nat -> K) :
  k < n -> (forall i, i < n -> i <> k -> f i = 0) -> sum n f = f k.
Proof.
  induction n; intros Hk H; [lia|]. simpl.
  destruct (Nat.eq_dec k n) as [->|N].
  - rewrite sum_0. ring. intros; apply H; lia.
  - rewrite IHn by (auto; lia). rewrite (H n) by lia. ring.
Qed.
Lemma sum_even_odd n (f : nat -> K) :
  sum (2 * n)%nat f = sum n (fun j => f (2 * j)%nat) + sum n (fun j => f (2 * j + 1)%nat).
Proof.
  induction n; [simpl; ring|].
  replace (2 * S n)%nat with (S (S (2 * n)))%nat by lia. cbn [sum].
  rewrite IHn.
  replace (S (2 * n))%nat with (2 * n + 1)%nat by lia. ring.
Qed.
Lemma sum_rev n (f : nat -> K) : sum n f = sum n (fun i => f (n - 1 - i)%nat).
Proof.
  induction n; auto.
  rewrite (sum_S_l n (fun i => f (S n - 1 - i)%nat)).
  rewrite (sum_ext n (fun i => f (S n - 1 - S i)%nat) (fun i => f (n - 1 - i)%nat)) by (intros; f_equal; lia).
  rewrite <- IHn. replace (S n - 1 - 0)%nat with n by lia. simpl. ring.
Qed.
(** extending a sum by vanishing terms *)
Lemma sum_extend n m (f : nat -> K) :
  n <= m -> (forall i, n <= i < m -> f i = 0) -> sum m f = sum n f.
Proof.
  intros H Hz. replace m with (n + (m - n))%nat by lia. rewrite sum_split.
  rewrite (sum_0 (m - n)). ring. intros; apply Hz; lia.
Qed.

(** geometric sums *)
Lemma geom n x : (x - 1) * sum n (fun i => x ^ i) = x ^ n - 1.
Proof.
  induction n; simpl; [ring|].
  transitivity ((x - 1) * sum n (fun i => x ^ i) + (x - 1) * x ^ n); [ring|].
  rewrite IHn. ring.
Qed.

End FieldFacts.

(** ** Modules over a field (the groups G1 and G2) *)
Record gmod (K : fld) := mkMod {
  gcar :> Type;
  g0 : gcar;
  gadd : gcar -> gcar -> gcar;
  gneg : gcar -> gcar;
  smul : K -> gcar -> gcar;
  geqb : gcar -> gcar -> bool;
  gadd_assoc : forall a b c, gadd a (gadd b c) = gadd (gadd a b) c;
  gadd_comm : forall a b, gadd a b = gadd b a;
  gadd_0_l : forall a, gadd g0 a = a;
  gadd_neg_r : forall a, gadd a (gneg a) = g0;
  smul_1 : forall a, smul f1 a = a;
  smul_smul : forall x y a, smul x (smul y a) = smul (fmul x y) a;
  smul_add_l : forall x y a, smul (fadd x y) a = gadd (smul x a) (smul y a);
  smul_add_r : forall x a b, smul x (gadd a b) = gadd (smul x a) (smul x b);
  geqb_spec : forall a b, geqb a b = true <-> a = b
}.
Arguments g0 {_ _}. Arguments gadd {_ _} _ _. Arguments gneg {_ _} _.
Arguments smul {_ _} _ _. Arguments geqb {_ _} _ _.

Definition gsub {K} {M : gmod K} (a b : M) : M := gadd a (gneg b).

Fixpoint gsum {K} {M : gmod K} (n : nat) (f : nat -> M) : M :=
  match n with O => g0 | S n' => gadd (gsum n' f) (f n') end.

Section ModFacts.
Context {K : fld} {M : gmod K}.
Add Field Kf2 : (fld_field K).
Implicit Types a b c : M.
Implicit Types x y : K.

Lemma gadd_0_r a : gadd a g0 = a.
Proof. rewrite gadd_comm. apply gadd_0_l. Qed.
Lemma gadd_neg_l a : gadd (gneg a) a = g0.
Proof. rewrite gadd_comm. apply gadd_neg_r. Qed.
Lemma gadd_cancel_l a b c : gadd a b = gadd a c -> b = c.
Proof.
  intros H. rewrite <- (gadd_0_l K M b), <- (gadd_0_l K M c), <- (gadd_neg_l a).
  rewrite <- !gadd_assoc. now rewrite H.
Qed.
Lemma gadd_swap a b c d : gadd (gadd a b) (gadd c d) = gadd (gadd a c) (gadd b d).
Proof.
  rewrite <- !gadd_assoc. f_equal. rewrite !gadd_assoc. f_equal. apply gadd_comm.
Qed.
Lemma smul_0_l a : smul f0 a = g0.
Proof.
  apply (gadd_cancel_l (smul f0 a)). rewrite gadd_0_r, <- smul_add_l. f_equal. ring.
Qed.
Lemma smul_0_r x : smul x (g0 : M) = g0.
Proof.
  apply (gadd_cancel_l (smul x g0)). rewrite gadd_0_r, <- smul_add_r. now rewrite gadd_0_l.
Qed.
Lemma gneg_unique a b : gadd a b = g0 -> b = gneg a.
Proof. intros H. apply (gadd_cancel_l a). now rewrite H, gadd_neg_r. Qed.
Lemma smul_neg_l x a : smul (fneg x) a = gneg (smul x a).
Proof.
  apply gneg_unique. rewrite <- smul_add_l. replace (x + - x)%F with (0%F : K) by ring.
  apply smul_0_l.
Qed.
Lemma gneg_smul a : gneg a = smul (- (1))%F a.
Proof. now rewrite smul_neg_l, smul_1. Qed.
Lemma smul_sub_l x y a : smul (x - y)%F a = gsub (smul x a) (smul y a).
Proof.
  unfold gsub. rewrite <- smul_neg_l, <- smul_add_l. f_equal. ring.
Qed.
Lemma smul_neg_r x a : smul x (gneg a) = gneg (smul x a).
Proof. rewrite gneg_smul, smul_smul, <- smul_neg_l. f_equal. ring. Qed.
Lemma smul_sub_r x a b : smul x (gsub a b) = gsub (smul x a) (smul x b).
Proof. unfold gsub. now rewrite smul_add_r, smul_neg_r. Qed.
Lemma gsub_diag a : gsub a a = g0.
Proof. apply gadd_neg_r. Qed.
Lemma gsub_0 a b : gsub a b = g0 -> a = b.
Proof.
  intros H. apply (gadd_cancel_l (gneg b)). rewrite gadd_neg_l. rewrite gadd_comm. exact H.
Qed.
Lemma gsub_add a b : gadd (gsub a b) b = a.
Proof. unfold gsub. rewrite <- gadd_assoc, gadd_neg_l. apply gadd_0_r. Qed.
Lemma smul_cancel x a : x <> f0 -> smul x a = g0 -> a = g0.
Proof.
  intros N H. rewrite <- (smul_1 K M a), <- (finv_l x N), <- smul_smul, H. apply smul_0_r.
Qed.
Lemma smul_inj x a b : x <> f0 -> smul x a = smul x b -> a = b.
Proof.
  intros N H. apply gsub_0. apply (smul_cancel x); auto.
  rewrite smul_sub_r, H. apply gsub_diag.
Qed.
Lemma geqb_false a b : geqb a b = false <-> a <> b.
Proof. rewrite <- (geqb_spec K M a b). destruct (geqb a b); split; congruence. Qed.

Lemma gsum_ext n (f g : nat -> M) : (forall i, i < n -> f i = g i) -> gsum n f = gsum n g.
Proof. induction n; simpl; intros H; auto. rewrite IHn, H; auto. Qed.
Lemma gsum_0 n (f : nat -> M) : (forall i, i < n -> f i = g0) -> gsum n f = g0.
Proof. induction n; simpl; intros H; auto. rewrite IHn, H; auto. apply gadd_0_l. Qed.
Lemma gsum_add n (f g : nat -> M) : gsum n (fun i => gadd (f i) (g i)) = gadd (gsum n f) (gsum n g).
Proof.
  induction n; simpl. now rewrite gadd_0_l. rewrite IHn. apply gadd_swap.
Qed.
Lemma gsum_smul n x (f : nat -> M) : gsum n (fun i => smul x (f i)) = smul x (gsum n f).
Proof. induction n; simpl. now rewrite smul_0_r. now rewrite IHn, smul_add_r. Qed.
Lemma gsum_neg n (f : nat -> M) : gsum n (fun i => gneg (f i)) = gneg (gsum n f).
Proof.
  rewrite gneg_smul, <- gsum_smul. apply gsum_ext. intros. apply gneg_smul.
Qed.
Lemma gsum_sub n (f g : nat -> M) : gsum n (fun i => gsub (f i) (g i)) = gsub (gsum n f) (gsum n g).
Proof. unfold gsub. now rewrite gsum_add, gsum_neg. Qed.
Lemma gsum_scal n (f : nat -> K) a : gsum n (fun i => smul (f i) a) = smul (sum n f) a.
Proof.
  induction n; simpl. now rewrite smul_0_l. now rewrite IHn, smul_add_l.
Qed.
Lemma gsum_S_l n (f : nat -> M) : gsum (S n) f = gadd (f O) (gsum n (fun i => f (S i))).
Proof.
  induction n. simpl. apply gadd_comm.
  change (gsum (S (S n)) f) with (gadd (gsum (S n) f) (f (S n))).
  rewrite IHn. simpl. now rewrite gadd_assoc.
Qed.
Lemma gsum_split n m (f : nat -> M) : gsum (n + m) f = gadd (gsum n f) (gsum m (fun i => f (n + i)%nat)).
Proof.
  induction m; simpl.
  - rewrite Nat.add_0_r. now rewrite gadd_0_r.
  - rewrite Nat.add_succ_r. simpl. now rewrite IHm, gadd_assoc.
Qed.
Lemma gsum_swap n m (f : nat -> nat -> M) :
  gsum n (fun i => gsum m (f i)) = gsum m (fun j => gsum n (fun i => f i j)).
Proof.
  induction n; simpl.
  - symmetry. now apply gsum_0.
  - rewrite IHn. now rewrite <- gsum_add.
Qed.
Lemma gsum_single n k (f : nat -> M) :
  k < n -> (forall i, i < n -> i <> k -> f i = g0) -> gsum n f = f k.
Proof.
  induction n; intros Hk H; [lia|]. simpl.
  destruct (Nat.eq_dec k n) as [->|N].
  - rewrite gsum_0. apply gadd_0_l. intros; apply H; lia.
  - rewrite IHn by (auto; lia). rewrite (H n) by lia. apply gadd_0_r.
Qed.
Lemma gsum_even_odd n (f : nat -> M) :
  gsum (2 * n) f = gadd (gsum n (fun j => f (2 * j)%nat)) (gsum n (fun j => f (2 * j + 1)%nat)).
Proof.
  induction n. simpl. now rewrite gadd_0_l.
  replace (2 * S n)%nat with (S (S (2 * n)))%nat by lia. cbn [gsum].
  rewrite IHn.
  replace (S (2 * n))%nat with (2 * n + 1)%nat by lia.
  rewrite <- gadd_assoc. apply gadd_swap.
Qed.
Lemma gsum_extend n m (f : nat -> M) :
  n <= m -> (forall i, n <= i < m -> f i = g0) -> gsum m f = gsum n f.
Proof.
  intros H Hz. replace m with (n + (m - n))%nat by lia. rewrite gsum_split.
  rewrite (gsum_0 (m - n)). apply gadd_0_r. intros; apply Hz; lia.
Qed.
Lemma gsum_rev n (f : nat -> M) : gsum n f = gsum n (fun i => f (n - 1 - i)%nat).
Proof.
  induction n; auto.
  rewrite (gsum_S_l n (fun i => f (S n - 1 - i)%nat)).
  rewrite (gsum_ext n (fun i => f (S n - 1 - S i)%nat) (fun i => f (n - 1 - i)%nat)) by (intros; f_equal; lia).
  rewrite <- IHn. replace (S n - 1 - 0)%nat with n by lia. simpl. apply gadd_comm.
Qed.

End ModFacts.

(** The field as a module over itself. *)
Section SelfMod.
Context (K : fld).
Add Field Kf3 : (fld_field K).
Definition self_mod : gmod K.
Proof.
  refine (mkMod K (car K) f0 fadd fneg fmul feqb _ _ _ _ _ _ _ _ (feqb_spec K)); intros; ring.
Defined.
Lemma gsum_self n (f : nat -> K) : gsum (M := self_mod) n f = sum n f.
Proof. induction n; simpl; auto. now rewrite IHn. Qed.
Lemma gsub_self (a b : K) : gsub (M := self_mod) a b = (a - b)%F.
Proof. unfold gsub. simpl. ring. Qed.
End SelfMod.
