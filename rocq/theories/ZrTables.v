(** * ZrTables: the embedded root-of-unity tables are correct in the concrete field *)
From Coq Require Import ZArith Lia List Bool.
From Verif Require Import Base Fld Poly Tables Zr Model_FFT Spec.
Import ListNotations.
Local Open Scope Z_scope.

(** ** the root tables *)
Fixpoint sqn (n : nat) (x : Z) : Z := match n with O => x | S n' => sqn n' ((x * x) mod r) end.

Lemma sqn_spec n : forall x, fr_of (sqn n x) = fpow (fr_of x) (2 ^ n).
Proof.
  induction n; intros x.
  - symmetry. exact (fpow_1 (K := Fr) (fr_of x)).
  - cbn [sqn]. rewrite IHn. replace (2 ^ S n)%nat with (2 * 2 ^ n)%nat by (simpl; lia).
    rewrite fpow_mul, fpow_2. f_equal. rewrite <- fr_of_mul.
    apply val_inj. unfold fr_of; rewrite !val_to_Fr. apply Z.mod_mod. discriminate.
Qed.

Definition check_root (i : nat) (x : Z) : bool :=
  match i with
  | O => (x =? 1)
  | S i' => (sqn i' x =? r - 1) && (0 <=? x) && (x <? r)
  end.

Fixpoint check_table (i : nat) (l : list Z) : bool :=
  match l with [] => true | x :: t => check_root i x && check_table (S i) t end.

Lemma check_root_primitive i x : check_root i x = true -> primitive (fr_of x) (2 ^ i).
Proof.
  destruct i; cbn [check_root].
  - intros H. apply Z.eqb_eq in H. subst. change (fr_of 1) with (f1 : Fr). apply primitive_1.
  - intros H. apply andb_true_iff in H as [H _]. apply andb_true_iff in H as [H _].
    apply Z.eqb_eq in H. apply primitive_of_half.
    + rewrite <- sqn_spec, H. apply val_inj. reflexivity.
    + intros E. apply (f_equal val) in E. discriminate.
Qed.

Lemma check_table_ok : forall l j, check_table j l = true ->
  forall i, (i < length l)%nat -> primitive (nth i (map fr_of l) (f0 : Fr)) (2 ^ (j + i)).
Proof.
  induction l; intros j H i Hi; [simpl in Hi; lia|].
  cbn [check_table] in H. apply andb_true_iff in H as [H1 H2].
  destruct i.
  - simpl nth. rewrite Nat.add_0_r. now apply check_root_primitive.
  - simpl nth. replace (j + S i)%nat with (S j + i)%nat by lia. apply IHl; auto. simpl in Hi. lia.
Qed.

(** [FsFr::from_u64_arr] of each row (types/fr.rs:60-66): the integer denoted by the
    limbs, reduced modulo [r] (blst_fr_from_uint64). *)
Definition table_of (t : list (list Z)) : list Fr := map fr_of (map limbs_val t).

Definition blst_table : list Fr := table_of blst_SCALE2_ROOT_OF_UNITY.
Definition ark_table : list Fr := table_of ark_SCALE2_ROOT_OF_UNITY.
Definition zk_table : list Fr := table_of zk_SCALE2_ROOT_OF_UNITY.
Definition ckzg_table : list Fr := table_of ckzg_SCALE2_ROOT_OF_UNITY.
Definition mcl_pr5_table : list Fr := map fr_of mcl_PR5.
Definition mcl_pr7_table : list Fr := map fr_of mcl_PR7.

Lemma tables_same : ark_SCALE2_ROOT_OF_UNITY = blst_SCALE2_ROOT_OF_UNITY /\
  zk_SCALE2_ROOT_OF_UNITY = blst_SCALE2_ROOT_OF_UNITY /\
  ckzg_SCALE2_ROOT_OF_UNITY = blst_SCALE2_ROOT_OF_UNITY.
Proof. repeat split; vm_compute; reflexivity. Qed.

Lemma table_ok_of_check l : check_table 0 l = true -> table_ok (map fr_of l : list Fr).
Proof.
  intros H i Hi. rewrite map_length in Hi. exact (check_table_ok l 0 H i Hi).
Qed.

Theorem blst_table_ok : table_ok blst_table.
Proof. apply table_ok_of_check. vm_compute. reflexivity. Qed.
Theorem mcl_pr5_table_ok : table_ok mcl_pr5_table.
Proof. apply table_ok_of_check. vm_compute. reflexivity. Qed.
Theorem mcl_pr7_table_ok : table_ok mcl_pr7_table.
Proof. apply table_ok_of_check. vm_compute. reflexivity. Qed.

Lemma blst_table_length : length blst_table = 32%nat.
Proof. reflexivity. Qed.

(** consecutive entries are compatible: the square of one is the previous one *)
Fixpoint check_chain (l : list Z) : bool :=
  match l with
  | x :: ((y :: _) as t) => ((y * y) mod r =? x) && check_chain t
  | _ => true
  end.

Lemma check_chain_ok : forall l, check_chain l = true ->
  forall i, (S i < length l)%nat ->
  fmul (nth (S i) (map fr_of l) (f0 : Fr)) (nth (S i) (map fr_of l) f0) = nth i (map fr_of l) f0.
Proof.
  induction l as [|x [|y t] IH]; intros H i Hi; [simpl in Hi; lia|simpl in Hi; lia|].
  cbn [check_chain] in H. apply andb_true_iff in H as [H1 H2].
  destruct i.
  - apply Z.eqb_eq in H1. cbn [nth map]. rewrite <- fr_of_mul. apply val_inj.
    unfold fr_of; rewrite !val_to_Fr. rewrite <- H1. rewrite Z.mod_mod by discriminate. reflexivity.
  - change (nth (S (S i)) (map fr_of (x :: y :: t)) (f0:Fr)) with (nth (S i) (map fr_of (y :: t)) (f0:Fr)).
    change (nth (S i) (map fr_of (x :: y :: t)) (f0:Fr)) with (nth i (map fr_of (y :: t)) (f0:Fr)).
    apply IH; auto. simpl in *. lia.
Qed.

Lemma blst_table_chain i : (S i < 32)%nat ->
  fmul (nth (S i) blst_table (f0 : Fr)) (nth (S i) blst_table f0) = nth i blst_table f0.
Proof.
  intros Hi. apply (check_chain_ok (map limbs_val blst_SCALE2_ROOT_OF_UNITY)).
  - vm_compute. reflexivity.
  - exact Hi.
Qed.

Lemma blst_table_pow k m : (m <= k)%nat -> (k < 32)%nat ->
  fpow (nth k blst_table (f0 : Fr)) (2 ^ (k - m)) = nth m blst_table f0.
Proof.
  intros Hm Hk. assert (H : forall d, (m + d < 32)%nat ->
     fpow (nth (m + d) blst_table (f0 : Fr)) (2 ^ d) = nth m blst_table f0).
  { induction d; intros Hd.
    - rewrite Nat.add_0_r. change (2 ^ 0)%nat with 1%nat. apply fpow_1.
    - replace (2 ^ S d)%nat with (2 * 2 ^ d)%nat by (simpl; lia).
      rewrite fpow_mul, fpow_2. replace (m + S d)%nat with (S (m + d)) by lia.
      rewrite blst_table_chain by lia. apply IHd. lia. }
  specialize (H (k - m)%nat). replace (m + (k - m))%nat with k in H by lia. apply H. lia.
Qed.

(** the scale factor 5 has no small power-of-two order: used by recovery *)
Lemma five_pow2_neq_1 k : (k < 32)%nat -> fpow (fr_of 5) (2 ^ k) <> f1.
Proof.
  intros Hk. rewrite <- sqn_spec.
  assert (H : forallb (fun i => negb (sqn i 5 mod r =? 1)) (seq 0 32) = true) by (vm_compute; reflexivity).
  rewrite forallb_forall in H. assert (Hi : In k (seq 0 32)) by (apply in_seq; lia).
  apply H in Hi. intros E. apply (f_equal val) in E. unfold fr_of in E; rewrite val_to_Fr in E.
  change (val (f1 : Fr)) with 1 in E. rewrite E in Hi. discriminate.
Qed.

(** distinct small naturals stay distinct in the field *)
Lemma fnat_Fr_inj n m : Z.of_nat n < r -> Z.of_nat m < r -> (fnat n : Fr) = fnat m -> n = m.
Proof.
  intros Hn Hm H. rewrite !fnat_Fr in H. apply (f_equal val) in H. unfold fr_of in H; rewrite !val_to_Fr in H.
  rewrite !Z.mod_small in H by lia. lia.
Qed.

Lemma Fr_two_neq_0 : fadd f1 f1 <> (f0 : Fr).
Proof. intros E. apply (f_equal val) in E. discriminate. Qed.
