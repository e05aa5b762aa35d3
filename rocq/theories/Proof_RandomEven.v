(** * Proof_RandomEven: every value of a field is drawn from almost the same number of byte strings *)
From Coq Require Import ZArith List Bool Lia.
From Verif Require Import Base Fld Tables Zr Zp Model_Scalar Spec_Scalar Proof_Scalar2 Proof_Scalar5 Spec_Fp Model_Fp Proof_FpRep Proof_FpTop Model_Random Spec_Cofactor Spec_Random Proof_Random.
Import ListNotations.
Local Open Scope Z_scope.

Section Even.
Context {T : Type} (B : T -> Prop) (v : T -> Z) (dec : Z -> T) (N m : Z).
Context (Mp : 0 < m).
Context (R : forall l, B l -> 0 <= v l < N) (J : forall a b : T, B a -> B b -> v a = v b -> a = b).
Context (D : forall i, 0 <= i < N -> B (dec i) /\ v (dec i) = i).
Lemma even x : 0 <= x < m ->
  counted (if x <? N mod m then N / m + 1 else N / m) (fun l => B l /\ v l mod m = x).
Proof.
  intros X. pose proof (Z.div_mod N m) as DM. pose proof (Z.mod_pos_bound N m Mp) as MB. set (q := N / m) in *. set (w := N mod m) in *.
  set (n := if x <? w then q + 1 else q).
  assert (I : forall i, 0 <= i < n -> 0 <= x + m * i < N).
  { intros i I. unfold n in I. destruct (Z.ltb_spec x w); nia. }
  exists (fun i => dec (x + m * i)). split; [|split].
  - intros i Hi. destruct (D _ (I i Hi)) as [A E]. split; [exact A|]. rewrite E, Z.mul_comm, Z.mod_add by lia. apply Z.mod_small. lia.
  - intros i j Hi Hj E. pose proof (proj2 (D _ (I i Hi))) as E1. pose proof (proj2 (D _ (I j Hj))) as E2. rewrite E in E1. nia.
  - intros l [BL EL]. exists (v l / m). pose proof (R l BL) as RL. pose proof (Z.div_mod (v l) m) as DL. rewrite EL in DL.
    assert (EQ : x + m * (v l / m) = v l) by lia.
    assert (RI : 0 <= v l / m < n).
    { split; [apply Z.div_pos; lia|]. unfold n. destruct (Z.ltb_spec x w); nia. }
    split; [exact RI|]. rewrite EQ. destruct (D (v l) RL) as [A E]. apply J; auto.
Qed.
End Even.

Fixpoint le_bytes (n : nat) (z : Z) : list Z := match n with O => [] | S n => z mod 256 :: le_bytes n (z / 256) end.
Lemma le_bytes_ok n : forall z, 0 <= z < 256 ^ Z.of_nat n -> is_bytes n (le_bytes n z) /\ bytes_val (le_bytes n z) = z.
Proof.
  induction n as [|n IH]; intros z Hz.
  - cbn in *. split; [split; [reflexivity|constructor]|lia].
  - rewrite Nat2Z.inj_succ, Z.pow_succ_r in Hz by lia. pose proof (Z.mod_pos_bound z 256 eq_refl) as MB. pose proof (Z.div_mod z 256 ltac:(lia)) as DM.
    destruct (IH (z / 256)) as [[L F] E]; [split; [apply Z.div_pos; lia|apply Z.div_lt_upper_bound; lia]|].
    cbn [le_bytes bytes_val length]. split; [split; [cbn [length]; now rewrite L|constructor; assumption]|]. rewrite E. lia.
Qed.

Lemma counted_via {T} n (A B : T -> Prop) (g : T -> T) : (forall t, A t -> B (g t) /\ g (g t) = t) -> (forall t, B t -> A (g t) /\ g (g t) = t) ->
  counted n A -> counted n B.
Proof.
  intros U V (f & F & J & S). exists (fun i => g (f i)). split; [|split].
  - intros i I. apply U, F, I.
  - intros i j I K E. apply J; auto. rewrite <- (proj2 (U _ (F i I))), <- (proj2 (U _ (F j K))), E. reflexivity.
  - intros t H. destruct (V t H) as [H' E]. destruct (S _ H') as (i & I & Ei). exists i. split; [exact I|]. rewrite Ei. exact E.
Qed.
Lemma N512 : 256 ^ Z.of_nat 64 = 2 ^ 512. Proof. vm_compute. reflexivity. Qed.
Lemma N768 : 256 ^ Z.of_nat 96 = 2 ^ 768. Proof. vm_compute. reflexivity. Qed.
Lemma even_le n m x : 0 < m -> 0 <= x < m ->
  counted (if x <? 256 ^ Z.of_nat n mod m then 256 ^ Z.of_nat n / m + 1 else 256 ^ Z.of_nat n / m) (fun l => is_bytes n l /\ bytes_val l mod m = x).
Proof.
  intros M X. apply (even (is_bytes n) bytes_val (le_bytes n)); [exact M| | | |exact X].
  - intros l [L A]. pose proof (bytes_val_range l A) as H. rewrite L in H. exact H.
  - intros a b [LA A] [LB B] E. apply bytes_val_inj; auto. congruence.
  - exact (le_bytes_ok n).
Qed.

Theorem scalar_even (x : Fr) :
  counted (if val x <? 2 ^ 512 mod r then 2 ^ 512 / r + 1 else 2 ^ 512 / r)
    (fun bs => is_bytes 64 bs /\ represents (from_bytes_wide bs) x).
Proof.
  pose proof (even_le 64 r (val x) r_pos (val_range x)) as C. rewrite N512 in C. revert C.
  apply (counted_via _ _ _ (fun l => l)); intros bs [B H]; pose proof (C42_wide_proof bs B) as W; (split; [split; [exact B|]|reflexivity]).
  - assert (E : fr_of (bytes_val bs) = x) by (apply val_inj; rewrite val_fr_of; exact H). rewrite <- E. exact W.
  - rewrite <- val_fr_of. rewrite <- (proj1 (proj2 (C42_encode_proof _ _ W))). exact (proj1 (proj2 (C42_encode_proof _ _ H))).
Qed.

Definition wide_val (bs : list Z) : Z := be_val (firstn 48 bs) + 2 ^ 384 * be_val (skipn 48 bs).
Definition wide_swap (bs : list Z) : list Z := rev (firstn 48 bs) ++ rev (skipn 48 bs).
Lemma swap_bytes bs : is_bytes 96 bs -> is_bytes 96 (wide_swap bs).
Proof.
  intros [L F]. rewrite <- (firstn_skipn 48 bs) in F. apply Forall_app in F. destruct F as [F1 F2]. unfold wide_swap. split.
  - rewrite app_length, !rev_length, firstn_length, skipn_length. lia.
  - apply Forall_app. split; apply Forall_rev; assumption.
Qed.
Lemma swap_val bs : is_bytes 96 bs -> wide_val bs = bytes_val (wide_swap bs).
Proof.
  intros [L _]. unfold wide_val, wide_swap. rewrite bytes_val_app, !be_val_rev, rev_length, firstn_length, L. reflexivity.
Qed.
Lemma swap_swap bs : is_bytes 96 bs -> wide_swap (wide_swap bs) = bs.
Proof.
  intros [L _]. unfold wide_swap.
  assert (L1 : length (firstn 48 bs) = 48%nat) by (rewrite firstn_length; lia).
  rewrite <- (firstn_skipn 48 bs) at 5. revert L1. generalize (firstn 48 bs) (skipn 48 bs). intros a c L1.
  assert (L2 : length (rev a) = 48%nat) by (rewrite rev_length; exact L1).
  rewrite firstn_app, skipn_app, L2, Nat.sub_diag, firstn_all2 by lia. rewrite (skipn_all2 (rev a)) by lia.
  change (firstn 0 (rev c)) with (@nil Z). change (skipn 0 (rev c)) with (rev c). rewrite app_nil_r, app_nil_l, !rev_involutive. reflexivity.
Qed.

Theorem fp_even (x : Fp) :
  counted (if pval x <? 2 ^ 768 mod p then 2 ^ 768 / p + 1 else 2 ^ 768 / p)
    (fun bs => is_bytes 96 bs /\ stands_for (fp_random bs) x).
Proof.
  pose proof (even_le 96 p (pval x) p_pos (pval_range x)) as C. rewrite N768 in C. revert C.
  apply (counted_via _ _ _ wide_swap); intros bs [B H]; pose proof (swap_bytes bs B) as S; (split; [split; [exact S|]|exact (swap_swap bs B)]).
  - pose proof (fp_random_value _ S) as W. rewrite <- (swap_swap bs B), <- (swap_val _ S) in H.
    assert (E : wide_fp (wide_swap bs) = x) by (apply pval_inj; exact H). rewrite <- E. exact W.
  - pose proof (fp_random_value _ B) as W. rewrite <- (swap_val _ B). change (pval (wide_fp bs) = pval x).
    exact (f_equal pval (proj1 (proj2 fp_one_to_one) _ _ _ W H)).
Qed.

(** ** [rand] of the traits *)
Definition words4 (z : Z) : scalar := Scalar (z mod 2 ^ 64) (z / 2 ^ 64 mod 2 ^ 64) (z / 2 ^ 128 mod 2 ^ 64) (z / 2 ^ 192).
Definition words4_val (w : scalar) : Z := let '(Scalar l0 l1 l2 l3) := w in l0 + 2 ^ 64 * (l1 + 2 ^ 64 * (l2 + 2 ^ 64 * l3)).
Lemma words4_limbs w n : limbs w n <-> limbs w (words4_val w) /\ n = words4_val w.
Proof.
  destruct w as [l0 l1 l2 l3]. unfold limbs, words4_val. cbn [limbs_val].
  split; [intros (A & B & C & D & E)|intros [(A & B & C & D & E) F]]; repeat split; try assumption; lia.
Qed.
Lemma words4_ok z : 0 <= z < 2 ^ 256 -> limbs (words4 z) z.
Proof.
  intros H. unfold words4, limbs. cbn [limbs_val].
  pose proof (Z.mod_pos_bound z (2 ^ 64) eq_refl). pose proof (Z.mod_pos_bound (z / 2 ^ 64) (2 ^ 64) eq_refl). pose proof (Z.mod_pos_bound (z / 2 ^ 128) (2 ^ 64) eq_refl).
  pose proof (Z.div_mod z (2 ^ 64) ltac:(discriminate)) as A. pose proof (Z.div_mod (z / 2 ^ 64) (2 ^ 64) ltac:(discriminate)) as B.
  pose proof (Z.div_mod (z / 2 ^ 128) (2 ^ 64) ltac:(discriminate)) as C.
  assert (E2 : z / 2 ^ 128 = z / 2 ^ 64 / 2 ^ 64) by (rewrite Z.div_div by (discriminate || reflexivity); reflexivity).
  assert (E3 : z / 2 ^ 192 = z / 2 ^ 64 / 2 ^ 64 / 2 ^ 64) by (rewrite !Z.div_div by (discriminate || reflexivity); reflexivity).
  rewrite E2, E3 in *. clear E2 E3. set (z1 := z / 2 ^ 64) in *. set (z2 := z1 / 2 ^ 64) in *.
  assert (L : 0 <= z2 / 2 ^ 64 < 2 ^ 64). { split; [|]; lia. }
  repeat split; lia.
Qed.
Lemma limbs_range w n : limbs w n -> 0 <= n < 2 ^ 256.
Proof. destruct w as [l0 l1 l2 l3]. unfold limbs. cbn [limbs_val]. lia. Qed.
Lemma limbs_inj w w' n : limbs w n -> limbs w' n -> w = w'.
Proof.
  destruct w as [l0 l1 l2 l3], w' as [k0 k1 k2 k3]. unfold limbs. cbn [limbs_val]. intros (A & B & C & D & E) (A' & B' & C' & D' & E').
  assert (l0 = k0) by lia. assert (l1 = k1) by lia. assert (l2 = k2) by lia. assert (l3 = k3) by lia. congruence.
Qed.
Lemma rand_value w n : limbs w n -> represents (zk_fr_rand w) (fr_of n).
Proof. destruct w as [l0 l1 l2 l3]. intros H. exact (proj1 (C42_words_proof _ _ _ _ _ H)). Qed.
Lemma represents_fun s (x y : Fr) : represents s x -> represents s y -> val x = val y.
Proof. intros A B. rewrite <- (proj1 (proj2 (C42_encode_proof _ _ A))). exact (proj1 (proj2 (C42_encode_proof _ _ B))). Qed.
Theorem zk_rand_uneven (x : Fr) :
  counted (if val x <? 2 ^ 256 - 2 * r then 3 else 2) (fun w => (exists n, limbs w n) /\ represents (zk_fr_rand w) x).
Proof.
  pose proof (even (fun w => limbs w (words4_val w)) words4_val words4 (2 ^ 256) r r_pos) as C.
  specialize (C (fun l H => limbs_range _ _ H)).
  specialize (C (fun a b A B E => limbs_inj a b _ A (eq_ind_r (limbs b) B E))).
  specialize (C (fun i I => conj (proj1 (proj1 (words4_limbs _ _) (words4_ok i I))) (eq_sym (proj2 (proj1 (words4_limbs _ _) (words4_ok i I)))))).
  specialize (C (val x) (val_range x)).
  assert (E1 : 2 ^ 256 mod r = 2 ^ 256 - 2 * r) by (vm_compute; reflexivity). assert (E2 : 2 ^ 256 / r = 2) by (vm_compute; reflexivity).
  rewrite E1, E2 in C. revert C. apply (counted_via _ _ _ (fun l => l)); intros w [B H]; (split; [|reflexivity]).
  - split; [exists (words4_val w); exact B|]. pose proof (rand_value _ _ B) as W.
    assert (E : fr_of (words4_val w) = x) by (apply val_inj; rewrite val_fr_of; exact H). rewrite <- E. exact W.
  - destruct B as [n B]. destruct (proj1 (words4_limbs w n) B) as [A ->]. split; [exact A|].
    rewrite <- val_fr_of. exact (represents_fun _ _ _ (rand_value _ _ B) H).
Qed.
