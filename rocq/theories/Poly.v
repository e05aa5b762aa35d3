(** * Poly: specification-level polynomials over a field

    Independent specification used to state the properties: a polynomial is a
    coefficient list (lowest degree first); [coef], [peval] and [convol] are the
    textbook definitions of coefficient, value and product coefficient.
    Nothing here models code. *)
From Coq Require Import List Arith Lia Bool Field Ring.
From Verif Require Import Base Fld.
Import ListNotations.

Definition coef {K : fld} (p : list K) (i : nat) : K := nth i p f0.

(** value of the polynomial at [x] *)
Fixpoint peval {K : fld} (p : list K) (x : K) : K :=
  match p with [] => 0%F | a :: q => (a + x * peval q x)%F end.

(** [k]-th coefficient of the product *)
Definition convol {K : fld} (a b : list K) (k : nat) : K :=
  sum (S k) (fun i => (coef a i * coef b (k - i))%F).

(** [w] has multiplicative order exactly [n] *)
Definition primitive {K : fld} (w : K) (n : nat) : Prop :=
  fpow w n = f1 /\ forall i, 0 < i < n -> fpow w i <> f1.

(** product of [(x - r)] over a list of roots *)
Definition vanish {K : fld} (rs : list K) (x : K) : K :=
  fold_right (fun r acc => fmul (fsub x r) acc) f1 rs.

Section PolyFacts.
Context {K : fld}.
Add Field Kf4 : (fld_field K).
Local Open Scope fld_scope.
Implicit Types p q a b : list K.
Implicit Types x y w : K.

Lemma coef_over p i : length p <= i -> coef p i = 0.
Proof. apply nth_overflow. Qed.

Lemma coef_nil i : coef (@nil K) i = 0.
Proof. unfold coef. now destruct i. Qed.

Lemma coef_cons_0 c p : coef (c :: p) 0 = c.
Proof. reflexivity. Qed.
Lemma coef_cons_S c p i : coef (c :: p) (S i) = coef p i.
Proof. reflexivity. Qed.

Lemma coef_ext p q : length p = length q -> (forall i, i < length p -> coef p i = coef q i) -> p = q.
Proof. intros. apply (nth_ext' f0); auto. Qed.

Lemma coef_map_seq (f : nat -> K) n i : coef (map f (seq 0 n)) i = if i <? n then f i else 0.
Proof.
  unfold coef. destruct (Nat.ltb_spec i n).
  - now rewrite nth_map_seq.
  - apply nth_overflow. rewrite length_map_seq. auto.
Qed.

Lemma coef_app p q i : coef (p ++ q) i = if i <? length p then coef p i else coef q (i - length p).
Proof.
  unfold coef. destruct (Nat.ltb_spec i (length p)).
  - now rewrite app_nth1.
  - now rewrite app_nth2.
Qed.

Lemma coef_repeat0 n i : coef (repeat (0:K) n) i = 0.
Proof. unfold coef. apply nth_repeat_same. Qed.

Lemma coef_firstn p n i : coef (firstn n p) i = if i <? n then coef p i else 0.
Proof.
  unfold coef. destruct (Nat.ltb_spec i n).
  - now apply nth_firstn'.
  - apply nth_overflow. rewrite firstn_length. lia.
Qed.

Lemma coef_skipn p n i : coef (skipn n p) i = coef p (n + i).
Proof. apply nth_skipn'. Qed.

Lemma peval_sum p x : peval p x = sum (length p) (fun i => coef p i * x ^ i).
Proof.
  induction p; simpl length; [reflexivity|].
  rewrite sum_S_l. simpl peval. rewrite IHp. unfold coef; simpl.
  f_equal; [ring|]. rewrite <- sum_mul_l. apply sum_ext. intros; simpl; ring.
Qed.

Lemma peval_sum_n p x n : length p <= n -> peval p x = sum n (fun i => coef p i * x ^ i).
Proof.
  intros H. rewrite peval_sum. symmetry. apply sum_extend; auto.
  intros i Hi. rewrite coef_over by lia. ring.
Qed.

Lemma peval_ext p q x : (forall i, coef p i = coef q i) -> peval p x = peval q x.
Proof.
  intros H. rewrite (peval_sum_n p x (max (length p) (length q))) by lia.
  rewrite (peval_sum_n q x (max (length p) (length q))) by lia.
  apply sum_ext. intros; now rewrite H.
Qed.

Lemma peval_app p q x : peval (p ++ q) x = peval p x + x ^ (length p) * peval q x.
Proof. induction p; simpl; [ring|]. rewrite IHp. ring. Qed.

Lemma peval_repeat0 n x : peval (repeat (0:K) n) x = 0.
Proof. induction n; simpl; auto. rewrite IHn. ring. Qed.

Lemma peval_0 p : peval p 0 = coef p 0.
Proof. destruct p; simpl; unfold coef; simpl; auto. ring. Qed.

Lemma peval_map_seq (f : nat -> K) n x : peval (map f (seq 0 n)) x = sum n (fun i => f i * x ^ i).
Proof.
  rewrite (peval_sum_n _ x n) by (rewrite length_map_seq; auto).
  apply sum_ext. intros i Hi. rewrite coef_map_seq.
  destruct (Nat.ltb_spec i n); [reflexivity|lia].
Qed.

(** ** products *)
Lemma convol_cons c a b k :
  convol (c :: a) b k = c * coef b k + match k with O => 0 | S k' => convol a b k' end.
Proof.
  unfold convol. rewrite sum_S_l.
  rewrite Nat.sub_0_r, coef_cons_0. f_equal.
  destruct k; [reflexivity|]. apply sum_ext. intros. now rewrite coef_cons_S.
Qed.

Lemma convol_nil_l b k : convol (@nil K) b k = 0.
Proof. unfold convol. apply sum_0. intros. rewrite coef_nil. ring. Qed.

Lemma convol_comm a b k : convol a b k = convol b a k.
Proof.
  unfold convol. rewrite sum_rev. apply sum_ext. intros i Hi.
  replace (S k - 1 - i)%nat with (k - i)%nat by lia.
  replace (k - (k - i))%nat with i by lia. ring.
Qed.

Lemma convol_over a b k : length a + length b <= S k -> convol a b k = 0.
Proof.
  intros H. unfold convol. apply sum_0. intros i Hi.
  destruct (Nat.lt_ge_cases i (length a)).
  - rewrite (coef_over b) by lia. ring.
  - rewrite (coef_over a) by lia. ring.
Qed.

Lemma convol_ext a a' b b' k :
  (forall i, i <= k -> coef a i = coef a' i) -> (forall i, i <= k -> coef b i = coef b' i) ->
  convol a b k = convol a' b' k.
Proof.
  intros H1 H2. unfold convol. apply sum_ext. intros i Hi.
  rewrite H1, H2 by lia. reflexivity.
Qed.

(** summing the product coefficients evaluates to the product of the values *)
Lemma convol_eval a b x n :
  length a + length b <= S n ->
  sum n (fun k => convol a b k * x ^ k) = peval a x * peval b x.
Proof.
  revert n. induction a; simpl; intros n H.
  - rewrite sum_0; [ring|]. intros. rewrite convol_nil_l. ring.
  - destruct n as [|n].
    { assert (b = []) as -> by (destruct b; simpl in *; auto; lia). simpl. ring. }
    rewrite (sum_ext _ _ (fun k => a * (coef b k * x ^ k)
        + (match k with O => 0 | S k' => convol a0 b k' end) * x ^ k)).
    2:{ intros. rewrite convol_cons. ring. }
    rewrite sum_add, sum_mul_l, <- peval_sum_n by lia.
    rewrite sum_S_l.
    rewrite (sum_ext n _ (fun i => x * (convol a0 b i * x ^ i))) by (intros; simpl; ring).
    rewrite sum_mul_l, IHa by lia. simpl. ring.
Qed.

(** the product as a list *)
Definition pmul a b : list K := map (convol a b) (seq 0 (length a + length b - 1)).
Arguments pmul : simpl never.

Lemma coef_pmul a b k : coef (pmul a b) k = convol a b k.
Proof.
  unfold pmul. rewrite coef_map_seq. destruct (Nat.ltb_spec k (length a + length b - 1)); auto.
  symmetry. apply convol_over. lia.
Qed.

Lemma pmul_length a b : length (pmul a b) = (length a + length b - 1)%nat.
Proof. unfold pmul. apply length_map_seq. Qed.

Lemma peval_pmul a b x : peval (pmul a b) x = peval a x * peval b x.
Proof.
  unfold pmul. rewrite peval_map_seq. apply convol_eval. lia.
Qed.

(** ** differences *)
Definition psub p q : list K :=
  map (fun i => coef p i - coef q i) (seq 0 (max (length p) (length q))).

Lemma coef_psub p q i : coef (psub p q) i = coef p i - coef q i.
Proof.
  unfold psub. rewrite coef_map_seq. destruct (Nat.ltb_spec i (max (length p) (length q))); auto.
  rewrite !coef_over by lia. ring.
Qed.

Lemma psub_length p q : length (psub p q) = max (length p) (length q).
Proof. apply length_map_seq. Qed.

Lemma peval_psub p q x : peval (psub p q) x = peval p x - peval q x.
Proof.
  unfold psub. rewrite peval_map_seq.
  rewrite (peval_sum_n p x (max (length p) (length q))) by lia.
  rewrite (peval_sum_n q x (max (length p) (length q))) by lia.
  rewrite <- sum_sub. apply sum_ext. intros. ring.
Qed.

(** ** counting roots *)
(** synthetic division of [p] by [(x - r)] *)
Fixpoint synth (p : list K) (r : K) : list K :=
  match p with
  | [] => []
  | _ :: q => match q with [] => [] | _ => peval q r :: synth q r end
  end.

Lemma synth_length p r : length (synth p r) = (length p - 1)%nat.
Proof.
  induction p as [|c [|d q] IH]; simpl; auto. simpl in IH. rewrite IH. lia.
Qed.

Lemma synth_spec p r x : peval p x = (x - r) * peval (synth p r) x + peval p r.
Proof.
  induction p as [|c q IH]; [simpl; ring|].
  destruct q as [|d q].
  - simpl. ring.
  - change (peval (c :: d :: q) x) with (c + x * peval (d :: q) x).
    change (peval (synth (c :: d :: q) r) x)
      with (peval (d :: q) r + x * peval (synth (d :: q) r) x).
    change (peval (c :: d :: q) r) with (c + r * peval (d :: q) r).
    rewrite IH. ring.
Qed.

Lemma coef_synth p r i :
  coef p (S i) = coef (synth p r) i - r * coef (synth p r) (S i).
Proof.
  revert i. induction p as [|c q IH]; intros i; [simpl; rewrite !coef_nil; ring|].
  destruct q as [|d q].
  - simpl. rewrite !coef_nil. unfold coef; simpl. destruct i; ring.
  - rewrite coef_cons_S. change (synth (c :: d :: q) r) with (peval (d :: q) r :: synth (d :: q) r).
    destruct i.
    + rewrite coef_cons_0, coef_cons_S. 
      destruct q as [|e q].
      * simpl. unfold coef; simpl. ring.
      * change (synth (d :: e :: q) r) with (peval (e :: q) r :: synth (e :: q) r).
        rewrite !coef_cons_0. simpl. ring.
    + rewrite !coef_cons_S. apply IH.
Qed.

Theorem roots_bound (xs : list K) p :
  NoDup xs -> length p <= length xs -> (forall x, In x xs -> peval p x = 0) ->
  forall i, coef p i = 0.
Proof.
  revert p. induction xs as [|r xs IH]; intros p ND HL HR i.
  - destruct p; simpl in HL; [apply coef_nil|lia].
  - inversion ND as [|? ? Hnin ND']; subst.
    assert (Hs : forall i, coef (synth p r) i = 0).
    { apply IH; auto.
      - rewrite synth_length. simpl in HL. lia.
      - intros x Hx. assert (x <> r) by (intros ->; auto).
        assert (E := synth_spec p r x). rewrite (HR x), (HR r) in E by (simpl; auto).
        assert (E2 : (x - r) * peval (synth p r) x = 0) by (rewrite E; ring).
        apply fmul_eq_0 in E2 as [E2|]; auto. exfalso. apply fsub_eq_0 in E2. auto. }
    destruct i.
    + rewrite <- peval_0. assert (E := synth_spec p r 0).
      rewrite (HR r) in E by (simpl; auto). rewrite E.
      rewrite peval_ext with (q := []) by (intros; rewrite coef_nil; auto). simpl. ring.
    + rewrite (coef_synth p r), !Hs. ring.
Qed.

(** two polynomials agreeing on enough points are equal *)
Theorem interp_unique (xs : list K) p q :
  NoDup xs -> length p <= length xs -> length q <= length xs ->
  (forall x, In x xs -> peval p x = peval q x) ->
  forall i, coef p i = coef q i.
Proof.
  intros ND Hp Hq H i. apply fsub_eq_0. rewrite <- coef_psub.
  apply (roots_bound xs); auto.
  - rewrite psub_length. lia.
  - intros x Hx. rewrite peval_psub, H by auto. ring.
Qed.

(** ** roots of unity *)
Lemma primitive_neq_0 w n : 0 < n -> primitive w n -> w <> 0.
Proof.
  intros Hn [H _] ->. rewrite fpow_0_l in H by lia. symmetry in H. now apply f1_neq_0 in H.
Qed.

Lemma primitive_inj w n i j : primitive w n -> i < n -> j < n -> w ^ i = w ^ j -> i = j.
Proof.
  intros Hw. assert (main : forall i j, i <= j -> j < n -> w ^ i = w ^ j -> i = j).
  { clear i j. intros i j Hij Hj E. destruct (Nat.eq_dec i j) as [|N]; auto. exfalso.
    pose proof Hw as [_ H]. apply (H (j - i)%nat); [lia|].
    apply (fmul_cancel_l (w ^ i)).
    - apply fpow_neq_0. apply (primitive_neq_0 w n); [lia|auto].
    - rewrite <- fpow_add. replace (i + (j - i))%nat with j by lia. rewrite E. ring. }
  intros Hi Hj E. destruct (Nat.le_ge_cases i j).
  - now apply main.
  - symmetry. now apply main.
Qed.

Lemma primitive_NoDup w n : primitive w n -> NoDup (map (fpow w) (seq 0 n)).
Proof.
  intros Hw. apply NoDup_nth with (d := 0). rewrite length_map_seq.
  intros i j Hi Hj. rewrite !nth_map_seq by auto. now apply (primitive_inj w n).
Qed.

Lemma primitive_pow w n m : primitive w (n * m)%nat -> 0 < m -> primitive (w ^ m) n.
Proof.
  intros [H1 H2] Hm. split.
  - rewrite <- fpow_mul, Nat.mul_comm. auto.
  - intros i Hi. rewrite <- fpow_mul. apply H2. nia.
Qed.

Lemma primitive_half w n : 0 < n -> primitive w (2 * n)%nat -> w ^ n = - (1).
Proof.
  intros Hn [H1 H2].
  assert (E : (w ^ n - 1) * (w ^ n + 1) = 0).
  { transitivity (w ^ n * w ^ n - 1); [ring|]. rewrite <- fpow_add.
    replace (n + n)%nat with (2 * n)%nat by lia. rewrite H1. ring. }
  apply fmul_eq_0 in E as [E|E].
  - exfalso. apply (H2 n); [lia|]. now apply fsub_eq_0.
  - transitivity (w ^ n + 1 - 1); [ring|]. rewrite E. ring.
Qed.

Lemma primitive_inv w n : 0 < n -> primitive w n -> primitive (finv w) n.
Proof.
  intros Hn Hw. assert (Nz := primitive_neq_0 w n Hn Hw). destruct Hw as [H1 H2]. split.
  - now rewrite fpow_inv, H1, finv1.
  - intros i Hi E. apply (H2 i Hi). rewrite fpow_inv in E.
    rewrite <- (finv_involutive (w ^ i)), E. apply finv1.
Qed.

Lemma primitive_1 : primitive (1:K) 1.
Proof. split. apply fpow_1_l. intros; lia. Qed.

Lemma primitive_one_eq w : primitive w 1 -> w = 1.
Proof. intros [H _]. rewrite fpow_1 in H. auto. Qed.

(** a half power equal to -1 characterises primitive [2^k]-th roots *)
Lemma pow2_order_aux w i k :
  w ^ (2 ^ k) = 1 -> (0 < i) -> w ^ i = 1 -> exists j, j <= k /\ w ^ (2 ^ j) = 1 /\ Nat.divide (2 ^ j) i
   /\ (j = 0%nat \/ w ^ (2 ^ (j-1)) <> 1).
Proof.
  revert i. induction k; intros i H0 Hi Hi1.
  - exists 0%nat. split; [lia|]. split; [exact H0|]. split; [exists i; simpl; lia|]. auto.
  - destruct (fdec (w ^ (2 ^ k)) 1) as [E|N].
    + destruct (IHk i E Hi Hi1) as (j & ? & ? & ? & ?). exists j. repeat split; auto.
    + exists (S k). repeat split; auto.
      * (* 2^(S k) divides i: otherwise write i = 2^j * odd *)
        assert (G : forall m i, (m <= k)%nat -> 0 < i -> w ^ i = 1 -> Nat.divide (2 ^ m) i -> Nat.divide (2 ^ S m) i).
        { intros m i' Hm Hi' Hw' [c Hc]. subst i'.
          destruct (Nat.Even_or_Odd c) as [[d Hd]|[d Hd]].
          - exists d. subst c. simpl. ring.
          - exfalso. apply N.
            (* w^(2^m * (2d+1)) = 1, raise to 2^(k-m) *)
            assert (w ^ ((2 * d + 1) * 2 ^ m * 2 ^ (k - m)) = 1).
            { rewrite fpow_mul. rewrite Hd in Hw'. rewrite Hw'. apply fpow_1_l. }
            replace ((2 * d + 1) * 2 ^ m * 2 ^ (k - m))%nat with (2 ^ S k * d + 2 ^ k)%nat in H.
            + rewrite fpow_add, fpow_mul, H0, fpow_1_l in H. rewrite <- H. ring.
            + rewrite <- Nat.mul_assoc, <- Nat.pow_add_r. replace (m + (k - m))%nat with k by lia.
              simpl. ring. }
        assert (G2 : forall m, (m <= S k)%nat -> Nat.divide (2 ^ m) i).
        { induction m; intros Hm; [exists i; simpl; lia|]. apply G; auto; try lia. apply IHm; lia. }
        apply G2. lia.
      * right. replace (S k - 1)%nat with k by lia. auto.
Qed.

Lemma primitive_of_half w k : w ^ (2 ^ k) = - (1) -> - (1) <> (1:K) -> primitive w (2 ^ S k).
Proof.
  intros H N. split.
  - replace (2 ^ S k)%nat with (2 ^ k + 2 ^ k)%nat by (simpl; lia). rewrite fpow_add, H. ring.
  - intros i Hi E.
    assert (H1 : w ^ (2 ^ S k) = 1).
    { replace (2 ^ S k)%nat with (2 ^ k + 2 ^ k)%nat by (simpl; lia). rewrite fpow_add, H. ring. }
    destruct (pow2_order_aux w i (S k) H1) as (j & Hj & Hwj & [c Hc] & Hd); auto; [lia|].
    destruct (Nat.eq_dec j (S k)) as [->|Nj].
    + destruct c; [lia|]. simpl in Hi, Hc. lia.
    + assert (w ^ (2 ^ k) = 1).
      { replace k with (j + (k - j))%nat by lia. rewrite Nat.pow_add_r, fpow_mul, Hwj. apply fpow_1_l. }
      rewrite H in H0. auto.
Qed.

(** orthogonality of characters *)
Lemma root_sum_0 w n i : primitive w n -> 0 < i < n -> sum n (fun j => w ^ (i * j)) = 0.
Proof.
  intros [H1 H2] Hi.
  rewrite (sum_ext n _ (fun j => (w ^ i) ^ j)) by (intros; apply fpow_mul).
  assert (E := geom n (w ^ i)).
  rewrite <- fpow_mul, Nat.mul_comm, fpow_mul, H1, fpow_1_l in E.
  replace (1 - 1) with (0:K) in E by ring.
  apply fmul_eq_0 in E as [E|E]; auto.
  exfalso. apply (H2 i Hi). now apply fsub_eq_0.
Qed.

Lemma neg1_neq_1 : (1:K) + 1 <> 0 -> - (1) <> (1:K).
Proof. intros H E. apply H. rewrite <- E at 1. ring. Qed.

Lemma primitive_two_neq_0 w n : 0 < n -> primitive w (2 * n)%nat -> (1:K) + 1 <> 0.
Proof.
  intros Hn Hw E. destruct Hw as [H1 H2].
  assert (Hh := primitive_half w n Hn (conj H1 H2)).
  apply (H2 n); [lia|]. rewrite Hh.
  transitivity ((1 + 1) - (1:K)); [|ring]. rewrite E. ring.
Qed.

Lemma fnat_pow2_neq_0 k : (1:K) + 1 <> 0 -> fnat (2 ^ k) <> (0:K).
Proof.
  intros H. rewrite fnat_pow. apply fpow_neq_0. rewrite fnat_2. auto.
Qed.

(** the length of any primitive 2^k root's domain is invertible *)
Lemma primitive_fnat_neq_0 w k : primitive w (2 ^ k) -> fnat (2 ^ k) <> (0:K).
Proof.
  destruct k.
  - intros _. simpl. replace (1 + 0) with (1:K) by ring. apply f1_neq_0.
  - intros H. apply fnat_pow2_neq_0.
    apply (primitive_two_neq_0 w (2 ^ k)).
    + apply Nat.neq_0_lt_0. apply Nat.pow_nonzero. lia.
    + exact H.
Qed.

(** ** vanishing polynomial *)
Lemma vanish_0_iff rs x : vanish rs x = 0 <-> In x rs.
Proof.
  induction rs as [|r rs IH]; simpl.
  - split; [intros E; now apply f1_neq_0 in E|tauto].
  - rewrite <- IH. split.
    + intros E. apply fmul_eq_0 in E as [E|E]; auto. left. symmetry. now apply fsub_eq_0.
    + intros [->|E]; [ring|]. rewrite E. ring.
Qed.

Lemma vanish_app rs ts x : vanish (rs ++ ts) x = vanish rs x * vanish ts x.
Proof. induction rs; simpl; [ring|]. rewrite IHrs. ring. Qed.

(** equality of polynomials in an infinite field is not available: we use
    coefficient equality.  The monic vanishing polynomial's coefficients: *)
Fixpoint vanish_poly (rs : list K) : list K :=
  match rs with
  | [] => [1]
  | r :: rs' => pmul [- r; 1] (vanish_poly rs')
  end.

Lemma vanish_poly_length rs : length (vanish_poly rs) = S (length rs).
Proof.
  induction rs as [|r rs IH]; auto.
  change (vanish_poly (r :: rs)) with (pmul [- r; 1] (vanish_poly rs)).
  rewrite pmul_length, IH. simpl. lia.
Qed.

Lemma vanish_poly_eval rs x : peval (vanish_poly rs) x = vanish rs x.
Proof.
  induction rs as [|r rs IH]; [simpl; ring|].
  change (vanish_poly (r :: rs)) with (pmul [- r; 1] (vanish_poly rs)).
  rewrite peval_pmul, IH. simpl. ring.
Qed.

Lemma convol_linear c p k :
  convol [c; 1] p k = c * coef p k + match k with O => 0 | S k' => coef p k' end.
Proof.
  rewrite convol_cons. f_equal. destruct k; auto. rewrite convol_cons.
  destruct k; [ring|]. rewrite convol_nil_l. ring.
Qed.

Lemma vanish_poly_coef_cons r rs k :
  coef (vanish_poly (r :: rs)) k
  = (- r) * coef (vanish_poly rs) k + match k with O => 0 | S k' => coef (vanish_poly rs) k' end.
Proof.
  change (vanish_poly (r :: rs)) with (pmul [- r; 1] (vanish_poly rs)).
  rewrite coef_pmul. apply convol_linear.
Qed.

Lemma vanish_poly_monic rs : coef (vanish_poly rs) (length rs) = 1.
Proof.
  induction rs as [|r rs IHrs]; [reflexivity|].
  change (length (r :: rs)) with (S (length rs)). rewrite vanish_poly_coef_cons.
  rewrite IHrs. rewrite coef_over by (rewrite vanish_poly_length; lia). ring.
Qed.

(** associativity of the product, by coefficients *)
Lemma convol_sum_l n (f : nat -> list K) b k :
  forall p, (forall i, coef p i = sum n (fun j => coef (f j) i)) ->
  convol p b k = sum n (fun j => convol (f j) b k).
Proof.
  intros p H. unfold convol. rewrite sum_swap. apply sum_ext. intros i Hi.
  rewrite H, sum_mul_r. reflexivity.
Qed.

Lemma convol_scale_l c p q b k :
  (forall i, coef q i = c * coef p i) -> convol q b k = c * convol p b k.
Proof.
  intros H. unfold convol. rewrite <- sum_mul_l. apply sum_ext. intros. rewrite H. ring.
Qed.

Lemma convol_add_l p q r b k :
  (forall i, coef r i = coef p i + coef q i) -> convol r b k = convol p b k + convol q b k.
Proof.
  intros H. unfold convol. rewrite <- sum_add. apply sum_ext. intros. rewrite H. ring.
Qed.

Lemma convol_add_r p q r b k :
  (forall i, coef r i = coef p i + coef q i) -> convol b r k = convol b p k + convol b q k.
Proof.
  intros H. rewrite !(convol_comm b). now apply convol_add_l.
Qed.

Lemma convol_assoc a b c k : convol (pmul a b) c k = convol a (pmul b c) k.
Proof.
  revert k. induction a as [|x a IH]; intros k.
  - rewrite convol_nil_l. unfold convol. apply sum_0. intros.
    rewrite coef_pmul, convol_nil_l. ring.
  - rewrite convol_cons.
    rewrite (convol_add_l (map (fmul x) b) (0 :: pmul a b) (pmul (x :: a) b)).
    + rewrite (convol_scale_l x b (map (fmul x) b)).
      2:{ intros i. unfold coef. rewrite <- (map_nth (fmul x)).
          replace (x * 0) with (0:K) by ring. reflexivity. }
      rewrite coef_pmul. f_equal. rewrite convol_cons.
      destruct k; [ring|]. rewrite IH. ring.
    + intros i. rewrite coef_pmul, convol_cons. f_equal.
      * unfold coef. rewrite <- (map_nth (fmul x)). replace (x * 0) with (0:K) by ring. reflexivity.
      * destruct i; [reflexivity|]. rewrite coef_cons_S, coef_pmul. reflexivity.
Qed.

(** uniqueness of Euclidean division *)
Lemma euclid_unique b q r q' r' :
  b <> [] -> coef b (length b - 1) <> 0 ->
  length r < length b -> length r' < length b ->
  (forall k, convol q b k + coef r k = convol q' b k + coef r' k) ->
  (forall k, coef q k = coef q' k) /\ (forall k, coef r k = coef r' k).
Proof.
  intros Hb Hl Hr Hr' H.
  assert (Hblen : 0 < length b) by (destruct b; simpl; [congruence|lia]).
  set (d := psub q q').
  assert (Hd : forall k, convol d b k = coef r' k - coef r k).
  { intros k. assert (E := H k).
    assert (Ed : convol d b k = convol q b k - convol q' b k).
    { unfold d, convol. rewrite <- sum_sub. apply sum_ext. intros. rewrite coef_psub. ring. }
    rewrite Ed. transitivity (convol q b k + coef r k - coef r k - convol q' b k); [ring|].
    rewrite E. ring. }
  assert (Hz : forall n k, length d <= k + n -> coef d k = 0).
  { induction n; intros k Hk.
    - apply coef_over. lia.
    - assert (E := Hd (k + (length b - 1))%nat).
      rewrite (coef_over r), (coef_over r') in E by lia.
      unfold convol in E. rewrite (sum_single _ k) in E.
      + replace (k + (length b - 1) - k)%nat with (length b - 1)%nat in E by lia.
        assert (E2 : coef d k * coef b (length b - 1) = 0) by (rewrite E; ring).
        apply fmul_eq_0 in E2 as [|]; [auto|congruence].
      + lia.
      + intros i Hi Nk. destruct (Nat.lt_ge_cases i k).
        * rewrite (coef_over b) by lia. ring.
        * rewrite (IHn i) by lia. ring. }
  assert (Hz' : forall k, coef d k = 0) by (intros k; apply (Hz (length d)); lia).
  split; intros k.
  - apply fsub_eq_0. rewrite <- coef_psub. apply Hz'.
  - symmetry. apply fsub_eq_0. rewrite <- Hd. unfold convol. apply sum_0.
    intros. rewrite Hz'. ring.
Qed.

End PolyFacts.
