(** * Fermat: Fermat's little theorem over [Z] and Pocklington's
    primality criterion.  Pure number theory, no repository code. *)
From Coq Require Import ZArith Znumtheory Lia Zpow_facts List Permutation Bool.
From Verif Require Import Fastmul.
Import ListNotations.

Local Open Scope Z_scope.

(** the residues 1 .. p-1 *)
Definition residues (p : Z) : list Z := map Z.of_nat (seq 1 (Z.to_nat (p - 1))).
Definition zprod (l : list Z) : Z := fold_right Z.mul 1 l.

Lemma in_residues p x : 1 < p -> In x (residues p) <-> 0 < x < p.
Proof.
  intros Hp. unfold residues. rewrite in_map_iff. split.
  - intros (n & <- & Hn). apply in_seq in Hn. lia.
  - intros Hx. exists (Z.to_nat x). split; [lia|]. apply in_seq. lia.
Qed.

Lemma residues_NoDup p : NoDup (residues p).
Proof.
  unfold residues. apply FinFun.Injective_map_NoDup; [|apply seq_NoDup].
  intros x y H. now apply Nat2Z.inj.
Qed.

Lemma zprod_perm l l' : Permutation l l' -> zprod l = zprod l'.
Proof. induction 1; cbn [zprod fold_right] in *; unfold zprod in *; try congruence; try lia. Qed.

Lemma zprod_scale p a l : 0 < p ->
  zprod (map (fun x => (a * x) mod p) l) mod p = (a ^ Z.of_nat (length l) * zprod l) mod p.
Proof.
  intros Hp. induction l as [|x l IH].
  - reflexivity.
  - cbn [map length]. unfold zprod in *. cbn [fold_right]. rewrite Nat2Z.inj_succ, Z.pow_succ_r by lia.
    rewrite Z.mul_mod, IH, Z.mod_mod, <- Z.mul_mod by lia. f_equal. ring.
Qed.

Lemma zprod_not_divisible p l : prime p -> (forall x, In x l -> ~ (p | x)) -> ~ (p | zprod l).
Proof.
  intros Hp. induction l as [|x l IH]; intros H D.
  - unfold zprod in D. cbn in D. apply Z.divide_1_r_nonneg in D; assert (P := prime_ge_2 p Hp); lia.
  - unfold zprod in D. cbn [fold_right] in D. apply prime_mult in D; auto. destruct D as [D|D].
    + apply (H x); auto. now left.
    + apply IH; auto. intros y Hy. apply H. now right.
Qed.

(** Fermat's little theorem *)
Theorem fermat (p a : Z) : prime p -> ~ (p | a) -> a ^ (p - 1) mod p = 1.
Proof.
  intros Hp Ha. assert (P := prime_ge_2 p Hp).
  set (f := fun x => (a * x) mod p).
  assert (Hf : forall x, In x (residues p) -> In (f x) (residues p)).
  { intros x Hx. apply in_residues in Hx; [|lia]. apply in_residues; [lia|]. unfold f.
    assert (B := Z.mod_pos_bound (a * x) p ltac:(lia)).
    assert ((a * x) mod p <> 0); [|lia]. intros E. apply Z.mod_divide in E; [|lia].
    apply prime_mult in E; auto. destruct E as [E|E]; [contradiction|].
    apply Z.divide_pos_le in E; lia. }
  assert (Hinj : forall x y, In x (residues p) -> In y (residues p) -> f x = f y -> x = y).
  { intros x y Hx Hy E. apply in_residues in Hx; [|lia]. apply in_residues in Hy; [|lia]. unfold f in E.
    assert (D : (p | a * (x - y))).
    { apply Z.mod_divide; [lia|]. rewrite Z.mul_sub_distr_l, Zminus_mod, E, Z.sub_diag. apply Z.mod_0_l. lia. }
    apply prime_mult in D; auto. destruct D as [D|[c Ec]]; [contradiction|].
    assert (c = 0); [|subst c; lia]. destruct (Z.lt_trichotomy c 0) as [C|[C|C]]; auto.
    - assert (c * p <= (-1) * p) by (apply Z.mul_le_mono_nonneg_r; lia). lia.
    - assert (1 * p <= c * p) by (apply Z.mul_le_mono_nonneg_r; lia). lia. }
  assert (HP : Permutation (map f (residues p)) (residues p)).
  { apply NoDup_Permutation_bis.
    - assert (G : forall l, NoDup l -> (forall x, In x l -> In x (residues p)) -> NoDup (map f l)).
      { induction l as [|x l IH]; intros ND Hs; [constructor|]. inversion ND as [|? ? Nx ND']; subst.
        cbn. constructor.
        - intros Hin. apply in_map_iff in Hin as (y & Ey & Hy). apply Nx.
          rewrite <- (Hinj y x); auto; apply Hs; [now right|now left].
        - apply IH; auto. intros y Hy. apply Hs. now right. }
      apply G; auto using residues_NoDup.
    - rewrite map_length. auto.
    - intros y Hy. apply in_map_iff in Hy as (x & <- & Hx). auto. }
  apply zprod_perm in HP.
  assert (E := zprod_scale p a (residues p) ltac:(lia)). fold f in E. rewrite HP in E.
  assert (L : Z.of_nat (length (residues p)) = p - 1).
  { unfold residues. rewrite map_length, seq_length. lia. }
  rewrite L in E. set (Q := zprod (residues p)) in *.
  assert (NQ : ~ (p | Q)).
  { apply zprod_not_divisible; auto. intros x Hx D. apply in_residues in Hx; [|lia].
    apply Z.divide_pos_le in D; lia. }
  assert (D : (p | (a ^ (p - 1) - 1) * Q)).
  { apply Z.mod_divide; [lia|]. replace ((a ^ (p - 1) - 1) * Q) with (a ^ (p - 1) * Q - Q) by ring.
    rewrite Zminus_mod, <- E, Z.sub_diag. apply Z.mod_0_l. lia. }
  apply prime_mult in D; auto. destruct D as [[c Ec]|D]; [|contradiction].
  replace (a ^ (p - 1)) with (1 + c * p) by lia. rewrite Z.mod_add by lia. apply Z.mod_small. lia.
Qed.

(** modular exponentiation; remainders are found by multiplication with a scaled reciprocal
    [mu] (Barrett) and checked, which keeps kernel evaluation cheap; no proof depends on the
    quality of the estimate *)
Definition barrett (n k mu x : Z) : Z :=
  let t := x - zmul4 (Z.shiftr (zmul4 (Z.shiftr x k) mu) (k + 10)) n in
  if (0 <=? t) && (t <? n) then t
  else let t := t - n in if (0 <=? t) && (t <? n) then t else x mod n.
Lemma barrett_ok n k mu x : 0 < n -> barrett n k mu x = x mod n.
Proof.
  intros Hn. unfold barrett. rewrite !zmul4_ok. set (q := Z.shiftr (Z.shiftr x k * mu) (k + 10)). clearbody q. cbv zeta.
  destruct ((0 <=? x - q * n) && (x - q * n <? n)) eqn:E1.
  - apply andb_true_iff in E1 as [A B]. apply Z.leb_le in A. apply Z.ltb_lt in B.
    apply (Z.mod_unique x n q); [left; lia|lia].
  - destruct ((0 <=? x - q * n - n) && (x - q * n - n <? n)) eqn:E2; [|reflexivity].
    apply andb_true_iff in E2 as [A B]. apply Z.leb_le in A. apply Z.ltb_lt in B.
    apply (Z.mod_unique x n (q + 1)); [left; lia|lia].
Qed.
Fixpoint powmod_pos (a : Z) (e : positive) (n k mu : Z) : Z :=
  match e with
  | xH => a mod n
  | xO e' => let t := powmod_pos a e' n k mu in barrett n k mu (Z.square t)
  | xI e' => let t := powmod_pos a e' n k mu in
    if a <? 256 then barrett n k mu (a * Z.square t) else barrett n k mu (zmul4 a (barrett n k mu (Z.square t)))
  end.
Definition powmod (a e n : Z) : Z :=
  let k := Z.log2 n in let mu := 2 ^ (k + k + 10) / n in
  match e with Zpos e => powmod_pos a e n k mu | Z0 => 1 mod n | _ => 0 end.

Lemma powmod_pos_spec a e n k mu : 0 < n -> powmod_pos a e n k mu = a ^ Zpos e mod n.
Proof.
  intros Hn. induction e; cbn [powmod_pos]; rewrite ?barrett_ok, ?zmul4_ok, ?Z.square_spec by exact Hn.
  - replace (if a <? 256 then _ else _) with ((a * ((powmod_pos a e n k mu * powmod_pos a e n k mu) mod n)) mod n)
      by (destruct (a <? 256); [now rewrite Z.mul_mod_idemp_r by lia|reflexivity]).
    rewrite IHe. rewrite Pos2Z.inj_xI. rewrite Z.pow_add_r, Z.pow_1_r by lia.
    rewrite Z.mul_mod_idemp_r by lia.
    replace (2 * Z.pos e) with (Z.pos e + Z.pos e) by lia. rewrite Z.pow_add_r by lia.
    rewrite (Z.mul_mod a) by lia. rewrite <- (Z.mul_mod (a ^ Z.pos e)) by lia.
    rewrite <- Z.mul_mod by lia. f_equal. ring.
  - rewrite IHe. rewrite Pos2Z.inj_xO.
    replace (2 * Z.pos e) with (Z.pos e + Z.pos e) by lia. rewrite Z.pow_add_r by lia.
    rewrite <- Z.mul_mod by lia. reflexivity.
  - now rewrite Z.pow_1_r.
Qed.

Lemma powmod_spec a e n : 0 < n -> 0 <= e -> powmod a e n = a ^ e mod n.
Proof.
  intros Hn He. unfold powmod. destruct e; [reflexivity|now apply powmod_pos_spec|lia].
Qed.

(** exponents with [a^i = 1] are closed under gcd *)
Lemma pow_mult_1 q a i k : 1 < q -> 0 <= i -> 0 <= k -> a ^ i mod q = 1 -> a ^ (i * k) mod q = 1.
Proof.
  intros Hq Hi Hk H. rewrite Z.pow_mul_r by auto. rewrite Zpower_mod by lia. rewrite H.
  rewrite Z.pow_1_l by auto. apply Z.mod_small. lia.
Qed.

Lemma pow_gcd_1 q a i j :
  1 < q -> 0 < i -> 0 < j -> a ^ i mod q = 1 -> a ^ j mod q = 1 -> a ^ (Z.gcd i j) mod q = 1.
Proof.
  intros Hq Hi Hj H1 H2.
  (* strong induction on i + j by subtraction *)
  assert (main : forall n i j, 0 < i -> 0 < j -> i + j < Z.of_nat n ->
            a ^ i mod q = 1 -> a ^ j mod q = 1 -> a ^ (Z.gcd i j) mod q = 1).
  { clear i j Hi Hj H1 H2. induction n; intros i j Hi Hj Hn H1 H2; [lia|].
    assert (sub : forall i j, 0 < i -> i < j -> a ^ i mod q = 1 -> a ^ j mod q = 1 -> a ^ (j - i) mod q = 1).
    { clear - Hq. intros i j Hi Hij H1 H2.
      replace j with (i + (j - i)) in H2 by lia. rewrite Z.pow_add_r in H2 by lia.
      rewrite Z.mul_mod, H1, Z.mul_1_l, Z.mod_mod in H2 by lia. exact H2. }
    destruct (Z.lt_trichotomy i j) as [L|[E|L]].
    - replace (Z.gcd i j) with (Z.gcd i (j - i)) by apply Z.gcd_sub_diag_r.
      apply IHn; auto; lia.
    - subst. rewrite Z.gcd_diag_nonneg by lia. auto.
    - rewrite Z.gcd_comm. replace (Z.gcd j i) with (Z.gcd j (i - j)) by apply Z.gcd_sub_diag_r.
      apply IHn; auto; lia. }
  apply (main (Z.to_nat (i + j + 1))); auto; lia.
Qed.

(** a divisor [g] of [p^e * m] that [p^e] does not divide, divides [p^(e-1) * m] *)
Lemma prime_power_drop p (e : nat) : prime p -> forall g m, 0 < g -> 
  (g | p ^ Z.of_nat (S e) * m) -> ~ (p ^ Z.of_nat (S e) | g) -> (g | p ^ Z.of_nat e * m).
Proof.
  intros Hp. assert (P2 := prime_ge_2 p Hp). induction e; intros g m Hg H1 H2.
  - change (Z.of_nat 1) with 1 in *. rewrite Z.pow_1_r in *. rewrite Z.pow_0_r, Z.mul_1_l.
    apply Gauss with p; auto. apply rel_prime_sym. apply prime_rel_prime; auto.
  - destruct (Zdivide_dec p g) as [[g' ->]|N].
    + assert (Hg' : 0 < g') by nia.
      rewrite (Nat2Z.inj_succ (S e)), Z.pow_succ_r in H1, H2 by lia.
      rewrite (Nat2Z.inj_succ e), Z.pow_succ_r by lia.
      rewrite (Z.mul_comm g' p) in *.
      rewrite <- Z.mul_assoc in *. apply Z.mul_divide_mono_l. apply IHe; auto.
      * apply Z.mul_divide_cancel_l with p; [lia|auto].
      * intros D. apply H2. apply Z.mul_divide_mono_l; auto.
    + rewrite (Nat2Z.inj_succ (S e)), Z.pow_succ_r, <- Z.mul_assoc in H1 by lia.
      apply Gauss with p; auto. apply rel_prime_sym. apply prime_rel_prime; auto.
Qed.

(** one step of Pocklington: the prime power [p^e] divides [q - 1] for every prime [q | n] *)
Lemma pocklington_step n q p (e : nat) a m :
  1 < n -> prime q -> (q | n) -> prime p -> 0 < m ->
  n - 1 = p ^ Z.of_nat (S e) * m ->
  powmod a (n - 1) n = 1 ->
  Z.gcd (powmod a (p ^ Z.of_nat e * m) n - 1) n = 1 ->
  (p ^ Z.of_nat (S e) | q - 1).
Proof.
  intros Hn Hq Dq Hp Hm En H1 H2.
  assert (Q2 := prime_ge_2 q Hq). assert (P2 := prime_ge_2 p Hp).
  assert (Pe : 0 < p ^ Z.of_nat e) by (apply Z.pow_pos_nonneg; lia).
  assert (PSe : 0 < p ^ Z.of_nat (S e)) by (apply Z.pow_pos_nonneg; lia).
  rewrite powmod_spec in H1, H2 by nia.
  assert (modq : forall x, (x mod n) mod q = x mod q).
  { intros x. destruct Dq as [c ->]. rewrite Z.mul_comm.
    rewrite Z.rem_mul_r by nia. rewrite Z.mul_comm, Z.mod_add by lia. apply Z.mod_mod. lia. }
  assert (A1 : a ^ (n - 1) mod q = 1).
  { rewrite <- modq, H1. apply Z.mod_small. lia. }
  destruct (Zdivide_dec (p ^ Z.of_nat (S e)) (q - 1)) as [|N]; auto. exfalso.
  assert (Nqa : ~ (q | a)).
  { intros D. assert (a mod q = 0) by (apply Z.mod_divide; auto; lia).
    rewrite Zpower_mod, H, Z.pow_0_l in A1 by lia. rewrite Z.mod_0_l in A1; lia. }
  assert (A2 := fermat q a Hq Nqa).
  assert (G := pow_gcd_1 q a (n - 1) (q - 1) ltac:(lia) ltac:(lia) ltac:(lia) A1 A2).
  set (g := Z.gcd (n - 1) (q - 1)) in *.
  assert (Gp : 0 < g).
  { assert (0 <= g) by apply Z.gcd_nonneg. assert (g <> 0); [|lia].
    intros E. apply Z.gcd_eq_0_l in E. lia. }
  assert (Dg : (g | p ^ Z.of_nat e * m)).
  { apply prime_power_drop; auto.
    - rewrite <- En. apply Z.gcd_divide_l.
    - intros D. apply N. apply Z.divide_trans with g; auto. apply Z.gcd_divide_r. }
  destruct Dg as [c Ec].
  assert (A3 : a ^ (p ^ Z.of_nat e * m) mod q = 1).
  { rewrite Ec, Z.mul_comm. apply pow_mult_1; auto; try lia; nia. }
  assert (Dd : (q | a ^ (p ^ Z.of_nat e * m) mod n - 1)).
  { apply Z.mod_divide; [lia|]. rewrite Zminus_mod, modq, A3. rewrite Z.mod_1_l by lia.
    rewrite Z.sub_diag. apply Z.mod_0_l. lia. }
  assert (q | 1).
  { rewrite <- H2. apply Z.gcd_greatest; auto. }
  apply Z.divide_1_r_nonneg in H; lia.
Qed.

(** primality from a square root bound *)
Lemma prime_of_large_factors n f :
  1 < n -> 0 < f -> n < f * f -> (forall q, prime q -> (q | n) -> (f | q - 1)) -> prime n.
Proof.
  intros Hn Hf Hff H.
  destruct (prime_dec n) as [|Np]; auto. exfalso.
  (* a composite n has a prime divisor q with q*q <= n *)
  assert (exists d, 1 < d /\ d * d <= n /\ (d | n)).
  { destruct (not_prime_divide n Hn Np) as (d & Hd & [c Ec]).
    destruct (Z.le_gt_cases d c).
    - exists d. split; [lia|]. split; [nia|]. exists c; auto.
    - exists c. split; [nia|]. split; [nia|]. exists d. lia. }
  destruct H0 as (d & D1 & D2 & D3).
  assert (exists q, prime q /\ (q | d)).
  { clear - D1. assert (W : forall m : nat, forall d, 1 < d < Z.of_nat m -> exists q, prime q /\ (q | d)).
    { clear d D1. induction m; intros d Hd; [lia|].
      destruct (prime_dec d) as [|N]; [exists d; split; auto; apply Z.divide_refl|].
      destruct (not_prime_divide d ltac:(lia) N) as (c & Hc & Dc).
      destruct (IHm c) as (q & Pq & Dq); [lia|]. exists q. split; auto.
      apply Z.divide_trans with c; auto. }
    apply (W (Z.to_nat (d + 1))). lia. }
  destruct H0 as (q & Pq & Dq).
  assert (F := H q Pq (Z.divide_trans _ _ _ Dq D3)).
  assert (Q2 := prime_ge_2 q Pq).
  apply Z.divide_pos_le in F; [|lia].
  apply Z.divide_pos_le in Dq; [|lia]. nia.
Qed.

(** trial division for small primes *)
Definition no_divisor (n : Z) (k : positive) : bool :=
  Pos.peano_rect (fun _ => bool) true
    (fun d acc => (negb (n mod (Zpos d + 1) =? 0)) && acc)%bool k.

Lemma no_divisor_spec n k d : no_divisor n k = true -> 1 < d <= Zpos k -> ~ (d | n).
Proof.
  unfold no_divisor. induction k using Pos.peano_ind; intros H Hd; [lia|].
  rewrite Pos.peano_rect_succ in H. apply andb_prop in H as [H1 H2].
  destruct (Z.eq_dec d (Zpos k + 1)) as [->|].
  - intros D. apply Z.mod_divide in D; [|lia]. rewrite D in H1. discriminate.
  - apply IHk; auto. lia.
Qed.

Lemma small_prime n k : 1 < n -> no_divisor n k = true -> n < (Zpos k + 1) * (Zpos k + 1) -> prime n.
Proof.
  intros Hn H Hk. destruct (prime_dec n) as [|Np]; auto. exfalso.
  destruct (not_prime_divide n Hn Np) as (d & Hd & [c Ec]).
  destruct (Z.le_gt_cases d (Zpos k)) as [L|L].
  - apply (no_divisor_spec n k d H); [lia|]. exists c; auto.
  - apply (no_divisor_spec n k c H); [nia|]. exists d. lia.
Qed.
