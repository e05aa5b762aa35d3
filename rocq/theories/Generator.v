(** * Generator: when the powers of a number give every residue of a prime other than 0 *)
From Coq Require Import ZArith Znumtheory Lia Zpow_facts List Bool.
From Verif Require Import Fermat.
Import ListNotations.
Local Open Scope Z_scope.

Lemma prime_divisor d : 1 < d -> exists q, prime q /\ (q | d).
Proof.
  intros D1. assert (W : forall m : nat, forall d, 1 < d < Z.of_nat m -> exists q, prime q /\ (q | d)).
  { clear d D1. induction m; intros d Hd; [lia|].
    destruct (prime_dec d) as [P|N]; [exists d; split; [exact P|apply Z.divide_refl]|].
    destruct (not_prime_divide d ltac:(lia) N) as (c & Hc & Dc).
    destruct (IHm c) as (q & Pq & Dq); [lia|]. exists q. split; [exact Pq|]. apply Z.divide_trans with c; assumption. }
  apply (W (Z.to_nat (d + 1))). lia.
Qed.

(** the primes that divide a product of powers of primes are those of the product *)
Lemma divides_base n a e : prime n -> 0 <= e -> (n | a ^ e) -> (n | a).
Proof.
  intros P E. revert e E. apply (natlike_ind (fun e => (n | a ^ e) -> (n | a))).
  - intros D. rewrite Z.pow_0_r in D. apply Z.divide_1_r_nonneg in D; pose proof (prime_ge_2 n P); lia.
  - intros e E IH D. rewrite Z.pow_succ_r in D by exact E. destruct (prime_mult n P _ _ D) as [D1|D1]; [exact D1|exact (IH D1)].
Qed.
Lemma divides_power q p e : prime q -> prime p -> 0 <= e -> (q | p ^ e) -> q = p.
Proof.
  intros Q P E D. apply prime_div_prime; [exact Q|exact P|]. apply (divides_base q p e); assumption.
Qed.
Definition factored (l : list (Z * Z)) : Z := fold_right (fun f acc => fst f ^ snd f * acc) 1 l.
Lemma divides_factored q l : prime q -> (forall p e, In (p, e) l -> prime p /\ 0 <= e) -> (q | factored l) -> In q (map fst l).
Proof.
  intros Q. induction l as [|[p e] l IH]; intros H D.
  - cbn in D. apply Z.divide_1_r_nonneg in D; pose proof (prime_ge_2 q Q); lia.
  - cbn [factored fold_right fst snd] in D. destruct (prime_mult q Q _ _ D) as [D1|D1].
    + left. cbn. destruct (H p e (or_introl eq_refl)) as [P E]. symmetry. apply (divides_power q p e); assumption.
    + right. apply IH; [|exact D1]. intros p' e' I. apply H. now right.
Qed.

Section Order.
Variables n a : Z.
Hypothesis Pn : prime n.
Hypothesis Na : ~ (n | a).
Hypothesis Hq : forall q, prime q -> (q | n - 1) -> a ^ ((n - 1) / q) mod n <> 1.

Lemma n_gt : 1 < n. Proof. pose proof (prime_ge_2 n Pn). lia. Qed.
Lemma order_exact i : 0 < i -> a ^ i mod n = 1 -> (n - 1 | i).
Proof.
  intros Hi E. pose proof n_gt as G.
  destruct (Z.eq_dec n 2) as [->|N2]; [exists i; lia|].
  pose proof (fermat n a Pn Na) as F.
  pose proof (pow_gcd_1 n a i (n - 1) G Hi ltac:(lia) E F) as D. set (d := Z.gcd i (n - 1)) in *.
  assert (Dn : (d | n - 1)) by apply Z.gcd_divide_r. assert (Di : (d | i)) by apply Z.gcd_divide_l.
  assert (Dp : 0 < d). { pose proof (Z.gcd_nonneg i (n - 1)). fold d in H. destruct (Z.eq_dec d 0) as [E0|]; [|lia]. rewrite E0 in Di. destruct Di as [k K]. lia. }
  destruct Dn as [c Ec]. destruct (Z.eq_dec c 1) as [->|Nc]; [replace (n - 1) with d by lia; exact Di|].
  assert (Cp : 1 < c) by nia. destruct (prime_divisor c Cp) as (q & Pq & [c' Ec']). exfalso.
  pose proof (prime_ge_2 q Pq). apply (Hq q Pq); [exists (c' * d); rewrite Ec, Ec'; ring|].
  replace ((n - 1) / q) with (d * c') by (rewrite Ec, Ec'; replace (c' * q * d) with (d * c' * q) by ring; rewrite Z.div_mul; lia).
  apply pow_mult_1; [exact G|lia|nia|exact D].
Qed.
Lemma powers_injective i j : 0 <= i < n - 1 -> 0 <= j < n - 1 -> a ^ i mod n = a ^ j mod n -> i = j.
Proof.
  assert (L : forall i j, 0 <= i -> i < j -> j < n - 1 -> a ^ i mod n = a ^ j mod n -> False).
  { clear i j. intros i j Hi Hij Hj E. pose proof n_gt as G.
    assert (D : (n | a ^ i * (a ^ (j - i) - 1))).
    { replace (a ^ i * (a ^ (j - i) - 1)) with (a ^ j - a ^ i) by (replace j with (i + (j - i)) at 1 by lia; rewrite Z.pow_add_r by lia; ring).
      apply Z.mod_divide; [lia|]. rewrite Zminus_mod, E, Z.sub_diag. reflexivity. }
    destruct (prime_mult n Pn _ _ D) as [D1|D1].
    - destruct (Z.eq_dec i 0) as [->|]; [rewrite Z.pow_0_r in D1; apply Z.divide_1_r_nonneg in D1; lia|].
      apply Na. apply (divides_base n a i); assumption || lia.
    - assert (O : a ^ (j - i) mod n = 1).
      { apply Z.mod_divide in D1; [|lia]. replace (a ^ (j - i)) with (a ^ (j - i) - 1 + 1) by ring.
        rewrite Zplus_mod, D1, Z.add_0_l, Z.mod_mod by lia. apply Z.mod_small. lia. }
      apply order_exact in O; [|lia]. apply Z.divide_pos_le in O; lia. }
  intros Hi Hj E. destruct (Z.lt_trichotomy i j) as [C|[C|C]]; [exfalso; apply (L i j); lia|exact C|exfalso; apply (L j i); lia].
Qed.
Lemma generates x : 0 < x < n -> exists e, 0 <= e < n - 1 /\ a ^ e mod n = x.
Proof.
  intros Hx. pose proof n_gt as G.
  set (ps := map (fun i => a ^ Z.of_nat i mod n) (seq 0 (Z.to_nat (n - 1)))).
  assert (I : incl (residues n) ps).
  { apply NoDup_length_incl.
    - assert (ND : forall l, (forall i, In i l -> (i < Z.to_nat (n - 1))%nat) -> NoDup l -> NoDup (map (fun i => a ^ Z.of_nat i mod n) l)).
      { induction l as [|i l IH]; intros B N; [constructor|]. inversion N; subst. cbn [map]. constructor.
        - rewrite in_map_iff. intros (j & Ej & Ij). assert (i = j); [|now subst].
          apply Nat2Z.inj. pose proof (B i (or_introl eq_refl)). pose proof (B j (or_intror Ij)). apply powers_injective; [lia|lia|congruence].
        - apply IH; [|assumption]. intros j J. apply B. now right. }
      apply ND; [|apply seq_NoDup]. intros i Hi. apply in_seq in Hi. lia.
    - unfold ps, residues. rewrite !map_length, !seq_length. lia.
    - intros y Hy. unfold ps in Hy. apply in_map_iff in Hy as (i & <- & Hi). apply in_residues; [exact G|].
      pose proof (Z.mod_pos_bound (a ^ Z.of_nat i) n ltac:(lia)) as B. split; [|apply B].
      destruct (Z.eq_dec (a ^ Z.of_nat i mod n) 0) as [E|]; [|lia]. exfalso.
      apply Z.mod_divide in E; [|lia]. destruct (Nat.eq_dec i 0) as [->|]; [cbn in E; apply Z.divide_1_r_nonneg in E; lia|].
      apply Na. apply (divides_base n a (Z.of_nat i)); assumption || lia. }
  apply (in_residues n x G) in Hx. apply I in Hx. unfold ps in Hx. apply in_map_iff in Hx as (i & <- & Hi).
  apply in_seq in Hi. exists (Z.of_nat i). split; [lia|reflexivity].
Qed.
End Order.
