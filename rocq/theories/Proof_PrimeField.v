(** * Proof_PrimeField: the published constants, parity and sums *)
From Coq Require Import List Bool ZArith Znumtheory Lia.
From Verif Require Import Base Fld Fermat Generator Tables Zr Model_Scalar Spec_Scalar Proof_Scalar Proof_Scalar2 Proof_Scalar3 Proof_Scalar4 Proof_Scalar5 Model_PrimeField.
Import ListNotations.
Local Open Scope Z_scope.

Add Field Fr_field_pf : (fld_field Fr).
(** ** the factors of r - 1 *)
Definition r_factors : list (Z * Z) :=
  [(2, 32); (3, 1); (11, 1); (19, 1); (10177, 1); (125527, 1); (859267, 1); (906349, 2); (2508409, 1); (2529403, 1); (52437899, 1); (254760293, 2)].
Lemma r_factored : factored r_factors = r - 1. Proof. vm_compute. reflexivity. Qed.
Lemma r_factors_prime p e : In (p, e) r_factors -> prime p /\ 0 <= e.
Proof.
  intros H. unfold r_factors in H. cbn [In] in H.
  repeat (destruct H as [H|H]; [injection H as <- <-; split; [|lia]|]); [| | | | | | | | | | | |destruct H].
  - exact prime_2.
  - exact prime_3.
  - apply (small_prime _ 4); [lia|vm_compute; reflexivity|lia].
  - apply (small_prime _ 5); [lia|vm_compute; reflexivity|lia].
  - apply (small_prime _ 101); [lia|vm_compute; reflexivity|lia].
  - apply (small_prime _ 355); [lia|vm_compute; reflexivity|lia].
  - apply (small_prime _ 927); [lia|vm_compute; reflexivity|lia].
  - exact prime_906349.
  - apply (small_prime _ 1584); [lia|vm_compute; reflexivity|lia].
  - apply (small_prime _ 1591); [lia|vm_compute; reflexivity|lia].
  - exact prime_52437899.
  - exact prime_254760293.
Qed.
Definition not_one (q : Z) : bool := negb (powmod 7 ((r - 1) / q) r =? 1).
Lemma all_not_one : forallb not_one (map fst r_factors) = true. Proof. vm_compute. reflexivity. Qed.
Lemma seven_order q : prime q -> (q | r - 1) -> 7 ^ ((r - 1) / q) mod r <> 1.
Proof.
  intros Q D. rewrite <- r_factored in D. pose proof (divides_factored q r_factors Q r_factors_prime D) as I.
  pose proof (proj1 (forallb_forall _ _) all_not_one q I) as N. unfold not_one in N. apply negb_true_iff, Z.eqb_neq in N.
  pose proof (prime_ge_2 q Q). rewrite powmod_spec in N; [exact N|exact r_pos|]. apply Z.div_pos; [|lia]. pose proof r_gt_1. lia.
Qed.
Lemma seven_nd : ~ (r | 7). Proof. intros D. apply Z.divide_pos_le in D; [|reflexivity]. revert D. vm_compute. intros D. apply D. reflexivity. Qed.

Definition seven : Fr := fr_of 7.
Lemma val_seven : val seven = 7. Proof. reflexivity. Qed.
Lemma rep_generator : represents GENERATOR seven.
Proof. unfold represents. rewrite val_seven. repeat split; reflexivity || discriminate. Qed.
Lemma val_pow x e : val (Fr_pow x e) = val x ^ e mod r. Proof. reflexivity. Qed.
Lemma generator_all x : x <> f0 -> exists e, 0 <= e < r - 1 /\ Fr_pow seven e = x /\ forall e', 0 <= e' < r - 1 -> Fr_pow seven e' = x -> e' = e.
Proof.
  intros N. assert (V : 0 < val x < r).
  { pose proof (val_range x) as B. split; [|apply B]. destruct (Z.eq_dec (val x) 0) as [E|]; [|lia]. exfalso. apply N, val_inj. exact E. }
  destruct (generates r 7 r_prime seven_nd seven_order (val x) V) as (e & B & E). exists e. split; [exact B|].
  assert (P : Fr_pow seven e = x) by (apply val_inj; rewrite val_pow, val_seven; exact E). split; [exact P|].
  intros e' B' P'. apply (powers_injective r 7 r_prime seven_nd seven_order); [exact B'|exact B|].
  rewrite E. rewrite <- P'. rewrite val_pow, val_seven. reflexivity.
Qed.
Lemma generator_nonresidue x : fmul x x <> seven.
Proof.
  intros E. assert (N : x <> f0).
  { intros ->. apply (f_equal val) in E. rewrite val_seven in E. vm_compute in E. discriminate E. }
  destruct (generator_all x N) as (e & B & P & _).
  assert (M : 7 ^ (2 * e) mod r = 7 mod r).
  { apply (f_equal val) in E. rewrite val_seven in E. change (val (fmul x x)) with ((val x * val x) mod r) in E.
    rewrite <- P, val_pow, val_seven in E. rewrite <- Zmult_mod in E. rewrite <- Z.pow_add_r in E by lia.
    replace (2 * e) with (e + e) by ring. rewrite E. reflexivity. }
  set (k := 2 * e) in *. assert (K : k <> 0).
  { intros K. rewrite K in M. vm_compute in M. discriminate M. }
  assert (D : (r - 1 | k - 1)).
  { destruct (Z.eq_dec k 1) as [->|N1]; [exists 0; reflexivity|].
    apply (order_exact r 7 r_prime seven_nd seven_order); [lia|].
    assert (D : (r | 7 * (7 ^ (k - 1) - 1))).
    { apply Z.mod_divide; [discriminate|]. replace (7 * (7 ^ (k - 1) - 1)) with (7 ^ k - 7) by (replace k with (1 + (k - 1)) at 1 by ring; rewrite Z.pow_add_r by lia; ring).
      rewrite Zminus_mod, M, Z.sub_diag. reflexivity. }
    destruct (prime_mult r r_prime _ _ D) as [D1|D1]; [destruct (seven_nd D1)|].
    apply Z.mod_divide in D1; [|discriminate]. replace (7 ^ (k - 1)) with (7 ^ (k - 1) - 1 + 1) by ring.
    rewrite Zplus_mod, D1. reflexivity. }
  assert (D2 : (2 | k - 1)) by (apply Z.divide_trans with (r - 1); [exists ((r - 1) / 2); reflexivity|exact D]).
  destruct D2 as [c C]. unfold k in C. lia.
Qed.
Lemma rep_root32 : represents ROOT_OF_UNITY root32. Proof. apply represents_rep. exact rep_root. Qed.
Definition odd_part : Z := (r - 1) / 2 ^ 32.
Lemma root_power : Fr_pow seven odd_part = root32.
Proof. apply val_inj. rewrite val_pow, val_seven. rewrite <- powmod_spec by (vm_compute; first [reflexivity|discriminate]). vm_compute. reflexivity. Qed.
Lemma odd_part_pos : 0 < odd_part. Proof. reflexivity. Qed.
Lemma odd_part_times : r - 1 = odd_part * 2 ^ 32. Proof. reflexivity. Qed.
Lemma r1_pos : 0 <= r - 1. Proof. discriminate. Qed.
Local Opaque odd_part.
Lemma root_order e : 0 <= e -> Fr_pow root32 e = f1 <-> (2 ^ 32 | e).
Proof.
  intros E. assert (R : Fr_pow root32 e = fr_of (7 ^ (odd_part * e))).
  { unfold Fr_pow. apply fr_of_eq. rewrite <- root_power, val_pow, val_seven. rewrite <- Zpow_facts.Zpower_mod by exact r_pos.
    rewrite <- Z.pow_mul_r; [reflexivity|pose proof odd_part_pos; lia|exact E]. }
  rewrite R. split.
  - intros H. apply (f_equal val) in H. change (7 ^ (odd_part * e) mod r = 1) in H.
    destruct (Z.eq_dec e 0) as [->|N]; [apply Z.divide_0_r|].
    apply (order_exact r 7 r_prime seven_nd seven_order) in H; [|apply Z.mul_pos_pos; [exact odd_part_pos|lia]].
    rewrite odd_part_times in H. apply Z.mul_divide_cancel_l in H; [exact H|pose proof odd_part_pos; lia].
  - intros [c ->]. apply val_inj. change (7 ^ (odd_part * (c * 2 ^ 32)) mod r = 1).
    replace (odd_part * (c * 2 ^ 32)) with ((r - 1) * c) by (rewrite odd_part_times; ring).
    apply pow_mult_1; [exact r_gt_1|exact r1_pos|lia|]. apply (fermat r 7 r_prime seven_nd).
Qed.

(** ** parity and sums *)
Lemma odd_ok a x : represents a x -> is_odd a = Z.odd (val x).
Proof.
  intros H. destruct (C42_encode_proof a x H) as ([L B] & V & _). unfold is_odd. rewrite <- V.
  destruct (to_bytes a) as [|b t]; [discriminate L|]. cbn [nth bytes_val].
  rewrite Z.odd_add, Z.odd_mul. change (Z.odd 256) with false. cbn [andb]. rewrite xorb_false_r.
  change 1 with (Z.ones 1) at 1. rewrite Z.land_ones by discriminate. change (2 ^ 1) with 2. rewrite Zmod_odd. destruct (Z.odd b); reflexivity.
Qed.
Definition fsum (xs : list Fr) : Fr := fold_right fadd f0 xs.
Lemma sum_ok items xs : Forall2 represents items xs -> represents (sum items) (fsum xs).
Proof.
  unfold sum. assert (G : forall items xs acc y, Forall2 represents items xs -> represents acc y ->
    represents (fold_left (fun acc item => add acc item) items acc) (fadd y (fsum xs))).
  { clear. induction items as [|a items IH]; intros xs acc y F A; inversion F as [|? b ? l' Hab F']; subst; cbn [fold_left fsum fold_right].
    - replace (fadd y f0) with y by ring. exact A.
    - replace (fadd y (fadd b (fold_right fadd f0 l'))) with (fadd (fadd y b) (fsum l')) by (unfold fsum; ring). apply IH; [exact F'|]. apply (C41_operations_proof acc a y b A Hab). }
  intros F. replace (fsum xs) with (fadd f0 (fsum xs)) by ring. apply G; [exact F|].
  apply (proj1 (proj2 (proj2 (proj2 (proj2 (proj2 (proj2 (C41_operations_proof GENERATOR GENERATOR seven seven rep_generator rep_generator)))))))).
Qed.

(** ** the statements *)
Lemma generator_ok : exists g, represents multiplicative_generator g /\
  (forall x, x <> f0 -> exists e, 0 <= e < r - 1 /\ Fr_pow g e = x /\ forall e', 0 <= e' < r - 1 -> Fr_pow g e' = x -> e' = e) /\
  (forall x, fmul x x <> g).
Proof. exists seven. split; [exact rep_generator|]. split; [exact generator_all|exact generator_nonresidue]. Qed.
Lemma root_ok : exists g w t, represents multiplicative_generator g /\ represents root_of_unity w /\
  r - 1 = 2 ^ S_const * t /\ Z.odd t = true /\ w = Fr_pow g t /\ forall e, 0 <= e -> Fr_pow w e = f1 <-> (2 ^ S_const | e).
Proof.
  exists seven, root32, odd_part. split; [exact rep_generator|]. split; [exact rep_root32|].
  split; [rewrite odd_part_times; apply Z.mul_comm|]. split; [vm_compute; reflexivity|]. split; [symmetry; exact root_power|]. exact root_order.
Qed.
Lemma repr_ok a x : represents a x -> is_bytes 32 (to_repr a) /\ bytes_val (to_repr a) = val x /\ from_repr (to_repr a) = Some a /\ into_bytes a = to_repr a.
Proof. intros H. destruct (C42_encode_proof a x H) as (A & B & C). split; [exact A|]. split; [exact B|]. split; [exact C|reflexivity]. Qed.
Lemma bits_ok : 2 ^ (NUM_BITS - 1) <= r < 2 ^ NUM_BITS /\
  (forall bs, is_bytes 32 bs -> bytes_val bs < 2 ^ CAPACITY -> exists s, from_repr bs = Some s /\ represents s (fr_of (bytes_val bs))) /\
  (exists bs, is_bytes 32 bs /\ bytes_val bs < 2 ^ (CAPACITY + 1) /\ from_repr bs = None).
Proof.
  split; [vm_compute; split; [discriminate|reflexivity]|]. split.
  - intros bs B L. destruct (C42_decode_proof bs B) as [D _]. destruct D as (s & E & R & _); [apply Z.lt_trans with (2 ^ CAPACITY); [exact L|reflexivity]|].
    exists s. split; [exact E|exact R].
  - exists (repeat 255 31 ++ [127]). split; [|split; [reflexivity|vm_compute; reflexivity]].
    split; [reflexivity|]. apply Forall_app. split; [apply Forall_forall; intros b H; apply repeat_spec in H; lia|repeat constructor; lia].
Qed.
