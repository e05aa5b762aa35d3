(** * Proof_Scalar2: representation, encodings, powers and inversion *)
From Coq Require Import ZArith Lia List Bool Znumtheory Ring Field.
From Verif Require Import Base Fld Fermat Tables Zr Model_Scalar Spec_Scalar Proof_Scalar.
Import ListNotations.
Local Open Scope Z_scope.

Add Field Fr_field : (fld_field Fr).

Lemma wf_limbs s n : limbs s n <-> wf s /\ sval s = n.
Proof.
  destruct s as [a b c d]. unfold limbs, wf, u64, sval. cbn [limbs_val]. change (2 ^ 64) with W.
  replace (a + W * (b + W * (c + W * (d + W * 0)))) with (a + W * (b + W * (c + W * d))) by ring.
  split; [intros (A & B & C & D & ->)|intros ((A & B & C & D) & <-)]; auto 10.
Qed.

Lemma sval_inj a b : wf a -> wf b -> sval a = sval b -> a = b.
Proof.
  destruct a as [a0 a1 a2 a3], b as [b0 b1 b2 b3]. unfold wf, u64, sval. rewrite W_val.
  intros (A0 & A1 & A2 & A3) (B0 & B1 & B2 & B3) E. f_equal; lia.
Qed.

(** Montgomery factor as a field element *)
Definition RR : Fr := fr_of (W ^ 4).
Lemma RR_neq_0 : RR <> f0.
Proof. intros H. apply (f_equal val) in H. discriminate H. Qed.

Definition rep (s : scalar) (x : Fr) : Prop := canonical s /\ fr_of (sval s) = fmul x RR.

Lemma fr_of_val x : fr_of (val x) = x. Proof. apply to_Fr_val. Qed.
Lemma val_fr_of n : val (fr_of n) = n mod r. Proof. reflexivity. Qed.
Lemma fr_of_mod n : fr_of (n mod r) = fr_of n.
Proof. apply to_Fr_eq. apply Z.mod_mod. discriminate. Qed.
Lemma fr_of_eq a b : a mod r = b mod r -> fr_of a = fr_of b.
Proof. intros H. now apply to_Fr_eq. Qed.

Lemma represents_rep s x : represents s x <-> rep s x.
Proof.
  unfold represents, rep, canonical. rewrite wf_limbs. split.
  - intros [Wf E]. split; [split; [exact Wf|rewrite E; apply Z.mod_pos_bound, r_pos]|].
    rewrite E, fr_of_mod, fr_of_mul, fr_of_val. reflexivity.
  - intros [[Wf L] E]. split; [exact Wf|].
    unfold RR in E. rewrite <- (fr_of_val x), <- fr_of_mul in E. apply (f_equal val) in E. rewrite !val_fr_of in E.
    rewrite Z.mod_small in E; [exact E|]. split; [apply sval_range, Wf|exact L].
Qed.

Lemma canonical_rep s : canonical s -> rep s (fdiv (fr_of (sval s)) RR).
Proof. intros C. split; [exact C|]. field. apply RR_neq_0. Qed.

Lemma rep_unique s x y : rep s x -> rep s y -> x = y.
Proof.
  intros [_ A] [_ B]. rewrite A in B.
  transitivity (fdiv (fmul x RR) RR); [field; apply RR_neq_0|]. rewrite B. field. apply RR_neq_0.
Qed.
Lemma rep_inj s t x : rep s x -> rep t x -> s = t.
Proof.
  intros [[A LA] EA] [[B LB] EB]. apply sval_inj; auto.
  rewrite <- EB in EA. apply (f_equal val) in EA. rewrite !val_fr_of in EA.
  rewrite !Z.mod_small in EA; auto; split; auto; apply sval_range; auto.
Qed.

(** ** ring operations *)
Lemma rep_add a b x y : rep a x -> rep b y -> rep (add a b) (fadd x y).
Proof.
  intros [A EA] [B EB]. destruct (add_canonical a b A B) as [C V]. split; [exact C|].
  rewrite V, fr_of_mod, fr_of_add, EA, EB. ring.
Qed.
Lemma rep_sub a b x y : rep a x -> rep b y -> rep (sub a b) (fsub x y).
Proof.
  intros [A EA] [B EB]. destruct (sub_canonical a b A B) as [C V]. split; [exact C|].
  rewrite V, fr_of_mod, fr_of_sub, EA, EB. ring.
Qed.

Lemma canonical_prod a b : canonical a -> canonical b -> sval a * sval b < r * W ^ 4.
Proof.
  intros [A LA] [B LB]. assert (Ra := sval_range a A). assert (Rb := sval_range b B). nia.
Qed.

Lemma rep_mul_gen a b x y : wf a -> wf b -> sval a * sval b < r * W ^ 4 ->
  fr_of (sval a) = fmul x RR -> fr_of (sval b) = fmul y RR -> rep (mul a b) (fmul x y).
Proof.
  intros A B L EA EB. destruct (mul_spec a b A B L) as [C V]. split; [exact C|].
  apply fr_of_eq in V. rewrite !fr_of_mul in V. fold RR in V. rewrite EA, EB in V.
  transitivity (fdiv (fmul (fr_of (sval (mul a b))) RR) RR); [field; apply RR_neq_0|].
  rewrite V. field. apply RR_neq_0.
Qed.
Lemma rep_mul a b x y : rep a x -> rep b y -> rep (mul a b) (fmul x y).
Proof.
  intros [A EA] [B EB]. apply rep_mul_gen; auto using canonical_prod; apply A || apply B.
Qed.
Lemma rep_square a x : rep a x -> rep (square a) (fmul x x).
Proof.
  intros [A EA]. destruct (square_spec a (proj1 A) (canonical_prod a a A A)) as [C V]. split; [exact C|].
  apply fr_of_eq in V. rewrite !fr_of_mul in V. fold RR in V. rewrite EA in V.
  transitivity (fdiv (fmul (fr_of (sval (square a))) RR) RR); [field; apply RR_neq_0|].
  rewrite V. field. apply RR_neq_0.
Qed.

Lemma rep_zero : rep zero f0.
Proof. split; [split; [repeat split; reflexivity || discriminate|reflexivity]|]. change (sval zero) with 0. change (fr_of 0) with (f0 : Fr). ring. Qed.
Lemma rep_one : rep one f1.
Proof.
  split; [split; [repeat split; reflexivity || discriminate|reflexivity]|].
  rewrite (fr_of_eq (sval one) (W ^ 4)) by reflexivity. fold RR. ring.
Qed.

Lemma neg_spec a : canonical a -> canonical (neg a) /\ sval (neg a) = (- sval a) mod r.
Proof.
  destruct a as [a0 a1 a2 a3]. intros [(A0 & A1 & A2 & A3) L].
  assert (Ra := sval_range (Scalar a0 a1 a2 a3) ltac:(repeat split; apply A0 || apply A1 || apply A2 || apply A3)).
  unfold neg. do 4 limb_step.
  assert (D : sval (Scalar lo lo0 lo1 lo2) = r - sval (Scalar a0 a1 a2 a3) + W ^ 4 * bbit hi2).
  { unfold sval. rewrite E, E0, E1, E2. replace r with (q0 + W * (q1 + W * (q2 + W * q3))) by reflexivity. change (bbit 0) with 0. ring. }
  assert (WF : wf (Scalar lo lo0 lo1 lo2)) by (repeat split; apply U || apply U1 || apply U3 || apply U5).
  assert (Rd := sval_range _ WF).
  assert (P := r_pos). assert (Hr := r_lt_W4).
  assert (B0 : bbit hi2 = 0).
  { destruct (bbit_01 hi2) as [X|X]; [exact X|]. rewrite X in D. exfalso.
    revert D Rd L Ra. generalize (sval (Scalar lo lo0 lo1 lo2)) (sval (Scalar a0 a1 a2 a3)). intros; lia. }
  rewrite B0, Z.mul_0_r, Z.add_0_r in D.
  destruct (Z.lor (Z.lor (Z.lor a0 a1) a2) a3 =? 0) eqn:Em.
  - change ((1 - 1) mod W) with 0. rewrite !Z.land_0_r.
    apply Z.eqb_eq in Em. rewrite !Z.lor_eq_0_iff in Em. destruct Em as [[[-> ->] ->] ->].
    split; [split; [repeat split; reflexivity || discriminate|reflexivity]|reflexivity].
  - change ((0 - 1) mod W) with (W - 1).
    assert (BW : bword (W - 1)) by now right.
    rewrite !land_bword by assumption. change (bbit (W - 1)) with 1. rewrite !Z.mul_1_r.
    assert (NZ : sval (Scalar a0 a1 a2 a3) <> 0).
    { intros Z0. unfold sval in Z0. unfold u64 in *. rewrite W_val in *.
      assert (a0 = 0 /\ a1 = 0 /\ a2 = 0 /\ a3 = 0) as (-> & -> & -> & ->) by lia. discriminate Em. }
    unfold canonical. rewrite D. rewrite mod_sub_once by lia.
    split; [split; [exact WF|lia]|ring].
Qed.
Lemma fr_of_neg x : fr_of (- x) = fneg (fr_of x).
Proof. replace (- x) with (0 - x) by ring. rewrite fr_of_sub. change (fr_of 0) with (f0 : Fr). ring. Qed.
Lemma rep_neg a x : rep a x -> rep (neg a) (fneg x).
Proof.
  intros [A EA]. destruct (neg_spec a A) as [C V]. split; [exact C|].
  rewrite V, fr_of_mod, fr_of_neg, EA. ring.
Qed.

(** ** integers and byte strings *)
Lemma sval_R2 : wf R2 /\ sval R2 < r /\ fr_of (sval R2) = fmul RR RR.
Proof.
  split; [repeat split; reflexivity || discriminate|]. split; [reflexivity|].
  unfold RR. rewrite <- fr_of_mul. apply fr_of_eq. vm_compute. reflexivity.
Qed.
Lemma sval_R3 : wf R3 /\ sval R3 < r /\ fr_of (sval R3) = fmul (fmul RR RR) RR.
Proof.
  split; [repeat split; reflexivity || discriminate|]. split; [reflexivity|].
  unfold RR. rewrite <- !fr_of_mul. apply fr_of_eq. vm_compute. reflexivity.
Qed.

Lemma prod_bound a b : wf a -> wf b -> sval b < r -> sval a * sval b < r * W ^ 4.
Proof.
  intros A B L. assert (Ra := sval_range a A). assert (Rb := sval_range b B). assert (P := r_pos).
  change (W ^ 4) with (2 ^ 256) in *. nia.
Qed.
Lemma rep_mul_R2 d : wf d -> rep (mul d R2) (fr_of (sval d)).
Proof.
  intros D. destruct sval_R2 as (A & L & E).
  replace (fr_of (sval d)) with (fmul (fdiv (fr_of (sval d)) RR) RR) by (field; apply RR_neq_0).
  apply rep_mul_gen; auto using prod_bound. field. apply RR_neq_0.
Qed.
Lemma rep_mul_R3 d : wf d -> rep (mul d R3) (fmul (fr_of (sval d)) RR).
Proof.
  intros D. destruct sval_R3 as (A & L & E).
  replace (fmul (fr_of (sval d)) RR) with (fmul (fdiv (fr_of (sval d)) RR) (fmul RR RR)) by (field; apply RR_neq_0).
  apply rep_mul_gen; auto using prod_bound. field. apply RR_neq_0.
Qed.

Lemma reduce_spec a x : rep a x -> canonical (reduce a) /\ sval (reduce a) = val x.
Proof.
  destruct a as [a0 a1 a2 a3]. intros [[(A0 & A1 & A2 & A3) L] EA]. unfold reduce.
  destruct (montgomery_reduce_spec a0 a1 a2 a3 0 0 0 0) as [C V]; auto using u64_0.
  { replace (a0 + W * (a1 + W * (a2 + W * (a3 + W * (0 + W * (0 + W * (0 + W * 0))))))) with (sval (Scalar a0 a1 a2 a3)) by (unfold sval; ring).
    apply Z.lt_trans with r; [exact L|reflexivity]. }
  split; [exact C|].
  replace (a0 + W * (a1 + W * (a2 + W * (a3 + W * (0 + W * (0 + W * (0 + W * 0))))))) with (sval (Scalar a0 a1 a2 a3)) in V by (unfold sval; ring).
  set (s := montgomery_reduce a0 a1 a2 a3 0 0 0 0) in *.
  apply fr_of_eq in V. rewrite fr_of_mul, EA in V. fold RR in V.
  assert (X : fr_of (sval s) = x).
  { transitivity (fdiv (fmul (fr_of (sval s)) RR) RR); [field; apply RR_neq_0|]. rewrite V. field. apply RR_neq_0. }
  rewrite <- X, val_fr_of. symmetry. apply Z.mod_small. split; [apply sval_range, C|apply C].
Qed.

Lemma from_le_bytes_val bs : from_le_bytes bs = bytes_val bs.
Proof. induction bs as [|b bs IH]; [reflexivity|]. cbn [from_le_bytes bytes_val]. now rewrite IH. Qed.
Lemma bytes_val_app a b : bytes_val (a ++ b) = bytes_val a + 256 ^ Z.of_nat (length a) * bytes_val b.
Proof.
  induction a as [|x a IH]; [cbn [app length bytes_val]; change (Z.of_nat 0) with 0; change (256 ^ 0) with 1; ring|].
  cbn [app length bytes_val]. rewrite IH, Nat2Z.inj_succ, Z.pow_succ_r by lia. ring.
Qed.
Lemma bytes_val_range bs : Forall (fun b => 0 <= b < 256) bs -> 0 <= bytes_val bs < 256 ^ Z.of_nat (length bs).
Proof.
  induction 1 as [|b bs B F IH]; [cbn; lia|].
  cbn [length bytes_val]. rewrite Nat2Z.inj_succ, Z.pow_succ_r by lia. lia.
Qed.
Lemma bytes_val_inj a b : Forall (fun x => 0 <= x < 256) a -> Forall (fun x => 0 <= x < 256) b ->
  length a = length b -> bytes_val a = bytes_val b -> a = b.
Proof.
  intros A. revert b. induction A as [|x a X A IH]; intros [|y b] B L E; try discriminate; [reflexivity|].
  inversion B as [|? ? Y B' ]; subst. cbn [length bytes_val] in L, E. assert (x = y) by lia. subst y. f_equal. apply IH; auto; lia.
Qed.

Lemma to_le_bytes_spec t n : forall k, 0 <= t ->
  bytes_val (map (fun i => (t / 256 ^ Z.of_nat i) mod 256) (seq k n)) = (t / 256 ^ Z.of_nat k) mod 256 ^ Z.of_nat n.
Proof.
  induction n; intros k H; [cbn; now rewrite Z.mod_1_r|].
  cbn [seq map bytes_val]. rewrite IHn by exact H.
  rewrite !Nat2Z.inj_succ, !Z.pow_succ_r by lia.
  rewrite (Z.mul_comm 256 (256 ^ Z.of_nat k)), <- Z.div_div by (try lia; apply Z.pow_nonzero; lia).
  set (y := t / 256 ^ Z.of_nat k).
  rewrite (Z.rem_mul_r y 256) by (try lia). ring.
Qed.
Lemma to_le_bytes_val t : u64 t -> bytes_val (to_le_bytes t) = t.
Proof.
  intros T. unfold to_le_bytes. rewrite to_le_bytes_spec by apply T.
  change (256 ^ Z.of_nat 0) with 1. rewrite Z.div_1_r. apply Z.mod_small. exact T.
Qed.
Lemma to_le_bytes_bytes t : length (to_le_bytes t) = 8%nat /\ Forall (fun b => 0 <= b < 256) (to_le_bytes t).
Proof.
  split; [reflexivity|]. unfold to_le_bytes. apply Forall_forall. intros b H. apply in_map_iff in H as (i & <- & _).
  apply Z.mod_pos_bound. lia.
Qed.

Lemma to_bytes_spec a x : rep a x -> is_bytes 32 (to_bytes a) /\ bytes_val (to_bytes a) = val x.
Proof.
  intros Ra. destruct (reduce_spec a x Ra) as [[Wf _] V]. unfold to_bytes.
  destruct a as [a0 a1 a2 a3]. unfold reduce in *.
  destruct (montgomery_reduce a0 a1 a2 a3 0 0 0 0) as [t0 t1 t2 t3]. destruct Wf as (T0 & T1 & T2 & T3).
  split.
  - split; [reflexivity|]. rewrite !Forall_app. repeat split; apply to_le_bytes_bytes.
  - rewrite !bytes_val_app, !to_le_bytes_val by assumption. rewrite <- V.
    change (256 ^ Z.of_nat (length (to_le_bytes t0))) with W.
    change (256 ^ Z.of_nat (length (to_le_bytes t1))) with W.
    change (256 ^ Z.of_nat (length (to_le_bytes t2))) with W. reflexivity.
Qed.

(** words of a byte string *)
Lemma word_u64 bs i : Forall (fun b => 0 <= b < 256) bs -> (8 * i + 8 <= length bs)%nat -> u64 (word bs i).
Proof.
  intros F L. unfold word. rewrite from_le_bytes_val.
  assert (F' : Forall (fun b => 0 <= b < 256) (firstn 8 (skipn (8 * i) bs))).
  { apply Forall_forall. intros b Hb. rewrite Forall_forall in F. apply F.
    rewrite <- (firstn_skipn (8 * i) bs). apply in_or_app. right.
    rewrite <- (firstn_skipn 8 (skipn (8 * i) bs)). apply in_or_app. now left. }
  assert (B := bytes_val_range _ F'). rewrite firstn_length_le in B by (rewrite skipn_length; lia). exact B.
Qed.
Lemma word_split bs i : (8 * i + 8 <= length bs)%nat ->
  bytes_val (skipn (8 * i) bs) = word bs i + W * bytes_val (skipn (8 * S i) bs).
Proof.
  intros L. unfold word. rewrite (from_le_bytes_val (firstn 8 (skipn (8 * i) bs))).
  rewrite <- (firstn_skipn 8 (skipn (8 * i) bs)) at 1. rewrite bytes_val_app.
  rewrite firstn_length_le by (rewrite skipn_length; lia).
  replace (skipn 8 (skipn (8 * i) bs)) with (skipn (8 * S i) bs); [reflexivity|].
  clear L. replace (8 * S i)%nat with (8 * i + 8)%nat by lia. generalize (8 * i)%nat. intros n.
  revert bs. induction n; intros bs; [reflexivity|]. destruct bs; [now rewrite !skipn_nil|]. apply IHn.
Qed.
Lemma words_val4 bs : is_bytes 32 bs ->
  wf (Scalar (word bs 0) (word bs 1) (word bs 2) (word bs 3)) /\
  sval (Scalar (word bs 0) (word bs 1) (word bs 2) (word bs 3)) = bytes_val bs.
Proof.
  intros [L F]. split; [repeat split; apply word_u64; auto; lia|].
  assert (V0 := word_split bs 0 ltac:(lia)). assert (V1 := word_split bs 1 ltac:(lia)).
  assert (V2 := word_split bs 2 ltac:(lia)). assert (V3 := word_split bs 3 ltac:(lia)).
  rewrite (@skipn_all2 _ (8 * 4) bs) in V3 by lia. rewrite V3 in V2. rewrite V2 in V1. rewrite V1 in V0.
  change (skipn (8 * 0) bs) with bs in V0. rewrite V0. unfold sval. cbn [bytes_val]. ring.
Qed.
Lemma words_val8 bs : is_bytes 64 bs ->
  wf (Scalar (word bs 0) (word bs 1) (word bs 2) (word bs 3)) /\
  wf (Scalar (word bs 4) (word bs 5) (word bs 6) (word bs 7)) /\
  sval (Scalar (word bs 0) (word bs 1) (word bs 2) (word bs 3))
    + W ^ 4 * sval (Scalar (word bs 4) (word bs 5) (word bs 6) (word bs 7)) = bytes_val bs.
Proof.
  intros [L F]. split; [repeat split; apply word_u64; auto; lia|]. split; [repeat split; apply word_u64; auto; lia|].
  assert (V0 := word_split bs 0 ltac:(lia)). assert (V1 := word_split bs 1 ltac:(lia)).
  assert (V2 := word_split bs 2 ltac:(lia)). assert (V3 := word_split bs 3 ltac:(lia)).
  assert (V4 := word_split bs 4 ltac:(lia)). assert (V5 := word_split bs 5 ltac:(lia)).
  assert (V6 := word_split bs 6 ltac:(lia)). assert (V7 := word_split bs 7 ltac:(lia)).
  rewrite (@skipn_all2 _ (8 * 8) bs) in V7 by lia. rewrite V7 in V6. rewrite V6 in V5. rewrite V5 in V4.
  rewrite V4 in V3. rewrite V3 in V2. rewrite V2 in V1. rewrite V1 in V0.
  change (skipn (8 * 0) bs) with bs in V0. rewrite V0. unfold sval. cbn [bytes_val]. ring.
Qed.

Lemma from_bytes_spec bs : is_bytes 32 bs ->
  (bytes_val bs < r -> exists s, from_bytes bs = Some s /\ rep s (fr_of (bytes_val bs))) /\
  (r <= bytes_val bs -> from_bytes bs = None).
Proof.
  intros H. destruct (words_val4 bs H) as [Wf V]. unfold from_bytes.
  assert (RM := rep_mul_R2 _ Wf). rewrite V in RM.
  destruct Wf as (T0 & T1 & T2 & T3).
  set (tmp := mul _ R2) in *. clearbody tmp.
  set (t0 := word bs 0) in *. set (t1 := word bs 1) in *. set (t2 := word bs 2) in *. set (t3 := word bs 3) in *.
  do 4 limb_step.
  assert (D : sval (Scalar lo lo0 lo1 lo2) = bytes_val bs - r + W ^ 4 * bbit hi2).
  { rewrite <- V. unfold sval. rewrite E, E0, E1, E2. replace r with (q0 + W * (q1 + W * (q2 + W * q3))) by reflexivity. change (bbit 0) with 0. ring. }
  assert (WF : wf (Scalar lo lo0 lo1 lo2)) by (repeat split; apply U || apply U1 || apply U3 || apply U5).
  assert (Rd := sval_range _ WF). rewrite D in Rd.
  assert (Rb := sval_range (Scalar t0 t1 t2 t3) ltac:(repeat split; apply T0 || apply T1 || apply T2 || apply T3)). rewrite V in Rb.
  destruct U6 as [-> | ->].
  - change (bbit 0) with 0 in Rd. change (Z.land (0 mod 256) 1 =? 1) with false. split; [intros; exfalso; lia|reflexivity].
  - change (bbit (W - 1)) with 1 in Rd. change (Z.land ((W - 1) mod 256) 1 =? 1) with true.
    assert (P := r_pos). split; [intros; exists tmp; auto|intros; exfalso; lia].
Qed.

Lemma from_bytes_wide_spec bs : is_bytes 64 bs -> rep (from_bytes_wide bs) (fr_of (bytes_val bs)).
Proof.
  intros H. destruct (words_val8 bs H) as (W0 & W1 & V). unfold from_bytes_wide, from_u512.
  rewrite <- V, fr_of_add, (Z.mul_comm (W ^ 4)), fr_of_mul. fold RR.
  apply rep_add; [apply rep_mul_R2|apply rep_mul_R3]; assumption.
Qed.

(** ** powers *)
Lemma Fr_pow_0 x : Fr_pow x 0 = f1. Proof. reflexivity. Qed.
Lemma Fr_pow_1 x : Fr_pow x 1 = x. Proof. unfold Fr_pow. rewrite Z.pow_1_r. apply fr_of_val. Qed.
Lemma Fr_pow_add x a b : 0 <= a -> 0 <= b -> Fr_pow x (a + b) = fmul (Fr_pow x a) (Fr_pow x b).
Proof. intros. unfold Fr_pow. now rewrite Z.pow_add_r, fr_of_mul. Qed.
Lemma Fr_pow_fermat x : x <> f0 -> fmul (Fr_pow x (r - 2)) x = f1.
Proof.
  intros H. rewrite <- (Fr_pow_1 x) at 2. rewrite <- Fr_pow_add by discriminate.
  replace (r - 2 + 1) with (r - 1) by ring. unfold Fr_pow. apply val_inj. rewrite val_fr_of.
  rewrite fermat; [reflexivity|apply r_prime|]. intros D. apply H. apply val_inj.
  apply Z.mod_divide in D; [|discriminate]. rewrite Z.mod_small in D by apply val_range. exact D.
Qed.

(** [s] holds the power [e] of [x] *)
Definition pw (x : Fr) (s : scalar) (e : Z) : Prop := 0 <= e /\ rep s (Fr_pow x e).
Lemma pw_mul x s t a b : pw x s a -> pw x t b -> pw x (mul s t) (a + b).
Proof. intros [A HA] [B HB]. split; [lia|]. rewrite Fr_pow_add by lia. now apply rep_mul. Qed.
Lemma pw_square x s a : pw x s a -> pw x (square s) (a + a).
Proof. intros [A HA]. split; [lia|]. rewrite Fr_pow_add by lia. now apply rep_square. Qed.
Lemma pw_one x : pw x one 0.
Proof. split; [lia|]. rewrite Fr_pow_0. apply rep_one. Qed.
Lemma pw_self x s : rep s x -> pw x s 1.
Proof. intros H. split; [lia|]. now rewrite Fr_pow_1. Qed.
Lemma pw_sam x s a n : pw x s a -> pw x (square_assign_multi s n) (a * 2 ^ Z.of_nat n).
Proof.
  intros H. unfold square_assign_multi. induction n.
  - change (2 ^ Z.of_nat 0) with 1. rewrite Z.mul_1_r. exact H.
  - cbn [Nat.iter nat_rect]. rewrite Nat2Z.inj_succ, Z.pow_succ_r by lia.
    replace (a * (2 * 2 ^ Z.of_nat n)) with (a * 2 ^ Z.of_nat n + a * 2 ^ Z.of_nat n) by ring.
    apply pw_square, IHn.
Qed.

Lemma limb_bit_spec e i : limb_bit e i = (e / 2 ^ Z.of_nat i) mod 2.
Proof. unfold limb_bit. rewrite shr_div by lia. change 1 with (Z.ones 1). rewrite Z.land_ones by lia. reflexivity. Qed.

Lemma mod_pow_succ e i : e mod 2 ^ Z.of_nat (S i) = limb_bit e i * 2 ^ Z.of_nat i + e mod 2 ^ Z.of_nat i.
Proof.
  rewrite limb_bit_spec, Nat2Z.inj_succ, Z.pow_succ_r, Z.mul_comm by lia.
  rewrite Z.rem_mul_r by (try lia; apply Z.pow_nonzero; lia). ring.
Qed.

Lemma rev_seq0_S n : rev (seq 0 (S n)) = n :: rev (seq 0 n).
Proof. rewrite seq_S, rev_app_distr. reflexivity. Qed.

Lemma pow_limb x e (step : scalar -> nat -> scalar) :
  (forall s i n, pw x s n -> pw x (step s i) (2 * n + limb_bit e i)) ->
  forall i s n, pw x s n -> pw x (fold_left step (rev (seq 0 i)) s) (n * 2 ^ Z.of_nat i + e mod 2 ^ Z.of_nat i).
Proof.
  intros St. induction i; intros s n H.
  - cbn [seq rev fold_left]. change (2 ^ Z.of_nat 0) with 1. rewrite Z.mod_1_r, Z.mul_1_r, Z.add_0_r. exact H.
  - rewrite rev_seq0_S. cbn [fold_left]. specialize (IHi _ _ (St s i n H)).
    rewrite mod_pow_succ, Nat2Z.inj_succ, Z.pow_succ_r by lia.
    replace (n * (2 * 2 ^ Z.of_nat i) + (limb_bit e i * 2 ^ Z.of_nat i + e mod 2 ^ Z.of_nat i))
      with ((2 * n + limb_bit e i) * 2 ^ Z.of_nat i + e mod 2 ^ Z.of_nat i) by ring. exact IHi.
Qed.

Lemma pow_limbs x (outer : scalar -> Z -> scalar) :
  (forall s e n, u64 e -> pw x s n -> pw x (outer s e) (n * W + e)) ->
  forall by_, Forall u64 by_ -> pw x (fold_left outer (rev by_) one) (limbs_val by_).
Proof.
  intros St by_ F. induction F as [|e t U F IH]; [apply pw_one|].
  cbn [rev limbs_val]. rewrite fold_left_app. cbn [fold_left].
  change (2 ^ 64) with W. replace (e + W * limbs_val t) with (limbs_val t * W + e) by ring. now apply St.
Qed.

Lemma limb_bit_01 e i : limb_bit e i = 0 \/ limb_bit e i = 1.
Proof. rewrite limb_bit_spec. assert (B := Z.mod_pos_bound (e / 2 ^ Z.of_nat i) 2). lia. Qed.

Lemma pow_vartime_spec x a by_ : rep a x -> Forall u64 by_ -> pw x (pow_vartime a by_) (limbs_val by_).
Proof.
  intros Ha F. unfold pow_vartime. apply pow_limbs; [|exact F]. intros s e n U H.
  assert (Q := pow_limb x e (fun res i => let res := square res in if limb_bit e i =? 1 then mul res a else res)).
  specialize (fun X => Q X 64%nat s n H). cbv beta in Q. change (2 ^ Z.of_nat 64) with W in Q.
  rewrite Z.mod_small in Q by exact U. apply Q.
  intros s' i m H'. cbv zeta. destruct (limb_bit_01 e i) as [-> | ->].
  - change (0 =? 1) with false. cbv iota. replace (2 * m + 0) with (m + m) by ring. now apply pw_square.
  - change (1 =? 1) with true. cbv iota. replace (2 * m + 1) with (m + m + 1) by ring.
    apply pw_mul; [now apply pw_square|now apply pw_self].
Qed.
Lemma pow_spec x a by_ : rep a x -> Forall u64 by_ -> pw x (pow a by_) (limbs_val by_).
Proof.
  intros Ha F. unfold pow. apply pow_limbs; [|exact F]. intros s e n U H.
  match goal with |- pw x (fold_left ?f _ _) _ => assert (Q := pow_limb x e f) end.
  specialize (fun X => Q X 64%nat s n H). change (2 ^ Z.of_nat 64) with W in Q.
  rewrite Z.mod_small in Q by exact U. apply Q.
  intros s' i m H'. cbv zeta. unfold conditional_select. destruct (limb_bit_01 e i) as [-> | ->].
  - change (0 mod 256 =? 1) with false. cbv iota. replace (2 * m + 0) with (m + m) by ring. now apply pw_square.
  - change (1 mod 256 =? 1) with true. cbv iota. replace (2 * m + 1) with (m + m + 1) by ring.
    apply pw_mul; [now apply pw_square|now apply pw_self].
Qed.

(** ** inversion *)
Ltac chain_step :=
  match goal with
  | |- pw ?x (let t := ?e in @?b t) ?z =>
    change (pw x (b e) z); cbv beta;
    let H := fresh "P" in
    eassert (H : pw x e _) by
      (lazymatch e with
       | mul _ _ => eapply pw_mul; eassumption
       | square _ => eapply pw_square; eassumption
       | square_assign_multi _ _ => eapply pw_sam; eassumption
       end);
    lazymatch type of H with pw _ _ ?k =>
      let k' := eval vm_compute in k in change (pw x e k') in H end;
    let t := fresh "t" in
    revert H; generalize e; intros t H
  end.

Lemma invert_chain_spec x a : rep a x -> pw x (invert_chain a) (r - 2).
Proof.
  intros Ha. apply pw_self in Ha. cbv beta delta [invert_chain].
  repeat chain_step. assumption.
Qed.
