(** * Proof_FpRep: representation, encodings, powers, inverses and roots in the base field *)
From Coq Require Import ZArith Lia List Bool Znumtheory Ring Field.
From Verif Require Import Base Fld Fermat Tables Zp Model_Scalar Spec_Scalar Proof_Scalar Proof_Scalar2 Model_Fp Spec_Fp Proof_Fp.
Import ListNotations.
Local Open Scope Z_scope.

Add Field Fp_field : (fld_field Fp).

Lemma fwf_limbs6 s n : limbs6 s n <-> fwf s /\ fpv s = n.
Proof.
  destruct s as [a b c d e f]. unfold limbs6, fwf, u64, fpv. cbn [limbs_val]. change (2 ^ 64) with W.
  replace (a + W * (b + W * (c + W * (d + W * (e + W * (f + W * 0)))))) with (a + W * (b + W * (c + W * (d + W * (e + W * f))))) by ring.
  split; [intros (A & B & C & D & E & F & ->)|intros ((A & B & C & D & E & F) & <-)]; auto 10.
Qed.

Lemma digit_inj x y t u : u64 x -> u64 y -> x + W * t = y + W * u -> x = y /\ t = u.
Proof.
  unfold u64. intros X Y E. assert (t = u) by nia. subst. lia.
Qed.
Lemma fpv_inj a b : fwf a -> fwf b -> fpv a = fpv b -> a = b.
Proof.
  destruct a as [a0 a1 a2 a3 a4 a5], b as [b0 b1 b2 b3 b4 b5]. unfold fwf, fpv.
  intros (A0 & A1 & A2 & A3 & A4 & A5) (B0 & B1 & B2 & B3 & B4 & B5) E.
  apply digit_inj in E as [<- E]; try assumption. apply digit_inj in E as [<- E]; try assumption.
  apply digit_inj in E as [<- E]; try assumption. apply digit_inj in E as [<- E]; try assumption.
  apply digit_inj in E as [<- <-]; try assumption. reflexivity.
Qed.

(** Montgomery factor as a field element *)
Definition RP : Fp := fp_of (W ^ 6).
Lemma RP_neq_0 : RP <> f0.
Proof. intros H. apply (f_equal pval) in H. vm_compute in H. discriminate H. Qed.

Definition frep (s : fp) (x : Fp) : Prop := fcanonical s /\ fp_of (fpv s) = fmul x RP.

Lemma fp_of_pval x : fp_of (pval x) = x. Proof. apply to_Fp_pval. Qed.
Lemma pval_fp_of n : pval (fp_of n) = n mod p. Proof. reflexivity. Qed.
Lemma fp_of_mod n : fp_of (n mod p) = fp_of n.
Proof. apply to_Fp_eq. apply Z.mod_mod. discriminate. Qed.
Lemma fp_of_eq a b : a mod p = b mod p -> fp_of a = fp_of b.
Proof. intros H. now apply to_Fp_eq. Qed.
Lemma fp_of_neg x : fp_of (- x) = fneg (fp_of x).
Proof. replace (- x) with (0 - x) by ring. rewrite fp_of_sub. change (fp_of 0) with (f0 : Fp). ring. Qed.

Lemma pval_neg (x : Fp) : pval (fneg x) = (- pval x) mod p. Proof. reflexivity. Qed.
Lemma pval_mul (x y : Fp) : pval (fmul x y) = (pval x * pval y) mod p. Proof. reflexivity. Qed.
Lemma half_p : p = 2 * ((p + 1) / 2) - 1. Proof. reflexivity. Qed.
Lemma stands_for_frep s x : stands_for s x <-> frep s x.
Proof.
  unfold stands_for, frep, fcanonical. rewrite fwf_limbs6. split.
  - intros [Wf E]. split; [split; [exact Wf|rewrite E; apply Z.mod_pos_bound, p_pos]|].
    rewrite E, fp_of_mod, fp_of_mul, fp_of_pval. reflexivity.
  - intros [[Wf L] E]. split; [exact Wf|].
    unfold RP in E. rewrite <- (fp_of_pval x), <- fp_of_mul in E. apply (f_equal pval) in E. rewrite !pval_fp_of in E.
    rewrite Z.mod_small in E; [exact E|]. split; [apply fpv_range, Wf|exact L].
Qed.

Lemma fcanonical_frep s : fcanonical s -> frep s (fdiv (fp_of (fpv s)) RP).
Proof. intros C. split; [exact C|]. field. apply RP_neq_0. Qed.
Lemma frep_unique s x y : frep s x -> frep s y -> x = y.
Proof.
  intros [_ A] [_ B]. rewrite A in B.
  transitivity (fdiv (fmul x RP) RP); [field; apply RP_neq_0|]. rewrite B. field. apply RP_neq_0.
Qed.
Lemma frep_inj s t x : frep s x -> frep t x -> s = t.
Proof.
  intros [[A LA] EA] [[B LB] EB]. apply fpv_inj; auto.
  rewrite <- EB in EA. apply (f_equal pval) in EA. rewrite !pval_fp_of in EA.
  rewrite !Z.mod_small in EA; auto; split; auto; apply fpv_range; auto.
Qed.
Lemma frep_to s x y : x = y -> frep s x -> frep s y.
Proof. now intros ->. Qed.

(** ** ring operations *)
Lemma frep_add a b x y : frep a x -> frep b y -> frep (fp_add a b) (fadd x y).
Proof.
  intros [A EA] [B EB]. destruct (fp_add_canonical a b A B) as [C V]. split; [exact C|].
  rewrite V, fp_of_mod, fp_of_add, EA, EB. ring.
Qed.
Lemma frep_sub a b x y : frep a x -> frep b y -> frep (fp_sub a b) (fsub x y).
Proof.
  intros [A EA] [B EB]. destruct (fp_sub_canonical a b A B) as [C V]. split; [exact C|].
  rewrite V, fp_of_mod, fp_of_sub, EA, EB. ring.
Qed.
Lemma frep_neg a x : frep a x -> frep (fp_neg a) (fneg x).
Proof.
  intros [A EA]. destruct (fp_neg_spec a A) as [C V]. split; [exact C|].
  rewrite V, fp_of_mod, fp_of_neg, EA. ring.
Qed.
Lemma fcanonical_prod a b : fcanonical a -> fcanonical b -> fpv a * fpv b < p * W ^ 6.
Proof.
  intros [A LA] [B LB]. assert (Ra := fpv_range a A). assert (Rb := fpv_range b B). nia.
Qed.
Lemma frep_mul_gen a b x y : fwf a -> fwf b -> fpv a * fpv b < p * W ^ 6 ->
  fp_of (fpv a) = fmul x RP -> fp_of (fpv b) = fmul y RP -> frep (fp_mul a b) (fmul x y).
Proof.
  intros A B L EA EB. destruct (fp_mul_spec a b A B L) as [C V]. split; [exact C|].
  apply fp_of_eq in V. rewrite !fp_of_mul in V. fold RP in V. rewrite EA, EB in V.
  transitivity (fdiv (fmul (fp_of (fpv (fp_mul a b))) RP) RP); [field; apply RP_neq_0|].
  rewrite V. field. apply RP_neq_0.
Qed.
Lemma frep_mul a b x y : frep a x -> frep b y -> frep (fp_mul a b) (fmul x y).
Proof.
  intros [A EA] [B EB]. apply frep_mul_gen; auto using fcanonical_prod; apply A || apply B.
Qed.
Lemma frep_square a x : frep a x -> frep (fp_square a) (fmul x x).
Proof.
  intros [A EA]. destruct (fp_square_spec a (proj1 A) (fcanonical_prod a a A A)) as [C V]. split; [exact C|].
  apply fp_of_eq in V. rewrite !fp_of_mul in V. fold RP in V. rewrite EA in V.
  transitivity (fdiv (fmul (fp_of (fpv (fp_square a))) RP) RP); [field; apply RP_neq_0|].
  rewrite V. field. apply RP_neq_0.
Qed.
Lemma frep_zero : frep fp_zero f0.
Proof. split; [split; [repeat split; reflexivity || discriminate|reflexivity]|]. change (fpv fp_zero) with 0. change (fp_of 0) with (f0 : Fp). ring. Qed.
Lemma frep_one : frep fp_one f1.
Proof.
  split; [split; [repeat split; reflexivity || discriminate|reflexivity]|].
  rewrite (fp_of_eq (fpv fp_one) (W ^ 6)) by reflexivity. fold RP. ring.
Qed.
Lemma fp_eq_limbs a b : fp_eq a b = true <-> a = b.
Proof.
  destruct a as [a0 a1 a2 a3 a4 a5], b as [b0 b1 b2 b3 b4 b5]. unfold fp_eq.
  rewrite !andb_true_iff, !Z.eqb_eq. split; [intros (((((-> & ->) & ->) & ->) & ->) & ->); reflexivity|].
  intros H. injection H as -> -> -> -> -> ->. auto 10.
Qed.
Lemma fp_eq_spec a b x y : frep a x -> frep b y -> (fp_eq a b = true <-> x = y).
Proof.
  intros A B. rewrite fp_eq_limbs. split; [intros <-; eapply frep_unique; eauto|intros <-; eapply frep_inj; eauto].
Qed.
Lemma fp_eq_feqb a b x y : frep a x -> frep b y -> fp_eq a b = feqb x y.
Proof.
  intros A B. apply eq_true_iff_eq. rewrite (fp_eq_spec a b x y A B). symmetry. apply feqb_spec.
Qed.
Lemma fp_is_zero_feqb a x : frep a x -> fp_is_zero a = feqb x f0.
Proof. intros A. apply fp_eq_feqb; [exact A|exact frep_zero]. Qed.
Lemma frep_select a b x y c : frep a x -> frep b y -> frep (fp_select a b c) (if c then y else x).
Proof. intros A B. destruct c; assumption. Qed.

(** ** integers and byte strings *)
Lemma fpv_R2 : fwf fp_R2 /\ fpv fp_R2 < p /\ fp_of (fpv fp_R2) = fmul RP RP.
Proof.
  split; [repeat split; reflexivity || discriminate|]. split; [reflexivity|].
  unfold RP. rewrite <- fp_of_mul. apply fp_of_eq. vm_compute. reflexivity.
Qed.
Lemma fpv_R3 : fwf fp_R3 /\ fpv fp_R3 < p /\ fp_of (fpv fp_R3) = fmul (fmul RP RP) RP.
Proof.
  split; [repeat split; reflexivity || discriminate|]. split; [reflexivity|].
  unfold RP. rewrite <- !fp_of_mul. apply fp_of_eq. vm_compute. reflexivity.
Qed.
Lemma fprod_bound a b : fwf a -> fwf b -> fpv b < p -> fpv a * fpv b < p * W ^ 6.
Proof.
  intros A B L. assert (Ra := fpv_range a A). assert (Rb := fpv_range b B). assert (P := p_pos).
  change (W ^ 6) with (2 ^ 384) in *. nia.
Qed.
Lemma frep_mul_R2 d : fwf d -> frep (fp_mul d fp_R2) (fp_of (fpv d)).
Proof.
  intros D. destruct fpv_R2 as (A & L & E).
  replace (fp_of (fpv d)) with (fmul (fdiv (fp_of (fpv d)) RP) RP) by (field; apply RP_neq_0).
  apply frep_mul_gen; [exact D|exact A|exact (fprod_bound _ _ D A L)|field; exact RP_neq_0|exact E].
Qed.
Lemma frep_mul_R3 d : fwf d -> frep (fp_mul d fp_R3) (fmul (fp_of (fpv d)) RP).
Proof.
  intros D. destruct fpv_R3 as (A & L & E).
  replace (fmul (fp_of (fpv d)) RP) with (fmul (fdiv (fp_of (fpv d)) RP) (fmul RP RP)) by (field; apply RP_neq_0).
  apply frep_mul_gen; [exact D|exact A|exact (fprod_bound _ _ D A L)|field; exact RP_neq_0|exact E].
Qed.

Lemma fp_reduce_spec a0 a1 a2 a3 a4 a5 x : frep (FP a0 a1 a2 a3 a4 a5) x ->
  fcanonical (fp_montgomery_reduce a0 a1 a2 a3 a4 a5 0 0 0 0 0 0) /\ fpv (fp_montgomery_reduce a0 a1 a2 a3 a4 a5 0 0 0 0 0 0) = pval x.
Proof.
  intros [[(A0 & A1 & A2 & A3 & A4 & A5) L] EA].
  destruct (fp_montgomery_reduce_spec a0 a1 a2 a3 a4 a5 0 0 0 0 0 0) as [C V]; auto using u64_0;
  change (fpv (FP 0 0 0 0 0 0)) with 0 in *; rewrite Z.mul_0_r, Z.add_0_r in *.
  { apply Z.lt_trans with p; [exact L|reflexivity]. }
  split; [exact C|].
  set (s := fp_montgomery_reduce a0 a1 a2 a3 a4 a5 0 0 0 0 0 0) in *.
  apply fp_of_eq in V. rewrite fp_of_mul, EA in V. fold RP in V.
  assert (X : fp_of (fpv s) = x).
  { transitivity (fdiv (fmul (fp_of (fpv s)) RP) RP); [field; apply RP_neq_0|]. rewrite V. field. apply RP_neq_0. }
  rewrite <- X, pval_fp_of. symmetry. apply Z.mod_small. split; [apply fpv_range, C|apply C].
Qed.

Lemma be_val_app_gen l : forall a, fold_left (fun acc b => 256 * acc + b) l a = 256 ^ Z.of_nat (length l) * a + be_val l.
Proof.
  unfold be_val. induction l as [|b l IH]; intros a; [cbn; ring_simplify; destruct a; reflexivity|].
  cbn [fold_left length]. rewrite IH, (IH (256 * 0 + b)), Nat2Z.inj_succ, Z.pow_succ_r by lia. ring.
Qed.
Lemma be_val_app a b : be_val (a ++ b) = 256 ^ Z.of_nat (length b) * be_val a + be_val b.
Proof. unfold be_val at 1. rewrite fold_left_app, be_val_app_gen. reflexivity. Qed.
Lemma be_val_rev bs : be_val bs = bytes_val (rev bs).
Proof.
  induction bs as [|b l IH]; [reflexivity|]. change (b :: l) with ([b] ++ l). rewrite be_val_app, rev_app_distr, bytes_val_app.
  rewrite rev_length, IH. change (be_val [b]) with (256 * 0 + b). change (bytes_val (rev [b])) with (b + 256 * 0). ring.
Qed.
Lemma be_val_range bs : Forall (fun b => 0 <= b < 256) bs -> 0 <= be_val bs < 256 ^ Z.of_nat (length bs).
Proof. intros F. rewrite be_val_rev, <- (rev_length bs). apply bytes_val_range. now apply Forall_rev. Qed.
Lemma be_val_inj a b : Forall (fun x => 0 <= x < 256) a -> Forall (fun x => 0 <= x < 256) b ->
  length a = length b -> be_val a = be_val b -> a = b.
Proof.
  intros A B L E. rewrite !be_val_rev in E. rewrite <- (rev_involutive a), <- (rev_involutive b). f_equal.
  apply bytes_val_inj; auto using Forall_rev. now rewrite !rev_length.
Qed.
Lemma to_be_bytes_val t : u64 t -> be_val (to_be_bytes t) = t.
Proof. intros T. unfold to_be_bytes. rewrite be_val_rev, rev_involutive. now apply to_le_bytes_val. Qed.
Lemma to_be_bytes_bytes t : length (to_be_bytes t) = 8%nat /\ Forall (fun b => 0 <= b < 256) (to_be_bytes t).
Proof. unfold to_be_bytes. rewrite rev_length. split; [apply to_le_bytes_bytes|apply Forall_rev, to_le_bytes_bytes]. Qed.

Lemma pow256_8 : 256 ^ Z.of_nat 8 = W. Proof. reflexivity. Qed.
Lemma pow256_16 : 256 ^ Z.of_nat 16 = W ^ 2. Proof. reflexivity. Qed.
Lemma pow256_24 : 256 ^ Z.of_nat 24 = W ^ 3. Proof. reflexivity. Qed.
Lemma pow256_32 : 256 ^ Z.of_nat 32 = W ^ 4. Proof. reflexivity. Qed.
Lemma pow256_40 : 256 ^ Z.of_nat 40 = W ^ 5. Proof. reflexivity. Qed.
Lemma fp_to_bytes_spec a x : frep a x -> is_bytes 48 (fp_to_bytes a) /\ be_val (fp_to_bytes a) = pval x.
Proof.
  destruct a as [a0 a1 a2 a3 a4 a5]. intros Ra. destruct (fp_reduce_spec _ _ _ _ _ _ x Ra) as [[Wf _] V]. unfold fp_to_bytes.
  destruct (fp_montgomery_reduce a0 a1 a2 a3 a4 a5 0 0 0 0 0 0) as [t0 t1 t2 t3 t4 t5]. destruct Wf as (T0 & T1 & T2 & T3 & T4 & T5).
  split.
  - split; [reflexivity|]. rewrite !Forall_app. repeat split; apply to_be_bytes_bytes.
  - rewrite !be_val_app, !to_be_bytes_val by assumption. rewrite <- V. rewrite !app_length.
    assert (LB : forall t, length (to_be_bytes t) = 8%nat) by reflexivity. rewrite !LB. cbn [Nat.add]. unfold fpv.
    rewrite pow256_8, pow256_16, pow256_24, pow256_32, pow256_40. ring.
Qed.

Lemma be_word_val bs i : be_word bs i = be_val (firstn 8 (skipn (8 * i) bs)).
Proof. unfold be_word. now rewrite from_le_bytes_val, be_val_rev. Qed.
Lemma be_word_u64 bs i : Forall (fun b => 0 <= b < 256) bs -> (8 * i + 8 <= length bs)%nat -> u64 (be_word bs i).
Proof.
  intros F L. rewrite be_word_val.
  assert (F' : Forall (fun b => 0 <= b < 256) (firstn 8 (skipn (8 * i) bs))).
  { apply Forall_forall. intros b Hb. rewrite Forall_forall in F. apply F.
    rewrite <- (firstn_skipn (8 * i) bs). apply in_or_app. right.
    rewrite <- (firstn_skipn 8 (skipn (8 * i) bs)). apply in_or_app. now left. }
  assert (B := be_val_range _ F'). rewrite firstn_length_le in B by (rewrite skipn_length; lia). exact B.
Qed.
Lemma be_word_split bs i : (8 * i + 8 <= length bs)%nat ->
  be_val (skipn (8 * i) bs) = 256 ^ (Z.of_nat (length bs) - 8 * Z.of_nat i - 8) * be_word bs i + be_val (skipn (8 * S i) bs).
Proof.
  intros L. rewrite be_word_val.
  rewrite <- (firstn_skipn 8 (skipn (8 * i) bs)) at 1. rewrite be_val_app.
  replace (skipn 8 (skipn (8 * i) bs)) with (skipn (8 * S i) bs).
  - rewrite skipn_length. do 2 f_equal. f_equal. lia.
  - clear L. replace (8 * S i)%nat with (8 * i + 8)%nat by lia. generalize (8 * i)%nat. intros n.
    revert bs. induction n; intros bs; [reflexivity|]. destruct bs; [now rewrite !skipn_nil|]. apply IHn.
Qed.
Lemma be_words6 bs : is_bytes 48 bs ->
  fwf (FP (be_word bs 5) (be_word bs 4) (be_word bs 3) (be_word bs 2) (be_word bs 1) (be_word bs 0)) /\
  fpv (FP (be_word bs 5) (be_word bs 4) (be_word bs 3) (be_word bs 2) (be_word bs 1) (be_word bs 0)) = be_val bs.
Proof.
  intros [L F]. split; [repeat split; apply be_word_u64; auto; lia|].
  assert (V0 := be_word_split bs 0 ltac:(lia)). assert (V1 := be_word_split bs 1 ltac:(lia)).
  assert (V2 := be_word_split bs 2 ltac:(lia)). assert (V3 := be_word_split bs 3 ltac:(lia)).
  assert (V4 := be_word_split bs 4 ltac:(lia)). assert (V5 := be_word_split bs 5 ltac:(lia)).
  rewrite L in *. rewrite (@skipn_all2 _ (8 * 6) bs) in V5 by lia. rewrite V5 in V4. rewrite V4 in V3. rewrite V3 in V2. rewrite V2 in V1. rewrite V1 in V0.
  change (skipn (8 * 0) bs) with bs in V0. rewrite V0. unfold fpv. change (be_val []) with 0.
  change (256 ^ (Z.of_nat 48 - 8 * Z.of_nat 0 - 8)) with (W ^ 5).
  change (256 ^ (Z.of_nat 48 - 8 * Z.of_nat 1 - 8)) with (W ^ 4).
  change (256 ^ (Z.of_nat 48 - 8 * Z.of_nat 2 - 8)) with (W ^ 3).
  change (256 ^ (Z.of_nat 48 - 8 * Z.of_nat 3 - 8)) with (W ^ 2).
  change (256 ^ (Z.of_nat 48 - 8 * Z.of_nat 4 - 8)) with W.
  change (256 ^ (Z.of_nat 48 - 8 * Z.of_nat 5 - 8)) with 1. ring.
Qed.

Lemma fp_from_bytes_spec bs : is_bytes 48 bs ->
  (be_val bs < p -> exists s, fp_from_bytes bs = Some s /\ frep s (fp_of (be_val bs))) /\
  (p <= be_val bs -> fp_from_bytes bs = None).
Proof.
  intros H. destruct (be_words6 bs H) as [Wf V]. unfold fp_from_bytes.
  assert (RM := frep_mul_R2 _ Wf). rewrite V in RM.
  destruct Wf as (T0 & T1 & T2 & T3 & T4 & T5).
  set (tmp := fp_mul _ fp_R2) in *. clearbody tmp.
  set (t5 := be_word bs 0) in *. set (t4 := be_word bs 1) in *. set (t3 := be_word bs 2) in *.
  set (t2 := be_word bs 3) in *. set (t1 := be_word bs 4) in *. set (t0 := be_word bs 5) in *.
  do 6 limb_step.
  assert (D : fpv (FP lo lo0 lo1 lo2 lo3 lo4) = be_val bs - p + W ^ 6 * bbit hi4).
  { rewrite <- V. unfold fpv. rewrite E, E0, E1, E2, E3, E4. replace p with (p0 + W * (p1 + W * (p2 + W * (p3 + W * (p4 + W * p5))))) by reflexivity. change (bbit 0) with 0. ring. }
  assert (WF : fwf (FP lo lo0 lo1 lo2 lo3 lo4)) by (repeat split; apply U || apply U1 || apply U3 || apply U5 || apply U7 || apply U9).
  assert (Rd := fpv_range _ WF). rewrite D in Rd.
  assert (Rb := fpv_range (FP t0 t1 t2 t3 t4 t5) ltac:(repeat split; apply T0 || apply T1 || apply T2 || apply T3 || apply T4 || apply T5)). rewrite V in Rb.
  destruct U10 as [-> | ->].
  - change (bbit 0) with 0 in Rd. change (Z.land (0 mod 256) 1 =? 1) with false. split; [intros; exfalso; lia|reflexivity].
  - change (bbit (W - 1)) with 1 in Rd. change (Z.land ((W - 1) mod 256) 1 =? 1) with true.
    assert (P := p_pos). split; [intros; exists tmp; auto|intros; exfalso; lia].
Qed.

Lemma fp_from_u768_spec l0 l1 l2 l3 l4 l5 l6 l7 l8 l9 l10 l11 :
  u64 l0 -> u64 l1 -> u64 l2 -> u64 l3 -> u64 l4 -> u64 l5 -> u64 l6 -> u64 l7 -> u64 l8 -> u64 l9 -> u64 l10 -> u64 l11 ->
  frep (fp_from_u768 l0 l1 l2 l3 l4 l5 l6 l7 l8 l9 l10 l11)
    (fp_of (fpv (FP l5 l4 l3 l2 l1 l0) + W ^ 6 * fpv (FP l11 l10 l9 l8 l7 l6))).
Proof.
  intros. unfold fp_from_u768. rewrite fp_of_add, (Z.mul_comm (W ^ 6)), fp_of_mul. fold RP.
  apply frep_add; [apply frep_mul_R2|apply frep_mul_R3]; repeat split; assumption || (unfold u64 in *; lia).
Qed.

(** the larger of a non-zero element and its negation *)
Lemma fp_lexicographically_largest_spec a x : frep a x ->
  (fp_lexicographically_largest a = true <-> pval (fneg x) < pval x).
Proof.
  destruct a as [a0 a1 a2 a3 a4 a5]. intros Ra. destruct (fp_reduce_spec _ _ _ _ _ _ x Ra) as [[Wf _] V].
  unfold fp_lexicographically_largest.
  destruct (fp_montgomery_reduce a0 a1 a2 a3 a4 a5 0 0 0 0 0 0) as [t0 t1 t2 t3 t4 t5].
  assert (Rb := fpv_range _ Wf). destruct Wf as (T0 & T1 & T2 & T3 & T4 & T5).
  assert (U : u64 0xdcff7fffffffd556 /\ u64 0x0f55ffff58a9ffff /\ u64 0xb39869507b587b12 /\ u64 0xb23ba5c279c2895f /\ u64 0x258dd3db21a5d66b /\ u64 0x0d0088f51cbff34d)
    by (repeat split; discriminate || reflexivity).
  destruct U as (M0 & M1 & M2 & M3 & M4 & M5).
  do 6 limb_step.
  assert (D : fpv (FP lo lo0 lo1 lo2 lo3 lo4) = pval x - (p + 1) / 2 + W ^ 6 * bbit hi4).
  { rewrite <- V. unfold fpv. rewrite E, E0, E1, E2, E3, E4.
    assert (HH : (p + 1) / 2 = (0xdcff7fffffffd556 + W * (0x0f55ffff58a9ffff + W * (0xb39869507b587b12 + W * (0xb23ba5c279c2895f + W * (0x258dd3db21a5d66b + W * 0x0d0088f51cbff34d)))))) by reflexivity. rewrite HH.
    change (bbit 0) with 0. ring. }
  assert (WF : fwf (FP lo lo0 lo1 lo2 lo3 lo4)) by (repeat split; apply U || apply U1 || apply U3 || apply U5 || apply U7 || apply U9).
  assert (Rd := fpv_range _ WF). rewrite D in Rd. assert (Rx := pval_range x).
  assert (HP := p_lt_W6). assert (P2 := half_p).
  assert (NV : pval (fneg x) = if pval x =? 0 then 0 else p - pval x).
  { rewrite pval_neg. destruct (Z.eqb_spec (pval x) 0) as [->|N]; [apply Z.mod_0_l; discriminate|].
    rewrite mod_sub_once by lia. lia. }
  rewrite NV. set (h := (p + 1) / 2) in *. clearbody h.
  destruct U10 as [-> | ->].
  - assert (B0 : bbit 0 = 0) by reflexivity. rewrite B0 in Rd. clear D. change (negb (Z.land (0 mod 256) 1 =? 1)) with true. split; [intros _|reflexivity].
    destruct (Z.eqb_spec (pval x) 0); lia.
  - assert (B1 : bbit (W - 1) = 1) by reflexivity. rewrite B1 in Rd. clear D. change (negb (Z.land ((W - 1) mod 256) 1 =? 1)) with false.
    split; [discriminate|]. intros L. exfalso. destruct (Z.eqb_spec (pval x) 0); lia.
Qed.

(** ** powers *)
Lemma Fp_pow_0 x : Fp_pow x 0 = f1. Proof. reflexivity. Qed.
Lemma Fp_pow_1 x : Fp_pow x 1 = x. Proof. unfold Fp_pow. rewrite Z.pow_1_r. apply fp_of_pval. Qed.
Lemma Fp_pow_add x a b : 0 <= a -> 0 <= b -> Fp_pow x (a + b) = fmul (Fp_pow x a) (Fp_pow x b).
Proof. intros. unfold Fp_pow. now rewrite Z.pow_add_r, fp_of_mul. Qed.
Lemma Fp_pow_fermat x : x <> f0 -> Fp_pow x (p - 1) = f1.
Proof.
  intros H. unfold Fp_pow. apply pval_inj. rewrite pval_fp_of.
  rewrite fermat; [reflexivity|apply p_prime|]. intros D. apply H. apply pval_inj.
  apply Z.mod_divide in D; [|discriminate]. rewrite Z.mod_small in D by apply pval_range. exact D.
Qed.
Lemma Fp_pow_mul x y e : 0 <= e -> Fp_pow (fmul x y) e = fmul (Fp_pow x e) (Fp_pow y e).
Proof.
  intros H. unfold Fp_pow. rewrite <- fp_of_mul, <- Z.pow_mul_l.
  apply fp_of_eq. rewrite pval_mul. symmetry. apply Zpow_facts.Zpower_mod. reflexivity.
Qed.
Lemma Fp_pow_pow x a b : 0 <= a -> 0 <= b -> Fp_pow (Fp_pow x a) b = Fp_pow x (a * b).
Proof.
  intros A B. unfold Fp_pow. rewrite pval_fp_of, Z.pow_mul_r by assumption. apply fp_of_eq. symmetry. apply Zpow_facts.Zpower_mod. reflexivity.
Qed.

Definition fpw (x : Fp) (s : fp) (e : Z) : Prop := 0 <= e /\ frep s (Fp_pow x e).
Lemma fpw_mul x s t a b : fpw x s a -> fpw x t b -> fpw x (fp_mul s t) (a + b).
Proof. intros [A HA] [B HB]. split; [lia|]. rewrite Fp_pow_add by lia. now apply frep_mul. Qed.
Lemma fpw_square x s a : fpw x s a -> fpw x (fp_square s) (a + a).
Proof. intros [A HA]. split; [lia|]. rewrite Fp_pow_add by lia. now apply frep_square. Qed.
Lemma fpw_one x : fpw x fp_one 0.
Proof. split; [lia|]. rewrite Fp_pow_0. apply frep_one. Qed.
Lemma fpw_self x s : frep s x -> fpw x s 1.
Proof. intros H. split; [lia|]. now rewrite Fp_pow_1. Qed.

(** a double-and-add ladder over the bits of a list of words, for any value type *)
Section Ladder.
Context {A : Type} (Q : A -> Z -> Prop).
Lemma ladder_limb e (step : A -> nat -> A) :
  (forall s i n, Q s n -> Q (step s i) (2 * n + limb_bit e i)) ->
  forall i s n, Q s n -> Q (fold_left step (rev (seq 0 i)) s) (n * 2 ^ Z.of_nat i + e mod 2 ^ Z.of_nat i).
Proof.
  intros St. induction i; intros s n H.
  - cbn [seq rev fold_left]. change (2 ^ Z.of_nat 0) with 1. rewrite Z.mod_1_r, Z.mul_1_r, Z.add_0_r. exact H.
  - rewrite rev_seq0_S. cbn [fold_left]. specialize (IHi _ _ (St s i n H)).
    rewrite mod_pow_succ, Nat2Z.inj_succ, Z.pow_succ_r by lia.
    replace (n * (2 * 2 ^ Z.of_nat i) + (limb_bit e i * 2 ^ Z.of_nat i + e mod 2 ^ Z.of_nat i))
      with ((2 * n + limb_bit e i) * 2 ^ Z.of_nat i + e mod 2 ^ Z.of_nat i) by ring. exact IHi.
Qed.
Lemma ladder_limbs (step : Z -> A -> nat -> A) :
  (forall e s i n, Q s n -> Q (step e s i) (2 * n + limb_bit e i)) ->
  forall by_ s, Forall u64 by_ -> Q s 0 -> Q (fold_left (fun res e => fold_left (step e) (rev (seq 0 64)) res) (rev by_) s) (limbs_val by_).
Proof.
  intros St by_ s F H0. induction F as [|e t U F IH]; [exact H0|].
  cbn [rev limbs_val]. rewrite fold_left_app. cbn [fold_left].
  change (2 ^ 64) with W. replace (e + W * limbs_val t) with (limbs_val t * W + e mod W) by (rewrite Z.mod_small by exact U; ring).
  change W with (2 ^ Z.of_nat 64). apply ladder_limb; [apply St|exact IH].
Qed.
End Ladder.

Lemma fp_pow_vartime_spec x a by_ : frep a x -> Forall u64 by_ -> fpw x (fp_pow_vartime a by_) (limbs_val by_).
Proof.
  intros Ha F. unfold fp_pow_vartime.
  apply (ladder_limbs (fpw x) (fun e res i => let res := fp_square res in if limb_bit e i =? 1 then fp_mul res a else res)); [|exact F|apply fpw_one].
  intros e s i m H. cbv zeta. destruct (limb_bit_01 e i) as [-> | ->].
  - change (0 =? 1) with false. cbv iota. replace (2 * m + 0) with (m + m) by ring. now apply fpw_square.
  - change (1 =? 1) with true. cbv iota. replace (2 * m + 1) with (m + m + 1) by ring.
    apply fpw_mul; [now apply fpw_square|now apply fpw_self].
Qed.

(** ** inversion and square roots *)
Lemma fp_invert_exp_val : limbs_val fp_invert_exp = p - 2. Proof. reflexivity. Qed.
Lemma fp_sqrt_exp_val : limbs_val fp_sqrt_exp = (p + 1) / 4. Proof. reflexivity. Qed.

Lemma fmul_comm' {K : fld} (x y : K) : fmul x y = fmul y x.
Proof. apply (F_R (fld_field K)). Qed.
Lemma Fp_pow_inv x : x <> f0 -> Fp_pow x (p - 2) = finv x.
Proof.
  intros H. assert (E : fmul (Fp_pow x (p - 2)) x = f1).
  { rewrite <- (Fp_pow_1 x) at 2. rewrite <- Fp_pow_add by discriminate. replace (p - 2 + 1) with (p - 1) by ring. now apply Fp_pow_fermat. }
  symmetry. apply finv_unique. rewrite <- E. apply fmul_comm'.
Qed.
Lemma fp_invert_spec a x : frep a x ->
  (x = f0 -> fp_invert a = None) /\ (x <> f0 -> exists t, fp_invert a = Some t /\ frep t (finv x)).
Proof.
  intros A. unfold fp_invert. rewrite (fp_is_zero_feqb a x A). split.
  - intros ->. now rewrite feqb_refl.
  - intros N. apply feqb_false in N as Nb. rewrite Nb. cbn [negb].
    exists (fp_pow_vartime a fp_invert_exp). split; [reflexivity|].
    assert (FU : Forall u64 fp_invert_exp) by (repeat constructor; discriminate || reflexivity).
    destruct (fp_pow_vartime_spec x a _ A FU) as [_ R].
    rewrite fp_invert_exp_val, Fp_pow_inv in R by exact N. exact R.
Qed.
Lemma Fp_pow_zero e : 0 < e -> Fp_pow (f0 : Fp) e = f0.
Proof. intros H. unfold Fp_pow. change (pval (f0 : Fp)) with 0. rewrite Z.pow_0_l by lia. reflexivity. Qed.
(** x^((p+1)/4) squares to x when x is a square *)
Definition p_quarter : Z := (p + 1) / 4.
Lemma p_quarter_pos : 0 < p_quarter. Proof. vm_compute. reflexivity. Qed.
Lemma p_quarter_four : (1 + 1) * (p_quarter + p_quarter) = p - 1 + 2. Proof. vm_compute. reflexivity. Qed.
Lemma Fp_sqrt_of_square (s : Fp) : fmul (Fp_pow (fmul s s) p_quarter) (Fp_pow (fmul s s) p_quarter) = fmul s s.
Proof.
  assert (QP := p_quarter_pos). assert (Q4 := p_quarter_four). assert (PP := p_gt_1). set (q := p_quarter) in *. clearbody q.
  destruct (fdec s f0) as [->|N].
  - replace (fmul (f0 : Fp) f0) with (f0 : Fp) by ring. rewrite Fp_pow_zero by exact QP. ring.
  - rewrite <- Fp_pow_add by lia.
    rewrite <- (Fp_pow_1 s) at 1 2. rewrite <- Fp_pow_add, Fp_pow_pow by lia. rewrite Q4.
    rewrite Fp_pow_add, Fp_pow_fermat by (lia || exact N). change 2 with (1 + 1).
    rewrite Fp_pow_add, Fp_pow_1 by lia. ring.
Qed.
Lemma fp_sqrt_spec a y : frep a y ->
  ((exists x, fmul x x = y) -> exists s x, fp_sqrt a = Some s /\ frep s x /\ fmul x x = y) /\
  (~ (exists x, fmul x x = y) -> fp_sqrt a = None).
Proof.
  intros A. unfold fp_sqrt.
  assert (FU : Forall u64 fp_sqrt_exp) by (repeat constructor; discriminate || reflexivity).
  destruct (fp_pow_vartime_spec y a _ A FU) as [_ R]. rewrite fp_sqrt_exp_val in R. fold p_quarter in R.
  set (s := fp_pow_vartime a fp_sqrt_exp) in *. set (z := Fp_pow y p_quarter) in *.
  rewrite (fp_eq_feqb _ _ _ _ (frep_square s z R) A). split.
  - intros [x Hx]. assert (Q : fmul z z = y). { unfold z. rewrite <- Hx. apply Fp_sqrt_of_square. }
    rewrite Q, feqb_refl. exists s, z. auto.
  - intros N. destruct (feqb (fmul z z) y) eqn:Eq; [|reflexivity]. exfalso. apply N. exists z. now apply feqb_spec.
Qed.
