(** * Proof_G1Total: the multiplication returns for any coordinates, on the curve or not *)
From Coq Require Import ZArith List Bool Lia.
From Verif Require Import Base Fld Zr Zp Model_Scalar Spec_Scalar Spec_Curve Model_Curve Spec_CurveCode Proof_CurveCode Proof_CurveMul
  Model_G1 Proof_FpRep Proof_G1Base Proof_GLV Proof_Recode Proof_G1Mul.
Import ListNotations.
Local Open Scope Z_scope.

Section Wf.
Context {F : fops} {K : fld} {b : K} {rep : F -> K -> Prop} (OK : fops_ok F K b rep).
Definition cwf (s : F) : Prop := exists x, rep s x.
Definition pwf (p : proj F) : Prop := let '(Proj x y z) := p in cwf x /\ cwf y /\ cwf z.
Lemma cwf_add s t : cwf s -> cwf t -> cwf (fo_add s t).
Proof. intros [x X] [y Y]. eexists. apply (rep_add _ _ _ _ OK); eassumption. Qed.
Lemma cwf_sub s t : cwf s -> cwf t -> cwf (fo_sub s t).
Proof. intros [x X] [y Y]. eexists. apply (rep_sub _ _ _ _ OK); eassumption. Qed.
Lemma cwf_mul s t : cwf s -> cwf t -> cwf (fo_mul s t).
Proof. intros [x X] [y Y]. eexists. apply (rep_mul _ _ _ _ OK); eassumption. Qed.
Lemma cwf_square s : cwf s -> cwf (fo_square s).
Proof. intros [x X]. eexists. apply (rep_square _ _ _ _ OK); eassumption. Qed.
Lemma cwf_3b s : cwf s -> cwf (fo_mul_by_3b s).
Proof. intros [x X]. eexists. apply (rep_3b _ _ _ _ OK); eassumption. Qed.
Lemma cwf_zero : cwf fo_zero. Proof. exists f0. apply (rep_zero _ _ _ _ OK). Qed.
Lemma cwf_one : cwf fo_one. Proof. exists f1. apply (rep_one _ _ _ _ OK). Qed.
Ltac wf := repeat first [assumption | apply cwf_zero | apply cwf_one | apply cwf_add | apply cwf_sub | apply cwf_mul | apply cwf_square | apply cwf_3b].
Lemma pwf_double p : pwf p -> pwf (proj_double p).
Proof.
  destruct p as [x y z]. intros (X & Y & Z). unfold proj_double. cbv zeta.
  destruct (proj_is_identity _); cbn [select pwf proj_identity]; (split; [|split]); wf.
Qed.
Lemma pwf_add p q : pwf p -> pwf q -> pwf (proj_add p q).
Proof.
  destruct p as [x y z], q as [x' y' z']. intros (X & Y & Z) (X' & Y' & Z'). unfold proj_add. cbv zeta.
  cbn [pwf]. split; [|split]; wf.
Qed.
Lemma pwf_zof p : pwf p -> exists Zv, zof (rep:=rep) p Zv.
Proof. destruct p as [x y z]. intros (_ & _ & [Z H]). eexists. exists Z. split; [exact H|reflexivity]. Qed.
Lemma backward_length p : forall (q : list F) acc, length (fst (fold_left (@batch_backward F) (rev (combine p q)) ([], acc))) = length (combine p q).
Proof.
  intros q acc. rewrite <- (rev_length (combine p q)). generalize (rev (combine p q)) as l. intros l.
  assert (G : forall out acc, length (fst (fold_left (@batch_backward F) l (out, acc))) = (length l + length out)%nat).
  { induction l as [|[[x y z] qx] l IH]; intros out a; [reflexivity|]. cbn [fold_left batch_backward]. cbv zeta. rewrite IH. cbn [length]. lia. }
  rewrite G. cbn [length]. lia.
Qed.
Lemma batch_total p : Forall pwf p -> exists out, batch_normalize p (length p) = Ok out /\ length out = length p.
Proof.
  intros H. assert (HZ : exists zs, Forall2 (zof (rep:=rep)) p zs).
  { induction H as [|q qs H1 H IH]; [exists []; constructor|].
    destruct IH as [zs IH], (pwf_zof q H1) as [Zv HZ]. exists (Zv :: zs). constructor; assumption. }
  destruct HZ as [zs HZ].
  destruct (batch_forward_ok OK p zs HZ [] fo_one f1 (rep_one _ _ _ _ OK)) as (q & E & A & B).
  unfold batch_normalize. rewrite Nat.eqb_refl. cbn [assert bind]. rewrite E. cbn [app].
  set (acc := snd _) in *. pose proof (rep_invert _ _ _ _ OK acc _ B) as I.
  assert (N : prod_all f1 zs <> f0).
  { apply prod_all_nonzero; [|apply f1_neq_0]. clear - HZ OK. induction HZ; constructor; eauto using zof_nonzero. }
  destruct (fo_invert acc) as [t|]; [|contradiction].
  eexists. split; [reflexivity|]. rewrite backward_length, combine_length.
  assert (LQ : length q = length zs).
  { rewrite (Forall2_len _ _ _ A). clear. generalize (@f1 K). induction zs as [|z zs IH]; intros a; cbn [prods length]; [reflexivity|]. rewrite IH. reflexivity. }
  rewrite (Forall2_len _ _ _ HZ), LQ. apply Nat.min_id.
Qed.
End Wf.

Local Notation gwf := (pwf (F:=fp_ops) (rep:=frep)).
Lemma odd_multiples_wf n : forall p d, gwf p -> gwf d -> Forall gwf (odd_multiples n p d).
Proof.
  induction n as [|n IH]; intros p d P D; cbn [odd_multiples]; [constructor|].
  pose proof (pwf_add fp_ops_ok p d P D) as A. constructor; [exact A|]. apply IH; assumption.
Qed.
Lemma precompute_total p t : gwf p -> exists table, g1_precompute p t = Ok table /\ length table = 8%nat.
Proof.
  intros H. unfold g1_precompute.
  destruct (batch_total fp_ops_ok (odd_multiples 7 p (proj_double p))) as (out & E & L).
  - apply odd_multiples_wf; [exact H|]. apply (pwf_double fp_ops_ok). exact H.
  - rewrite odd_multiples_length in E, L. rewrite E. cbn [bind]. exists (t :: out). split; [reflexivity|]. cbn [length]. f_equal. exact L.
Qed.
Lemma digit_entry_total checked table s d : -127 <= d <= 127 -> exists t, digit_entry checked table s d = Ok t.
Proof.
  intros D. destruct (digit_bits d D) as (B1 & B2 & B3). unfold digit_entry. cbv zeta.
  rewrite i8_sub_ok by lia. cbn [bind]. eexists. reflexivity.
Qed.
Lemma loop_total checked table s1 s2 ds : Forall row_ok ds ->
  forall acc, exists q, multiply_loop checked table s1 s2 ds acc = Ok q.
Proof.
  induction 1 as [|[d1 d2] ds [[_ R1] [_ R2]] F IH]; intros acc; cbn [multiply_loop]; [eexists; reflexivity|].
  cbn [fst snd] in *. unfold multiply_round. cbv zeta.
  destruct (digit_entry_total checked table s1 d1 R1) as (t1 & ->). cbn [bind].
  destruct (digit_entry_total checked table s2 d2 R2) as (t2 & ->). cbn [bind]. apply IH.
Qed.
Theorem g1_multiply_total checked p by_ s1 k1 k2 : gwf p ->
  glv_recoding checked by_ = Ok (s1, k1, 0, k2) -> is_bytes 32 k1 -> is_bytes 32 k2 ->
  exists q, g1_multiply checked p by_ = Ok q.
Proof.
  intros H G B1 B2. unfold g1_multiply. cbv zeta. rewrite G. cbn [bind].
  destruct (precompute_total p (aff_from_proj p) H) as (table & -> & T). cbn [bind].
  destruct (make_odd k1 B1) as (a1 & -> & M1 & M2 & M3 & M4). cbn [bind].
  destruct (make_odd k2 B2) as (a2 & -> & N1 & N2 & N3 & N4). cbn [bind].
  destruct (recode_digits checked _ _ M1 eq_refl M2) as (ds1 & -> & L1 & F1 & R1). cbn [bind].
  destruct (recode_digits checked _ _ N1 eq_refl N2) as (ds2 & -> & L2 & F2 & R2). cbn [bind].
  assert (R : Forall row_ok (rev (combine ds1 ds2))).
  { apply Forall_rev. assert (L : length ds1 = length ds2) by congruence. clear -L F1 F2. revert ds2 L F2.
    induction F1 as [|d1 ds1 D1 F1 IH]; intros [|d2 ds2] L F2; try discriminate; [constructor|].
    inversion F2; subst. cbn [combine]. constructor; [split; assumption|]. apply IH; [now injection L|assumption]. }
  destruct (loop_total checked table s1 0 _ R proj_identity) as (acc & ->). cbn [bind]. eexists. reflexivity.
Qed.
