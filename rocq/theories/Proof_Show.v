(** * Proof_Show: the texts printed for elements of the fields *)
From Coq Require Import Ascii String List Bool ZArith Lia.
From Verif Require Import Base Fld Tables Zr Zp Model_Scalar Spec_Scalar Proof_Scalar Proof_Scalar2 Proof_Scalar3 Proof_Scalar5 Model_Fp Spec_Fp Proof_Fp Proof_FpRep Proof_FpTop Model_Fp2 Model_Fp12 Spec_Show Model_Show Power Tower Ext Spec_Ext.
Import ListNotations.
Local Open Scope list_scope.
Local Open Scope Z_scope.

Lemma digit_ok d : 0 <= d < 16 -> digit_value (hex_digit d) = Some d.
Proof.
  intros H. assert (C : In d (map Z.of_nat (seq 0 16))).
  { apply in_map_iff. exists (Z.to_nat d). split; [lia|]. apply in_seq. lia. }
  cbn [map seq In] in C. repeat (destruct C as [<-|C]; [reflexivity|]). destruct C.
Qed.
Lemma number_bytes bs : forall acc, Forall (fun b => 0 <= b < 256) bs ->
  number acc (flat_map hex_byte bs) = Some (fold_left (fun acc b => 256 * acc + b) bs acc).
Proof.
  induction bs as [|b bs IH]; intros acc F; [reflexivity|]. inversion F; subst. cbn [flat_map hex_byte app number fold_left].
  rewrite !digit_ok; [|apply Z.mod_pos_bound; lia|split; [apply Z.div_pos; lia|apply Z.div_lt_upper_bound; lia]].
  rewrite IH by assumption. f_equal. f_equal. pose proof (Z.div_mod b 16). lia.
Qed.
Lemma length_hex bs : length (flat_map hex_byte bs) = (2 * length bs)%nat.
Proof. induction bs; [reflexivity|]. cbn [flat_map hex_byte app length]. rewrite IHbs. lia. Qed.
Lemma be_rev bs : fold_left (fun acc b => 256 * acc + b) (rev bs) 0 = bytes_val bs.
Proof.
  rewrite fold_left_rev_right || rewrite <- fold_left_rev_right. rewrite ?rev_involutive.
  induction bs as [|b bs IH]; [reflexivity|]. cbn [fold_right bytes_val]. rewrite IH. ring.
Qed.
Lemma scalar_text a x : represents a x -> writes 64 (val x) (scalar_debug a).
Proof.
  intros H. destruct (C42_encode_proof a x H) as ([L B] & V & _). eexists. split; [reflexivity|]. split.
  - rewrite length_hex, rev_length, L. reflexivity.
  - rewrite number_bytes by (apply Forall_rev; exact B). rewrite be_rev, V. reflexivity.
Qed.
Lemma fp_text a x : stands_for a x -> writes 96 (pval x) (fp_debug a).
Proof.
  intros H. destruct (fp_encode a x H) as ([L B] & V). eexists. split; [reflexivity|]. split.
  - rewrite length_hex, L. reflexivity.
  - rewrite number_bytes by exact B. f_equal. exact V.
Qed.
Lemma writes_value k m n t : writes k m t -> writes k n t -> m = n.
Proof. intros (d & -> & _ & D) (d' & E & _ & D'). apply app_inv_head in E. subst d'. congruence. Qed.
Lemma writes_length k n t : writes k n t -> length t = S (S k).
Proof. intros (d & -> & L & _). rewrite app_length, L. reflexivity. Qed.
Lemma app_same {A} (a b c d : list A) : length a = length b -> a ++ c = b ++ d -> a = b /\ c = d.
Proof.
  revert b. induction a as [|x a IH]; intros [|y b] L E; try discriminate L; [split; [reflexivity|exact E]|].
  cbn [app] in E. injection E as -> E. injection L as L. destruct (IH b L E) as [-> ->]. split; reflexivity.
Qed.

(** *** the extension fields: what their texts consist of *)
Lemma fp_tells a b x y : stands_for a x -> stands_for b y -> fp_debug a = fp_debug b <-> x = y.
Proof.
  intros A B. split; intros E.
  - apply pval_inj. pose proof (fp_text a x A) as T. rewrite E in T. exact (writes_value _ _ _ _ T (fp_text b y B)).
  - subst y. apply stands_for_frep in A. apply stands_for_frep in B. now rewrite (frep_inj a b x A B).
Qed.
Lemma scalar_tells a b x y : represents a x -> represents b y -> scalar_debug a = scalar_debug b <-> x = y.
Proof.
  intros A B. split; intros E.
  - apply val_inj. pose proof (scalar_text a x A) as T. rewrite E in T. exact (writes_value _ _ _ _ T (scalar_text b y B)).
  - subst y. apply represents_rep in A. apply represents_rep in B. now rewrite (rep_inj a b x A B).
Qed.
Lemma fp_text_length a x : stands_for a x -> length (fp_debug a) = 98%nat.
Proof. intros A. exact (writes_length _ _ _ (fp_text a x A)). Qed.
Lemma fp2_text_length a x : stands_for2 a x -> length (fp2_debug a) = 201%nat.
Proof.
  destruct a as [a0 a1], x as [x0 x1]. intros [A0 A1]. unfold fp2_debug. rewrite !app_length, (fp_text_length a0 x0 A0), (fp_text_length a1 x1 A1). reflexivity.
Qed.
Lemma fp6_text_length a x : stands_for6 a x -> length (fp6_debug a) = 619%nat.
Proof.
  destruct a as [a0 a1 a2], x as [x0 x1 x2]. intros (A0 & A1 & A2). unfold fp6_debug.
  rewrite !app_length, (fp2_text_length a0 x0 A0), (fp2_text_length a1 x1 A1), (fp2_text_length a2 x2 A2). reflexivity.
Qed.
Lemma fp2_tells a b x y : stands_for2 a x -> stands_for2 b y -> fp2_debug a = fp2_debug b <-> x = y.
Proof.
  destruct a as [a0 a1], x as [x0 x1], b as [b0 b1], y as [y0 y1]. intros [A0 A1] [B0 B1]. unfold fp2_debug. split.
  - intros E. apply app_same in E as [E0 E]; [|now rewrite (fp_text_length _ _ A0), (fp_text_length _ _ B0)].
    apply app_inv_head in E. apply app_inv_tail in E. apply (fp_tells _ _ _ _ A0 B0) in E0. apply (fp_tells _ _ _ _ A1 B1) in E. now rewrite E0, E.
  - intros E. assert (E0 : x0 = y0) by exact (f_equal q0 E). assert (E1 : x1 = y1) by exact (f_equal q1 E).
    apply (fp_tells _ _ _ _ A0 B0) in E0. apply (fp_tells _ _ _ _ A1 B1) in E1. now rewrite E0, E1.
Qed.
Lemma fp6_tells a b x y : stands_for6 a x -> stands_for6 b y -> fp6_debug a = fp6_debug b <-> x = y.
Proof.
  destruct a as [a0 a1 a2], x as [x0 x1 x2], b as [b0 b1 b2], y as [y0 y1 y2]. intros (A0 & A1 & A2) (B0 & B1 & B2). unfold fp6_debug. split.
  - intros E. apply app_same in E as [E0 E]; [|now rewrite (fp2_text_length _ _ A0), (fp2_text_length _ _ B0)]. apply app_inv_head in E.
    apply app_same in E as [E1 E]; [|now rewrite (fp2_text_length _ _ A1), (fp2_text_length _ _ B1)]. apply app_inv_head in E. apply app_inv_tail in E.
    apply (fp2_tells _ _ _ _ A0 B0) in E0. apply (fp2_tells _ _ _ _ A1 B1) in E1. apply (fp2_tells _ _ _ _ A2 B2) in E. now rewrite E0, E1, E.
  - intros E. assert (E0 : x0 = y0) by exact (f_equal k0 E). assert (E1 : x1 = y1) by exact (f_equal k1 E). assert (E2 : x2 = y2) by exact (f_equal k2 E).
    apply (fp2_tells _ _ _ _ A0 B0) in E0. apply (fp2_tells _ _ _ _ A1 B1) in E1. apply (fp2_tells _ _ _ _ A2 B2) in E2. now rewrite E0, E1, E2.
Qed.
Lemma fp12_tells a b x y : stands_for12 a x -> stands_for12 b y -> fp12_debug a = fp12_debug b <-> x = y.
Proof.
  destruct a as [a0 a1], x as [x0 x1], b as [b0 b1], y as [y0 y1]. intros [A0 A1] [B0 B1]. unfold fp12_debug. split.
  - intros E. apply app_same in E as [E0 E]; [|now rewrite (fp6_text_length _ _ A0), (fp6_text_length _ _ B0)].
    apply app_inv_head in E. apply app_inv_tail in E. apply (fp6_tells _ _ _ _ A0 B0) in E0. apply (fp6_tells _ _ _ _ A1 B1) in E. now rewrite E0, E.
  - intros E. assert (E0 : x0 = y0) by exact (f_equal q0 E). assert (E1 : x1 = y1) by exact (f_equal q1 E).
    apply (fp6_tells _ _ _ _ A0 B0) in E0. apply (fp6_tells _ _ _ _ A1 B1) in E1. now rewrite E0, E1.
Qed.
Lemma fp2_text a x : stands_for2 a x -> writes2 x (fp2_debug a).
Proof.
  destruct a as [a0 a1], x as [x0 x1]. intros [A0 A1]. exists (fp_debug a0), (fp_debug a1).
  split; [exact (fp_text a0 x0 A0)|]. split; [exact (fp_text a1 x1 A1)|reflexivity].
Qed.
Lemma fp6_text a x : stands_for6 a x -> writes6 x (fp6_debug a).
Proof.
  destruct a as [a0 a1 a2], x as [x0 x1 x2]. intros (A0 & A1 & A2). exists (fp2_debug a0), (fp2_debug a1), (fp2_debug a2).
  split; [exact (fp2_text a0 x0 A0)|]. split; [exact (fp2_text a1 x1 A1)|]. split; [exact (fp2_text a2 x2 A2)|reflexivity].
Qed.
Lemma fp12_text a x : stands_for12 a x -> writes12 x (fp12_debug a).
Proof.
  destruct a as [a0 a1], x as [x0 x1]. intros [A0 A1]. exists (fp6_debug a0), (fp6_debug a1).
  split; [exact (fp6_text a0 x0 A0)|]. split; [exact (fp6_text a1 x1 A1)|reflexivity].
Qed.
(** words that are not reduced: the modulus prints as zero *)
Lemma modulus_text : scalar_debug MODULUS = scalar_debug zero /\ ct_eq MODULUS zero = false.
Proof. split; vm_compute; reflexivity. Qed.
