(** * Proof_MclPolyFr: polynomials of the mcl backend over the scalar field *)
From Coq Require Import List Arith Lia Bool NArith ZArith Field Ring.
From Verif Require Import Base Fld Poly Loops Zr ZrTables Model_Utils Proof_Utils Model_FFT Spec Proof_FFT Model_Poly Proof_Poly1 Proof_Poly2
  Proof_PolyFr Model_Mcl Spec_Mcl Proof_Mcl Proof_MclFr Model_MclPoly Proof_MclPoly.
Import ListNotations.

Lemma Some_inj {A} (x y : A) : Some x = Some y -> x = y.
Proof. now intros [=]. Qed.

Section G.
Context {K : fld}.
Add Field Kfmpf : (fld_field K).
Lemma convol_heads (a b : list K) : coef a 0 = f1 -> coef b 0 = f1 -> convol a b 0 = f1.
Proof. intros Ha Hb. unfold convol. cbn [sum]. rewrite Nat.sub_diag, Ha, Hb. ring. Qed.
End G.

Lemma made_wide s k w n : mcl_made s k w -> n <= max_width s -> ft_wide (Some s) n.
Proof.
  intros H Hn. destruct (mcl_made_ok _ _ _ H) as (Hk & HS). assert (E := proj1 HS). exists k, w. repeat split; auto; try apply HS. lia.
Qed.

Lemma opt_made_wide ft n : opt_made ft n -> ft_wide ft n.
Proof. destruct ft; [|auto]. intros ((k & w & H) & Hn). eapply made_wide; eauto. Qed.

Lemma C57_direct_proof (a b : list Fr) len :
  exists c, mcl_mul_direct a b len = Ok c /\ length c = len /\ forall k, k < len -> nth_error c k = Some (convol a b k).
Proof.
  eexists. split; [apply mcl_mul_direct_spec|]. split; [apply length_map_seq|]. intros. now apply nth_error_map_seq.
Qed.

Lemma C57_direct_blst_proof (a b : list Fr) len : a <> [] -> b <> [] -> mcl_mul_direct a b len = mul_direct a b len.
Proof. intros. now rewrite mcl_mul_direct_spec, mul_direct_spec. Qed.

Lemma C57_fft_proof (a b : list Fr) ft len : 0 < len -> a <> [] \/ b <> [] ->
  let n := Nat.min (length a) len + Nat.min (length b) len - 1 in
  (N.of_nat n <= 2 ^ 30)%N -> opt_made ft n ->
  mcl_mul_fft mcl_pr5_table a b ft len = mcl_mul_direct a b len.
Proof.
  intros Hl Hn n HS HF. rewrite mcl_mul_direct_spec. apply mcl_mul_fft_short; auto using mcl_pr5_table_ok, pr5_length.
  - assert (0 < length a \/ 0 < length b) by (destruct Hn as [H|H]; [left; destruct a|right; destruct b]; simpl; try congruence; lia). lia.
  - now apply opt_made_wide.
Qed.

Lemma C57_mul_proof (a b : list Fr) ft len :
  let n := Nat.min (length a) len + Nat.min (length b) len - 1 in
  (N.of_nat n <= 2 ^ 30)%N -> opt_made ft n ->
  mcl_mul_ mcl_pr5_table a b ft len = mcl_mul_direct a b len.
Proof.
  intros n HS HF. rewrite mcl_mul_direct_spec. apply mcl_mul_spec; auto using mcl_pr5_table_ok, pr5_length.
  now apply opt_made_wide.
Qed.

Lemma C57_narrow_proof (a b : list Fr) s k w len : mcl_made s k w ->
  let n := Nat.min (length a) len + Nat.min (length b) len - 1 in
  (N.of_nat n <= 2 ^ 31)%N -> max_width s < n ->
  mcl_mul_fft mcl_pr5_table a b (Some s) len = Err.
Proof.
  intros HM n HS Hw. unfold mcl_mul_fft. rewrite !min_u64_min. rewrite usub_ok by lia. cbn [bind]. fold n.
  destruct (mcl_next_pow_spec n) as (m & E & L1 & L2).
  { eapply N.le_trans; [exact HS|]. apply N.pow_le_mono_r; lia. }
  assert (Hm : m <= 31).
  { apply (pow2_above_le n); auto. assert (Q : N.of_nat (2 ^ 31) = (2 ^ 31)%N) by (rewrite Nat2N.inj_pow; reflexivity). lia. }
  rewrite E. cbn [bind]. rewrite Nat2N.id, mcl_log_2_pow by lia.
  destruct (mcl_fresh_ok mcl_pr5_table mcl_pr5_table_ok pr5_length m ltac:(lia)) as (s0 & -> & _). cbn [bind].
  destruct (Nat.ltb_spec (max_width s) (2 ^ m)); [reflexivity|lia].
Qed.

Lemma C57_zero_len_proof (a b : list Fr) ft : mcl_mul_fft mcl_pr5_table a b ft 0 = Panic /\ mcl_mul_ mcl_pr5_table a b ft 0 = Ok [].
Proof.
  split.
  - unfold mcl_mul_fft. rewrite !min_u64_min, !Nat.min_0_r. reflexivity.
  - unfold mcl_mul_. rewrite !orb_true_r. cbn [orb Nat.ltb Nat.leb]. now rewrite mcl_mul_direct_spec.
Qed.

(** the general shape of the wrong product *)
Lemma mul_edge (a b : list Fr) n len : n = length a -> n = 2 ^ 30 -> length b = 64 -> len = n + 63 ->
  mcl_mul_ mcl_pr5_table a b None len = Ok (map (fun k => fneg (convol a b k)) (seq 0 len)).
Proof.
  intros Ha Hn Hb Hl. assert (Big : 128 <= n).
  { rewrite Hn. apply Nat.le_trans with (2 ^ 7); [simpl; lia|]. apply Nat.pow_le_mono_r; lia. }
  unfold mcl_mul_. rewrite <- Ha, Hb. destruct (Nat.ltb_spec n 64); [lia|]. destruct (Nat.ltb_spec 64 64); [lia|].
  destruct (Nat.ltb_spec len 128); [lia|]. cbn [orb].
  rewrite (mcl_mul_fft_spec mcl_pr5_table mcl_pr5_table_ok pr5_length a b None len 31).
  - f_equal.
  - lia.
  - rewrite <- Ha, Hb. rewrite !Nat.min_l by lia. assert (E : 2 ^ 31 = 2 ^ 30 + 2 ^ 30) by (rewrite (Nat.pow_succ_r' 2 30); lia). rewrite E, <- Hn. lia.
  - right. rewrite <- Ha, Hb. rewrite !Nat.min_l by lia. replace (31 - 1) with 30 by lia. rewrite <- Hn. lia.
  - lia.
  - exact I.
Qed.

Lemma C57_refuted_proof : exists (a b c d : list Fr) len,
  mcl_mul mcl_pr5_table a b len = Ok c /\ mcl_mul_direct a b len = Ok d /\ c <> d.
Proof.
  assert (X : exists n : nat, n = 2 ^ 30) by eauto. destruct X as (n & Hn).
  set (a := repeat (f1 : Fr) n). set (b := (f1 : Fr) :: repeat f0 63).
  exists a, b. eexists. eexists. exists (n + 63).
  split; [|split].
  - apply mul_edge with (n := n); auto. unfold a. now rewrite repeat_length.
  - apply mcl_mul_direct_spec.
  - intros E. assert (N0 : 0 < n).
    { rewrite Hn. apply Nat.neq_0_lt_0, Nat.pow_nonzero. lia. }
    apply (f_equal (fun l => nth_error l 0)) in E. rewrite !nth_error_map_seq in E by lia.
    assert (C : convol a b 0 = f1).
    { apply convol_heads; [unfold coef, a; now apply nth_repeat'|reflexivity]. }
    rewrite C in E. apply Fr_neg_1_neq. exact (Some_inj _ _ E).
Qed.

Lemma C58_proof (p : list Fr) n :
  (0 < n -> p <> [] -> coef p 0 <> f0 -> (N.of_nat (2 * n - 1) <= 2 ^ 30)%N ->
     exists c, mcl_inverse mcl_pr5_table p n = Ok c /\ length c = n /\
       convol p c 0 = f1 /\ forall k, 0 < k < n -> convol p c k = f0) /\
  (0 < n -> p <> [] -> coef p 0 = f0 -> mcl_inverse mcl_pr5_table p n = Err) /\
  (n = 0 \/ p = [] -> mcl_inverse mcl_pr5_table p n = Ok []).
Proof.
  split; [|split].
  - intros Hn Np Hc HS.
    destruct (mcl_inverse_spec mcl_pr5_table mcl_pr5_table_ok pr5_length p n Hn Np Hc HS) as (c & E & L & H).
    exists c. repeat split; auto.
    + now apply (H 0).
    + intros k Hk. rewrite H by lia. unfold delta. destruct (Nat.eqb_spec k 0); [lia|reflexivity].
  - intros Hn Np Hc. apply mcl_inverse_degenerate; auto. lia.
  - intros [->| ->]; apply mcl_inverse_degenerate; auto.
Qed.

Lemma C59_long_proof (a b : list Fr) :
  (b <> [] -> coef b (length b - 1) <> f0 ->
     exists q, mcl_long_division a b = Ok q /\ euclid a b q /\ forall q', euclid a b q' -> q' = q) /\
  (b = [] \/ coef b (length b - 1) = f0 -> mcl_long_division a b = Err).
Proof.
  split; [|apply mcl_long_division_errors].
  intros Nb Hl. destruct (mcl_long_division_spec a b Nb Hl) as (q & E & H). exists q. repeat split; auto; try apply H.
  intros q' H'. eapply euclid_fun; eauto.
Qed.

Lemma C59_long_blst_proof (a b : list Fr) : mcl_long_division a b = long_div a b.
Proof.
  destruct b as [|y b0] eqn:Eb; [rewrite mcl_long_division_errors, long_div_errors by auto; reflexivity|]. rewrite <- Eb in *.
  assert (Nb : b <> []) by (rewrite Eb; discriminate). clear Eb.
  destruct (feqb (coef b (length b - 1)) f0) eqn:Z.
  - apply feqb_spec in Z. rewrite mcl_long_division_errors, long_div_errors by auto. reflexivity.
  - apply feqb_false in Z.
    destruct (mcl_long_division_spec a b Nb Z) as (q & -> & H).
    destruct (long_div_spec a b Nb Z) as (q' & -> & H').
    f_equal. eapply euclid_fun; eauto.
Qed.

Lemma C59_fast_proof (a b : list Fr) : (N.of_nat (2 * length a) <= 2 ^ 30)%N ->
  mcl_fast_div mcl_pr5_table a b = mcl_long_division a b.
Proof. intros. apply mcl_fast_long; auto using mcl_pr5_table_ok, pr5_length. Qed.

Lemma C59_div_proof (a b : list Fr) : (N.of_nat (2 * length a) <= 2 ^ 30)%N ->
  ((forall i, coef b i = f0) -> mcl_poly_div mcl_pr5_table a b = Err) /\
  ((exists i, coef b i <> f0) -> exists b' q, mcl_poly_div mcl_pr5_table a b = Ok q /\
     (exists z, b = b' ++ repeat f0 z) /\ coef b' (length b' - 1) <> f0 /\ euclid a b' q).
Proof. intros. apply mcl_poly_div_spec; auto using mcl_pr5_table_ok, pr5_length. Qed.
