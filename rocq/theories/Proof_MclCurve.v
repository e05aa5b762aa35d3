(** * Proof_MclCurve: curves made from a secret or from given points *)
From Coq Require Import List Arith Lia Bool ZArith Ring Field.
From Verif Require Import Base Fld Poly Loops Spec Zr Model_FFT Model_KZG Proof_KZG Proof_Poly2 Proof_Scalar2.
From Verif Require Import Model_Mcl Model_MclPoly Model_MclKZG Proof_Mcl Proof_MclPoly Proof_MclKZG Model_MclCurve.
Import ListNotations.

Section Curve.
Context {K : fld} {P : pairing K}.
Add Field Kfmcv : (fld_field K).
Local Open Scope fld_scope.
Implicit Types (c : mcl_curve P).

Lemma curve_new_spec (s : K) order : curve_new (P := P) s order =
  Ok (mkCurve gen1 gen2 (map (fun i => smul (s ^ i) gen1) (seq 0 order)) (map (fun i => smul (s ^ i) gen2) (seq 0 order)) order).
Proof.
  assert (H := @mcl_setup_points_spec K P order s). unfold mcl_setup_points in H. unfold curve_new.
  apply bind_inv in H. destruct H as (((a & b) & sp) & E & H). cbn [fst] in H. rewrite E. cbn [bind]. congruence.
Qed.

Lemma curve_new_points (s : K) order : exists c, curve_new s order = Ok c /\ cv_order c = order /\
  cv_g1_gen c = gen1 /\ cv_g2_gen c = gen2 /\ length (cv_g1_points c) = order /\ length (cv_g2_points c) = order /\
  forall i, (i < order)%nat -> nth_error (cv_g1_points c) i = Some (smul (s ^ i) gen1) /\ nth_error (cv_g2_points c) i = Some (smul (s ^ i) gen2).
Proof.
  rewrite curve_new_spec. eexists. split; [reflexivity|]. cbn [cv_order cv_g1_gen cv_g2_gen cv_g1_points cv_g2_points].
  rewrite !length_map_seq. repeat (split; [reflexivity|]). intros i Hi.
  rewrite !(nth_error_nth' _ g0) by (rewrite length_map_seq; auto). now rewrite !nth_map_seq by auto.
Qed.

Lemma curve_new2_spec (sg1 : list (PG1 P)) (sg2 : list (PG2 P)) order :
  ((order <= length sg1)%nat -> (order <= length sg2)%nat -> curve_new2 sg1 sg2 order = Ok (mkCurve gen1 gen2 (firstn order sg1) (firstn order sg2) order)) /\
  ((length sg1 < order \/ length sg2 < order)%nat -> curve_new2 sg1 sg2 order = Panic).
Proof.
  unfold curve_new2. destruct (mcl_copy_loop sg1 sg2 order) as (A & B). split.
  - intros H1 H2. rewrite A by auto. reflexivity.
  - intros H. rewrite B by auto. reflexivity.
Qed.

Lemma curve_two_ways (s : K) n order g1s g2s : mcl_setup_points n s = Ok (g1s, g2s) ->
  ((order <= n)%nat -> curve_new2 (P := P) g1s g2s order = curve_new s order) /\ ((n < order)%nat -> curve_new2 (P := P) g1s g2s order = Panic).
Proof.
  intros H. rewrite mcl_setup_points_spec in H. assert (E1 := f_equal (fun x => match x with Ok y => fst y | _ => [] end) H).
  assert (E2 := f_equal (fun x => match x with Ok y => snd y | _ => [] end) H). cbn [fst snd] in E1, E2. subst g1s g2s. clear H.
  destruct (curve_new2_spec (map (fun i => smul (s ^ i) gen1) (seq 0 n)) (map (fun i => smul (s ^ i) gen2) (seq 0 n)) order) as (A & B).
  rewrite !length_map_seq in A, B. split; intros L.
  - rewrite A by auto. rewrite !firstn_seq_map by auto. now rewrite curve_new_spec.
  - apply B. auto.
Qed.

(** the curve as KZG settings; the transform settings are not read *)
Definition as_settings c : kzg_settings P := mkKZG (mkFS 0 0 [] []) (cv_g1_points c) (cv_g2_points c).
Lemma as_powers (s : K) order c : curve_new s order = Ok c -> setup_powers (as_settings c) s order /\ cv_g1_gen c = gen1 /\ cv_g2_gen c = gen2.
Proof.
  rewrite curve_new_spec. intros H. assert (E := f_equal (fun x => match x with Ok y => y | _ => c end) H). cbn beta iota in E. subst c.
  repeat split.
Qed.

Lemma curve_commit_spec (s : K) order c (p : list K) : curve_new s order = Ok c ->
  ((length p <= order)%nat -> curve_commit (cv_g1_points c) p = Ok (smul (peval p s) gen1)) /\
  ((order < length p)%nat -> curve_commit (cv_g1_points c) p = Err).
Proof.
  intros H. destruct (as_powers s order c H) as (S & _). change (curve_commit (cv_g1_points c) p) with (mcl_commit (as_settings c) p).
  rewrite mcl_commit_eq. split; intros L; [now apply (commit_spec _ s order)|].
  apply commit_err. destruct S as (S & _). rewrite S, length_map_seq. auto.
Qed.

Variable fexp : K.
Hypothesis Hfexp : fexp <> 0.

Lemma verify_spec (a1 : PG1 P) a2 b1 b2 : mcl_verify_pairing fexp a1 a2 b1 b2 = true <-> pe a1 a2 = pe b1 b2.
Proof.
  rewrite (mcl_verify_eq _ Hfexp). unfold pairings_verify. rewrite (geqb_spec _ (PGT P)). rewrite pe_neg_l. split; intros H.
  - symmetry. apply gsub_0. unfold gsub. rewrite gadd_comm. exact H.
  - rewrite H. apply gadd_neg_l.
Qed.

Lemma curve_valid_any c (com proof : PG1 P) x y :
  ((length (cv_g2_points c) < 2)%nat -> curve_is_proof_valid fexp c com proof x y = Panic) /\
  ((2 <= length (cv_g2_points c))%nat -> exists g b, nth_error (cv_g2_points c) 1 = Some g /\ curve_is_proof_valid fexp c com proof x y = Ok b /\
     (b = true <-> pe (gsub com (smul y (cv_g1_gen c))) (cv_g2_gen c) = pe proof (gsub g (smul x (cv_g2_gen c))))).
Proof.
  unfold curve_is_proof_valid. split; intros H.
  - now rewrite idx_panic by lia.
  - rewrite (idx_ok _ 1 g0) by lia. cbn [bind]. exists (nth 1 (cv_g2_points c) g0). eexists.
    split; [apply nth_error_nth'; lia|]. split; [reflexivity|]. apply verify_spec.
Qed.

Lemma curve_valid_settings (s : K) order c com proof x y : curve_new s order = Ok c ->
  curve_is_proof_valid fexp c com proof x y = check_proof_single (as_settings c) com proof x y.
Proof.
  intros H. destruct (as_powers s order c H) as (_ & G1 & G2). unfold curve_is_proof_valid. rewrite G1, G2.
  rewrite <- (mcl_check_single_eq fexp Hfexp). reflexivity.
Qed.

Lemma curve_gen_proof_spec (s : K) order c (p : list K) x : curve_new s order = Ok c ->
  exists q, euclid p [- x; 1] q /\ length q = (length p - 1)%nat /\
    curve_gen_proof_at (cv_g1_points c) p x = Ok (smul (peval (firstn order q) s) gen1).
Proof.
  intros H. destruct (as_powers s order c H) as (S & _).
  destruct (mcl_proof_single_spec (repeat 0 32) (repeat_length _ _) (as_settings c) s order p x S) as (q & Q & L & E). rewrite <- linear_binomial in Q. eauto.
Qed.

(** the quotient needs one point less than the polynomial *)
Lemma curve_opening (s : K) order c (p : list K) x : curve_new s order = Ok c -> (2 <= order)%nat -> (length p <= order + 1)%nat ->
  exists proof, curve_gen_proof_at (cv_g1_points c) p x = Ok proof /\
    forall y, exists b, curve_is_proof_valid fexp c (smul (peval p s) gen1) proof x y = Ok b /\ (b = true <-> y = peval p x).
Proof.
  intros H H2 Hp. destruct (as_powers s order c H) as (HS & _).
  destruct (curve_gen_proof_spec s order c p x H) as (q & Hq & Lq & CP). rewrite firstn_all2 in CP by lia.
  rewrite linear_binomial in Hq.
  destruct (euclid_eval _ _ _ Hq) as (r & Lr & Hr0). rewrite binomial_length in Lr by auto.
  assert (Hr : forall z, peval p z = peval q z * (z - x) + peval r z) by (intros z; rewrite Hr0, binomial_eval by auto; cbn [fpow]; ring).
  assert (R : forall z, peval r z = coef r 0).
  { intros z. destruct r as [|c0 [|d r]]; cbn [length] in Lr; [reflexivity| |lia]. unfold coef. cbn [nth peval]. ring. }
  assert (Ex : peval p x = coef r 0) by (rewrite Hr, R; ring).
  assert (Es : peval p s - peval p x = (s - x) * peval q s) by (rewrite Ex, Hr, R; ring).
  eexists. split; [exact CP|]. intros y. rewrite (curve_valid_settings s order) by auto.
  destruct (check_single_spec (as_settings c) s order (smul (peval p s) gen1) (smul (peval q s) gen1) x y HS H2) as (b & E & Hb).
  exists b. split; auto. rewrite Hb. rewrite smul_smul, gsub_smul, <- Es. split.
  - intros E2. apply smul_gen_inj in E2; [|apply gen1_neq_0].
    transitivity (peval p s - (peval p s - y)); [ring|]. rewrite E2. ring.
  - intros ->. reflexivity.
Qed.

(** one coefficient more: the proof is cut off without notice and is refused *)
Lemma curve_overlong (s : K) order c : curve_new s order = Ok c -> (2 <= order)%nat -> s <> 0 ->
  exists (p : list K) x proof, length p = (order + 2)%nat /\ curve_gen_proof_at (cv_g1_points c) p x = Ok proof /\
    curve_is_proof_valid fexp c (smul (peval p s) gen1) proof x (peval p x) = Ok false.
Proof.
  intros H H2 Hs. destruct (as_powers s order c H) as (HS & _).
  set (p := repeat (0 : K) (order + 1) ++ [1]). exists p, (0 : K).
  destruct (curve_gen_proof_spec s order c p 0 H) as (q & Hq & Lq & CP).
  assert (Q : q = skipn 1 p).
  { assert (B0 : [- (0 : K); 1] = binomial 1 0) by reflexivity. rewrite B0 in Hq.
    apply (euclid_fun p (binomial 1 0)); auto.
    - discriminate.
    - rewrite binomial_length by auto. replace (2 - 1)%nat with 1%nat by lia. rewrite binomial_monic by auto. apply f1_neq_0.
    - apply euclid_shift. lia. }
  assert (F : firstn order q = repeat 0 order).
  { rewrite Q. unfold p. replace (order + 1)%nat with (S order) by lia. cbn [repeat app skipn].
    rewrite firstn_app, repeat_length, Nat.sub_diag, firstn_O, app_nil_r. rewrite <- (repeat_length (0 : K) order) at 1. apply firstn_all. }
  eexists. split; [unfold p; rewrite app_length, repeat_length; cbn [length]; lia|]. split; [exact CP|].
  rewrite (curve_valid_settings s order) by auto.
  destruct (check_single_spec (as_settings c) s order (smul (peval p s) gen1) (smul (peval (firstn order q) s) gen1) 0 (peval p 0) HS H2) as (b & E & Hb).
  rewrite E. f_equal. destruct b; auto. exfalso. assert (T := proj1 Hb eq_refl). clear Hb E.
  rewrite F, peval_repeat0, smul_smul, gsub_smul in T. apply smul_gen_inj in T; [|apply gen1_neq_0].
  unfold p in T. rewrite !peval_app, !peval_repeat0, !repeat_length in T. replace (order + 1)%nat with (S order) in T by lia.
  cbn [peval fpow] in T. assert (T2 : s * s ^ order = 0) by (transitivity ((s - 0) * 0); [rewrite <- T|]; ring).
  apply (fpow_neq_0 s (S order) Hs). exact T2.
Qed.
End Curve.

Lemma from_i32_spec (data : list Z) : length (mcl_poly_from_i32 (K := Fr) data) = length data /\
  forall i z, nth_error data i = Some z -> exists x, nth_error (mcl_poly_from_i32 (K := Fr) data) i = Some x /\ val x = (z mod r)%Z.
Proof.
  unfold mcl_poly_from_i32. split; [apply map_length|]. intros i z H. exists (mcl_from_int z).
  split; [now apply map_nth_error|]. unfold mcl_from_int. destruct (Z.ltb_spec z 0).
  - rewrite fnat_Fr, Z2Nat.id by lia. rewrite <- fr_of_neg, Z.opp_involutive. reflexivity.
  - rewrite fnat_Fr, Z2Nat.id by lia. reflexivity.
Qed.
