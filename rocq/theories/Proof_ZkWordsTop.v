(** * Proof_ZkWordsTop: commitments and proofs on machine words, in terms of points of the curve *)
From Coq Require Import ZArith List Bool Lia Arith NArith Znumtheory.
From Verif Require Import Base Fld Tables Zr ZrTables Zp Poly Spec Spec_More Spec_Scalar Model_Scalar Proof_Scalar Proof_Scalar2 Proof_Scalar5 Spec_Fp Model_Fp Proof_FpRep Proof_FpTop Spec_Curve Proof_Curve Proof_CurveMul
  Model_Curve Model_Fp2 Model_G1 Model_G2 Model_Pair Spec_CurveCode Spec_G1 Spec_G2 Proof_G1Base Proof_G1Mul Proof_G1Gen Proof_G1Thm Proof_G1Top Proof_G1Mod Proof_G2Base Proof_G2Psi Proof_G2Top
  Loops Model_Utils Model_FFT Model_Poly Model_KZG Model_Zk Model_ZkMsm Proof_ZkMsmFr Model_ZkKZG Spec_KZG Spec_ZkKZG Proof_KZG Proof_ZkKZG Proof_Rel Model_ZkWords Spec_ZkWords Spec_Pair Proof_Gt Proof_G2Sub Proof_PairTop Proof_Concrete Proof_ZkWords Proof_FFTFr Proof_ZkFr Power Tower Ext.
Import ListNotations.
Local Open Scope nat_scope.

Lemma in1 P : g1_subgroup P -> exists a : PG1 bls_pairing, pt1 a = P.
Proof. intros S. exists (exist _ P (proj2 (memb_ok (b:=b4) P) S)). reflexivity. Qed.
Lemma feqb_iff (x y : Fr) b : (b = true <-> x = y) -> b = feqb x y.
Proof. intros H. destruct (feqb x y) eqn:E; [apply H, feqb_spec; exact E|]. apply feqb_false in E. destruct b; [|reflexivity]. exfalso. apply E, H. reflexivity. Qed.

Theorem words_commit checked ks k n s ps (p : list Fr) : zkw_setup checked ks k n s -> Forall2 represents ps p ->
  (length p <= n -> exists c, zkw_commit_to_poly ks ps = Ok c /\ g1_stands c (point_zmul (val (peval p s)) g1_gen)) /\
  (n < length p -> zkw_commit_to_poly ks ps = Panic).
Proof.
  intros H HP. pose proof H as (_ & _ & _ & _ & LN & _). destruct (setup_rel _ _ _ _ _ H) as (KS & HK & HS). pose proof (zk_setup_inv _ _ _ _ HS) as (_ & [L1 _] & _). split.
  - intros HL. assert (LP : (N.of_nat (length p) < 2 ^ 64)%N) by lia.
    pose proof (proj1 (C71_commit_proof _ _ _ _ p HS LP) HL) as E. pose proof (unwrap_rel _ _ _ (commit_rel _ _ _ _ HK HP)) as R.
    unfold zk_commit_to_poly in E. rewrite E in R. exact (rrel_ok _ _ _ R).
  - intros HL. pose proof (commit_rel _ _ _ _ HK HP) as R.
    assert (E : zk_commit_inner KS p = Err).
    { unfold zk_commit_inner. rewrite L1, map_length, seq_length. destruct (Nat.ltb_spec n (length p)); [reflexivity|lia]. }
    rewrite E in R. unfold zkw_commit_to_poly. rewrite (rrel_err _ _ R). reflexivity.
Qed.

(** ** single openings *)
Lemma zmul_pow1 (s : Fr) : fpow s 1 = s.
Proof. cbn [fpow]. rewrite (t_comm (K:=Fr)). apply t_one. Qed.
Lemma sg_one checked ks k n s : zkw_setup checked ks k n s -> (2 <= n -> exists q, idx (zkw_secret_g2 ks) 1 = Ok q /\ R2 q (smul s gen2)) /\ (n < 2 -> idx (zkw_secret_g2 ks) 1 = Panic).
Proof.
  intros H. destruct (setup_rel _ _ _ _ _ H) as (KS & HK & HS). pose proof (zk_setup_inv _ _ _ _ HS) as (_ & [_ L2] & _).
  destruct HK as (_ & _ & H2 & _). rewrite L2 in H2. split.
  - intros Hn. destruct (Forall2_nth _ _ _ _ _ H2 (nth_pow _ n 1 ltac:(lia))) as (q & E & R). exists q. unfold idx. rewrite E. split; [reflexivity|].
    rewrite zmul_pow1 in R. exact R.
  - intros Hn. apply idx_panic. rewrite (Forall2_length _ _ _ H2), map_length, seq_length. lia.
Qed.
Lemma gsub_smul2 (s x : Fr) : gsub (smul s (gen2 : PG2 bls_pairing)) (smul x gen2) = smul (fsub s x) gen2.
Proof. apply gsub_smul. Qed.
Lemma pair_words checked ks k n s com proof A B xs ys x : zkw_setup checked ks k n s -> 2 <= n ->
  g1_stands com A -> g1_stands proof B -> represents xs x ->
  forall yg C, zkw_g1_mul checked zkw_g1_generator ys = Ok yg -> g1_stands yg C ->
  exists b, zkw_check_proof_single checked ks com proof xs ys = Ok b /\
    (b = true <-> pairing_value (point_add A (point_neg C)) g2_gen = pairing_value B (point_zmul (val (fsub s x)) g2_gen)).
Proof.
  intros H Hn HA HB SX yg C EY HY. destruct (proj1 (sg_one _ _ _ _ _ H) Hn) as (q & E & R).
  unfold zkw_check_proof_single. rewrite E. cbn [bind]. rewrite EY. cbn [bind].
  pose proof (R2_sub _ _ _ _ R (R2_mul _ _ xs x R2_gen SX)) as RS. rewrite gsub_smul2 in RS.
  pose proof (proj1 (proj2 (proj1 (proj2 g1_point_ops) _ _ _ _ HA HY))) as HD.
  exact (pairings_verify_code _ _ _ _ _ _ _ _ HD R2_gen HB RS gen2_sub (pt2_sub _)).
Qed.
Theorem words_single_acceptance checked ks k n s com proof A B xs ys x y : zkw_setup checked ks k n s ->
  g1_stands com A -> g1_stands proof B -> represents xs x -> represents ys y -> ~ rounding_carries (val y) ->
  (2 <= n -> exists b, zkw_check_proof_single checked ks com proof xs ys = Ok b /\
     (b = true <-> pairing_value (point_add A (point_neg (point_zmul (val y) g1_gen))) g2_gen = pairing_value B (point_zmul (val (fsub s x)) g2_gen)) /\
     (g1_subgroup A -> g1_subgroup B -> (b = true <-> point_add A (point_neg (point_zmul (val y) g1_gen)) = point_zmul (val (fsub s x)) B))) /\
  (n < 2 -> zkw_check_proof_single checked ks com proof xs ys = Panic).
Proof.
  intros H HA HB SX SY N. split.
  - intros Hn. destruct (R1_mul checked _ _ ys y R1_gen SY N) as (yg & EY & RY).
    destruct (pair_words _ _ _ _ _ _ _ _ _ _ _ _ H Hn HA HB SX yg _ EY RY) as (b & E & V). exists b. split; [exact E|]. split; [exact V|].
    intros SA SB. destruct (in1 A SA) as (a & EA). destruct (in1 B SB) as (c & EB). rewrite <- EA in HA. rewrite <- EB in HB.
    destruct (setup_rel _ _ _ _ _ H) as (KS & HK & HS).
    rewrite (check_single_rel checked _ _ _ _ _ _ _ _ _ _ HK HA HB SX SY N) in E.
    destruct (proj1 (C71_single_check_proof _ _ _ _ a c x y HS) Hn) as (b' & E' & V'). rewrite E' in E.
    assert (EB' : b' = b) by exact (f_equal (fun o => match o with Ok t => t | _ => b' end) E). rewrite <- EB'. rewrite V', <- EA, <- EB. split.
    + intros Q. exact (f_equal pt1 Q).
    + intros Q. apply pt1_inj. exact Q.
  - intros Hn. unfold zkw_check_proof_single. rewrite (proj2 (sg_one _ _ _ _ _ H) Hn). reflexivity.
Qed.
Theorem words_single_proofs checked ks k n s ps (p : list Fr) x : zkw_setup checked ks k n s -> Forall2 represents ps p ->
  fits (2 * length p) -> length p <= n -> 2 <= n -> (exists i, coef p i <> f0) ->
  exists com proof, zkw_commit_to_poly ks ps = Ok com /\ zkw_compute_proof_single zk_table ks p x = Ok proof /\
    forall xs ys y, represents xs x -> represents ys y -> ~ rounding_carries (val y) ->
      zkw_check_proof_single checked ks com proof xs ys = Ok (feqb y (peval p x)).
Proof.
  intros H HP HF HL Hn HC. destruct (setup_rel _ _ _ _ _ H) as (KS & HK & HS).
  destruct (C71_single_proof _ _ _ _ p x HS HF HL Hn HC) as (c & q & EC & EQ & T & F).
  pose proof (unwrap_rel _ _ _ (commit_rel _ _ _ _ HK HP)) as RC. unfold zk_commit_to_poly in EC. rewrite EC in RC.
  pose proof (compute_rel _ _ p x 1 HK) as RQ. unfold zk_compute_proof_single in EQ. rewrite EQ in RQ.
  destruct (rrel_ok _ _ _ RC) as (com & E1 & R1c). destruct (rrel_ok _ _ _ RQ) as (proof & E2 & R1q).
  exists com, proof. split; [exact E1|]. split; [exact E2|]. intros xs ys y SX SY N.
  rewrite (check_single_rel checked _ _ _ _ _ _ _ _ _ _ HK R1c R1q SX SY N). destruct (feqb y (peval p x)) eqn:D.
  - apply feqb_spec in D. rewrite D. exact T.
  - apply feqb_false in D. exact (F y D).
Qed.

(** ** openings at several points *)
Theorem words_multi_proofs checked ks k n s m ps (p : list Fr) x : zkw_setup checked ks k n s -> Forall2 represents ps p ->
  m <= k -> 2 ^ m < n -> fits (2 * length p) -> length p <= n -> x <> f0 -> (exists i, coef p i <> f0) ->
  exists com proof, zkw_commit_to_poly ks ps = Ok com /\ zkw_compute_proof_multi zk_table ks p x (2 ^ m) = Ok proof /\
    zkw_check_proof_multi ks com proof x (map (fun i => peval p (fmul x (fpow (root m) i))) (seq 0 (2 ^ m))) (2 ^ m) = Ok true.
Proof.
  intros H HP Hm Hn HF HL X HC. destruct (setup_rel _ _ _ _ _ H) as (KS & HK & HS).
  destruct (C71_multi_proof _ _ _ _ m p x HS Hm Hn HF HL X HC) as (c & q & EC & EQ & T).
  pose proof (unwrap_rel _ _ _ (commit_rel _ _ _ _ HK HP)) as RC. unfold zk_commit_to_poly in EC. rewrite EC in RC.
  pose proof (compute_rel _ _ p x (2 ^ m) HK) as RQ. rewrite EQ in RQ.
  destruct (rrel_ok _ _ _ RC) as (com & E1 & R1c). destruct (rrel_ok _ _ _ RQ) as (proof & E2 & R1q).
  exists com, proof. split; [exact E1|]. split; [exact E2|]. rewrite (check_multi_rel _ _ _ _ _ _ _ _ _ HK R1c R1q). exact T.
Qed.
Theorem words_multi_acceptance checked ks k n s m com proof A B x (ys I : list Fr) : zkw_setup checked ks k n s -> m <= k -> length ys = 2 ^ m -> 2 ^ m < n ->
  x <> f0 -> length I <= 2 ^ m -> (forall i, i < 2 ^ m -> peval I (fmul x (fpow (root m) i)) = nth i ys f0) ->
  g1_stands com A -> g1_stands proof B -> g1_subgroup A -> g1_subgroup B ->
  exists b, zkw_check_proof_multi ks com proof x ys (2 ^ m) = Ok b /\
    (b = true <-> point_add A (point_neg (point_zmul (val (peval I s)) g1_gen)) = point_zmul (val (fsub (fpow s (2 ^ m)) (fpow x (2 ^ m)))) B).
Proof.
  intros H Hm HY Hn X LI HI HA HB SA SB. destruct (setup_rel _ _ _ _ _ H) as (KS & HK & HS).
  destruct (in1 A SA) as (a & EA). destruct (in1 B SB) as (c & EB). rewrite <- EA in *. rewrite <- EB in *.
  destruct (C71_multi_accept_proof _ _ _ _ m a c x ys I HS Hm HY Hn X LI HI) as (b & E & V). exists b.
  rewrite (check_multi_rel _ _ _ _ _ _ _ _ _ HK HA HB). split; [exact E|]. rewrite V. split.
  - intros Q. exact (f_equal pt1 Q).
  - intros Q. apply pt1_inj. exact Q.
Qed.

Theorem words_multi_answers checked ks k n s com proof A B x (ys : list Fr) c : zkw_setup checked ks k n s ->
  g1_stands com A -> g1_stands proof B -> g1_subgroup A -> g1_subgroup B ->
  ((forall m, c <> 2 ^ m) \/ ~ acceptable (zkw_fs ks) (length ys) -> zkw_check_proof_multi ks com proof x ys c = Err) /\
  (forall m, c = 2 ^ m -> acceptable (zkw_fs ks) (length ys) ->
     (x <> f0 -> c <= length ys <= n -> c < n -> exists b, zkw_check_proof_multi ks com proof x ys c = Ok b) /\
     (x = f0 \/ length ys < c \/ n <= c \/ n < length ys -> zkw_check_proof_multi ks com proof x ys c = Panic)).
Proof.
  intros H HA HB SA SB. destruct (setup_rel _ _ _ _ _ H) as (KS & HK & HS).
  destruct (in1 A SA) as (a & EA). destruct (in1 B SB) as (b & EB). rewrite <- EA in HA. rewrite <- EB in HB.
  rewrite (check_multi_rel _ _ _ _ _ _ _ _ _ HK HA HB), (proj1 HK). exact (C71_multi_check_proof _ _ _ _ a b x ys c HS).
Qed.
Theorem words_compute checked ks k n s (p : list Fr) x c : zkw_setup checked ks k n s -> fits (2 * length p) ->
  ((forall m, c <> 2 ^ m) -> zkw_compute_proof_multi zk_table ks p x c = Err) /\
  (forall m, c = 2 ^ m -> (forall i, coef p i = f0) -> zkw_compute_proof_multi zk_table ks p x c = Panic) /\
  (forall m p', c = 2 ^ m -> trimmed p p' -> length p' <= n + c ->
     exists q a, euclid p' ([fneg (fpow x c)] ++ repeat f0 (c - 1) ++ [f1]) q /\
       zkw_compute_proof_multi zk_table ks p x c = Ok a /\ g1_stands a (point_zmul (val (peval q s)) g1_gen)) /\
  (forall m p', c = 2 ^ m -> trimmed p p' -> n + c < length p' -> zkw_compute_proof_multi zk_table ks p x c = Panic).
Proof.
  intros H F. destruct (setup_rel _ _ _ _ _ H) as (KS & HK & HS). pose proof (compute_rel _ _ p x c HK) as R.
  destruct (C71_compute_proof _ _ _ _ p x c HS F) as (P1 & P2 & P3 & P4). split; [|split; [|split]].
  - intros N. rewrite (P1 N) in R. exact (rrel_err _ _ R).
  - intros m E Z. rewrite (P2 m E Z) in R. exact (rrel_panic _ _ R).
  - intros m p' E T L. destruct (P3 m p' E T L) as (q & EU & EQ). rewrite EQ in R. destruct (rrel_ok _ _ _ R) as (a & Ea & Ra). exists q, a.
    split; [exact EU|]. split; [exact Ea|exact Ra].
  - intros m p' E T L. rewrite (P4 m p' E T L) in R. exact (rrel_panic _ _ R).
Qed.

(** ** a value for which the multiplication goes wrong: another value is opened *)
Theorem words_value_refuted : exists (y y' : Fr) ys, y <> y' /\ represents ys y /\
  forall ks k n s ps (p : list Fr) x xs, zkw_setup false ks k n s -> Forall2 represents ps p -> represents xs x ->
    fits (2 * length p) -> length p <= n -> 2 <= n -> (exists i, coef p i <> f0) ->
    exists com proof, zkw_commit_to_poly ks ps = Ok com /\ zkw_compute_proof_single zk_table ks p x = Ok proof /\
      zkw_check_proof_single false ks com proof xs ys = Ok (feqb y' (peval p x)).
Proof.
  destruct (bad_scalar bad_k) as (ys & y & SY & V); [split; vm_compute; congruence|].
  destruct (scalar_bytes ys y SY) as [BY VB]. rewrite V in VB.
  destruct (multiply_bad g1_generator _ (proj1 gen_rep) BY VB) as (yg & e & EY & RY & NE). apply Proof_G1Top.pst in RY.
  exists y, (fr_of e), ys. split; [|split; [exact SY|]].
  { intros Q. apply NE. rewrite <- V, Q. unfold fr_of. rewrite val_to_Fr. rewrite Zminus_mod, Z.mod_mod by discriminate. rewrite Z.sub_diag. reflexivity. }
  intros ks k n s ps p x xs H HP SX HF HL Hn HC. destruct (setup_rel _ _ _ _ _ H) as (KS & HK & HS).
  destruct (C71_single_proof _ _ _ _ p x HS HF HL Hn HC) as (c & q & EC & EQ & T & F).
  pose proof (unwrap_rel _ _ _ (commit_rel _ _ _ _ HK HP)) as RC. unfold zk_commit_to_poly in EC. rewrite EC in RC.
  pose proof (compute_rel _ _ p x 1 HK) as RQ. unfold zk_compute_proof_single in EQ. rewrite EQ in RQ.
  destruct (rrel_ok _ _ _ RC) as (com & E1 & R1c). destruct (rrel_ok _ _ _ RQ) as (proof & E2 & R1q).
  exists com, proof. split; [exact E1|]. split; [exact E2|].
  assert (RE : R1 yg (smul (fr_of e) gen1)).
  { unfold R1. replace (pt1 (smul (fr_of e) (gen1 : PG1 bls_pairing))) with (point_zmul e g1_gen); [exact RY|].
    change (point_zmul e g1_gen = point_zmul (val (fr_of e)) g1_gen). unfold fr_of. rewrite val_to_Fr. symmetry.
    apply (pt_zmul_mod (b:=b4) Fp_two Fp_NoTwo); [exact (proj1 gen1_sub)|discriminate|exact (proj2 gen1_sub)]. }
  destruct (proj1 (sg_one _ _ _ _ _ H) Hn) as (sg & ES & RS).
  unfold zkw_check_proof_single. rewrite ES. cbn [bind]. rewrite (proj1 gens). change (zkw_g1_mul false g1_generator ys) with (g1_multiply false g1_generator (Model_Scalar.to_bytes ys)). rewrite EY. cbn [bind].
  rewrite (verify_rel _ _ _ _ _ _ _ _ (R1_sub _ _ _ _ R1c RE) R2_gen R1q (R2_sub _ _ _ _ RS (R2_mul _ _ xs x R2_gen SX))). apply (f_equal Ok).
  (* the abstract check of the other value *)
  assert (Q : zk_check_proof_single KS c q x (fr_of e) = Ok (feqb (fr_of e) (peval p x))).
  { destruct (feqb (fr_of e) (peval p x)) eqn:D; [apply feqb_spec in D; rewrite D; exact T|apply feqb_false in D; exact (F _ D)]. }
  unfold zk_check_proof_single in Q. pose proof (zk_setup_inv _ _ _ _ HS) as (_ & [_ L2] & _). rewrite L2 in Q.
  unfold idx in Q. rewrite (nth_pow _ n 1 ltac:(lia)) in Q. cbn [bind] in Q. rewrite zmul_pow1 in Q.
  exact (f_equal (fun o => match o with Ok t => t | _ => false end) Q).
Qed.

(** ** points outside the subgroup *)
Lemma cube_one {K : fld} (x : K) q : prime q -> (3 < q)%Z -> x <> f0 -> zpow x q = f1 -> zpow x 3 = f1 -> x = f1.
Proof.
  intros PQ G N Q E. destruct (feqb x f1) eqn:D; [apply feqb_spec; exact D|]. apply feqb_false in D. exfalso.
  apply (order_divides x q 3 PQ N D Q) in E. apply Z.divide_pos_le in E; lia.
Qed.
Lemma T3_pairs Q : g2_subgroup Q -> pairing_value T3 Q = f1.
Proof.
  intros SQ. pose proof (proj1 (pairing_multiples T3 Q 3 T3_on SQ)) as E. rewrite T3_order in E. rewrite (proj1 (pairing_identity T3 Q)) in E.
  exact (cube_one (pairing_value T3 Q) r r_prime (eq_refl : (3 < r)%Z) (pairing_nonzero T3 Q T3_on (proj1 SQ)) (pairing_member T3 Q T3_on (proj1 SQ)) (eq_sym E)).
Qed.
Lemma same_bool (a b : bool) : (a = true <-> b = true) -> a = b.
Proof. intros H. destruct a, b; [reflexivity|symmetry; apply H; reflexivity|apply H; reflexivity|reflexivity]. Qed.
Lemma times_one {K : fld} (x y z : K) : z = fmul x y -> y = f1 -> z = x.
Proof. intros -> ->. rewrite t_comm. apply t_one. Qed.
Lemma T3_shift A Q : g1_on_curve A -> g2_subgroup Q -> pairing_value (point_add A T3) Q = pairing_value A Q.
Proof. intros CA SQ. exact (times_one (K:=Fp12) _ _ _ (proj1 pairing_additive A T3 Q CA T3_on SQ) (T3_pairs Q SQ)). Qed.
Lemma swap_last A T C : g1_on_curve A -> g1_on_curve T -> g1_on_curve C -> point_add (point_add A T) C = point_add (point_add A C) T.
Proof.
  intros CA CT CC. destruct g1_group as (ONG & NEG & ASG & CMG & _).
  rewrite <- (ASG A T C CA CT CC), (CMG T C CT CC). apply ASG; assumption.
Qed.
Theorem words_cofactor_refuted : exists T : point Fp, g1_on_curve T /\ T <> Infinity /\
  forall checked ks k n s com proof com' proof' A B xs ys x y, zkw_setup checked ks k n s -> 2 <= n ->
    g1_stands com A -> g1_stands proof B -> g1_stands com' (point_add A T) -> g1_stands proof' (point_add B T) ->
    represents xs x -> represents ys y -> ~ rounding_carries (val y) ->
    zkw_check_proof_single checked ks com proof' xs ys = zkw_check_proof_single checked ks com proof xs ys /\
    zkw_check_proof_single checked ks com' proof xs ys = zkw_check_proof_single checked ks com proof xs ys.
Proof.
  exists T3. split; [exact T3_on|]. split; [discriminate|].
  intros checked ks k n s com proof com' proof' A B xs ys x y H Hn HA HB HA' HB' SX SY N.
  destruct (R1_mul checked _ _ ys y R1_gen SY N) as (yg & EY & RY).
  pose proof (proj1 (proj2 g1_stands_total) _ _ HA) as CA. pose proof (proj1 (proj2 g1_stands_total) _ _ HB) as CB. pose proof (proj1 (proj2 g1_stands_total) _ _ RY) as CY.
  destruct (pair_words _ _ _ _ _ _ _ _ _ _ _ _ H Hn HA HB SX yg _ EY RY) as (b & E & V).
  destruct (pair_words _ _ _ _ _ _ _ _ _ _ _ _ H Hn HA HB' SX yg _ EY RY) as (b1 & E1 & V1).
  destruct (pair_words _ _ _ _ _ _ _ _ _ _ _ _ H Hn HA' HB SX yg _ EY RY) as (b2 & E2 & V2).
  rewrite E, E1, E2. set (C := pt1 _) in *. clearbody C.
  pose proof (T3_shift B _ CB (sub_zmul _ (val (fsub s x)) gen2_sub)) as S1.
  pose proof (T3_shift (point_add A (point_neg C)) _ (proj1 g1_group _ _ CA (proj1 (proj2 g1_group) _ CY)) gen2_sub) as S2.
  rewrite <- (swap_last A T3 (point_neg C) CA T3_on (proj1 (proj2 g1_group) _ CY)) in S2.
  assert (W1 : b1 = true <-> b = true) by (rewrite V1, V; split; intros Q; [exact (eq_trans Q S1)|exact (eq_trans Q (eq_sym S1))]).
  assert (W2 : b2 = true <-> b = true) by (rewrite V2, V; split; intros Q; [exact (eq_trans (eq_sym S2) Q)|exact (eq_trans S2 Q)]).
  split; apply (f_equal Ok).
  - exact (same_bool _ _ W1).
  - exact (same_bool _ _ W2).
Qed.

(** ** a value for which the rounding carries, with overflow checks *)
Theorem words_single_panics ks com proof xs ys (y : Fr) : represents ys y -> rounding_carries (val y) ->
  zkw_check_proof_single true ks com proof xs ys = Panic.
Proof.
  intros SY C. unfold zkw_check_proof_single. unfold idx. destruct (nth_error (zkw_secret_g2 ks) 1); cbn [bind]; [|reflexivity].
  unfold zkw_g1_mul. rewrite (g1_scalar_mul_panics _ _ _ SY C). reflexivity.
Qed.

(** ** a secret for which the first list is not the list of the multiples by its powers *)
Theorem words_setup_refuted : exists secret s g1s g2s q, is_bytes 32 secret /\ (bytes_val secret < r)%Z /\ s = fr_of (bytes_val secret) /\
  zkw_generate_trusted_setup false 2 secret = Ok (g1s, g2s) /\ nth_error g1s 1 = Some q /\ ~ g1_stands q (point_zmul (val s) g1_gen) /\
  exists q', nth_error g2s 1 = Some q' /\ g2_stands q' (point_zmul (val s) g2_gen).
Proof.
  assert (KB : (0 <= bad_k < r)%Z) by (split; vm_compute; congruence).
  destruct (bad_scalar bad_k KB) as (ys & y & SY & V). destruct (scalar_bytes ys y SY) as [BY VB]. rewrite V in VB.
  destruct (C42_decode_proof _ BY) as [D _]. rewrite VB in D. destruct (D (proj2 KB)) as (sw & E & Rs & EB).
  assert (EY : fr_of bad_k = y) by (rewrite <- V; apply fr_of_val). rewrite EY in Rs.
  assert (R0 : represents Model_Scalar.one f1) by exact (proj1 (proj2 (proj2 (proj2 (proj2 (proj2 (proj2 (proj2 (C41_operations_proof _ _ _ _ Rs Rs))))))))).
  assert (N0 : ~ rounding_carries (val (f1 : Fr))) by (apply g1_small_scalars; split; vm_compute; congruence).
  destruct (R1_mul false _ _ _ _ R1_gen R0 N0) as (q0 & E0 & _).
  set (sw1 := Model_Scalar.mul Model_Scalar.one sw).
  assert (R1w : represents sw1 y).
  { unfold sw1. rewrite <- (t_one (K:=Fr) y). exact (proj1 (proj2 (proj2 (C41_operations_proof _ _ _ _ R0 Rs)))). }
  destruct (scalar_bytes sw1 y R1w) as [BY1 VB1]. rewrite V in VB1.
  destruct (multiply_bad g1_generator _ (proj1 gen_rep) BY1 VB1) as (q1 & e & E1 & RY & NE).
  exists (Model_Scalar.to_bytes ys), y, [q0; q1], [zkw_g2_mul zkw_g2_generator Model_Scalar.one; zkw_g2_mul zkw_g2_generator sw1], q1.
  split; [exact BY|]. rewrite VB. split; [exact (proj2 KB)|]. split; [symmetry; exact EY|]. split.
  - unfold zkw_generate_trusted_setup. rewrite E. unfold for_range. cbn [Nat.sub for_]. rewrite E0. cbn [bind]. fold sw1.
    rewrite (proj1 gens). change (zkw_g1_mul false g1_generator sw1) with (g1_multiply false g1_generator (Model_Scalar.to_bytes sw1)). rewrite E1. reflexivity.
  - split; [reflexivity|]. split.
    + intros S. apply Proof_G1Top.pst in S. apply NE. apply gen_zmul_inj. rewrite V in S. apply Proof_G1Top.pst in RY. apply Proof_G1Top.pst in S. exact (proj1 (proj2 (proj2 (proj2 g1_stands_total))) _ _ _ RY S).
    + eexists. split; [reflexivity|]. exact (R2_mul _ _ _ _ R2_gen R1w).
Qed.

(** ** the methods and constants of the point types *)
Theorem words_g1_methods : g1_stands zkw_g1_identity Infinity /\ g1_stands zkw_g1_generator g1_gen /\ g1_stands zkw_g1_negative_generator (point_neg g1_gen) /\
  forall a b A B, g1_stands a A -> g1_stands b B ->
    g1_stands (zkw_g1_add_or_dbl a b) (point_add A B) /\ g1_stands (zkw_g1_dbl a) (point_add A A) /\
    g1_stands (zkw_g1_sub a b) (point_add A (point_neg B)) /\ (zkw_g1_equals a b = true <-> A = B) /\ (zkw_g1_is_inf a = true <-> A = Infinity).
Proof.
  destruct gens as (E1 & _ & E3 & E4 & _). split; [rewrite E3; exact (proj1 (proj1 g1_point_ops))|].
  pose proof R1_gen as G. split; [exact G|]. split.
  { rewrite E4. rewrite E1 in G. exact (proj1 (proj2 (proj2 (proj1 (proj2 g1_point_ops) _ _ _ _ G G)))). }
  intros a b A B HA HB. destruct (proj1 (proj2 g1_point_ops) _ _ _ _ HA HB) as (S1 & S2 & _ & S4 & S5 & S6).
  split; [|split; [exact S4|split; [exact S2|split; [exact S5|exact S6]]]].
  unfold zkw_g1_add_or_dbl. destruct (proj_eq a b) eqn:E; [|exact S1]. rewrite <- (proj1 S5 eq_refl). exact S4.
Qed.
Theorem words_g2_methods : g2_stands zkw_g2_generator g2_gen /\ g2_stands zkw_g2_negative_generator (point_neg g2_gen) /\
  forall a b A B, g2_stands a A -> g2_stands b B ->
    g2_stands (zkw_g2_add_or_dbl a b) (point_add A B) /\ g2_stands (zkw_g2_dbl a) (point_add A A) /\
    g2_stands (zkw_g2_sub a b) (point_add A (point_neg B)) /\ (zkw_g2_equals a b = true <-> A = B).
Proof.
  destruct gens as (_ & E1 & _ & _ & E4). 
  pose proof R2_gen as G. split; [exact G|]. split.
  { rewrite E4. rewrite E1 in G. exact (proj1 (proj2 (proj2 (proj1 (proj2 g2_point_ops) _ _ _ _ G G)))). }
  intros a b A B HA HB. destruct (proj1 (proj2 g2_point_ops) _ _ _ _ HA HB) as (S1 & S2 & _ & S4 & S5 & S6).
  split; [|split; [exact S4|split; [exact S2|exact S5]]].
  unfold zkw_g2_add_or_dbl. destruct (proj_eq a b) eqn:E; [|exact S1]. rewrite <- (proj1 S5 eq_refl). exact S4.
Qed.

(** ** cases *)
Lemma small_power (s : Fr) i : val s = 3%Z -> i < 20 -> val (fpow s i) = (3 ^ Z.of_nat i)%Z.
Proof.
  intros V. induction i as [|i IH]; intros Hi; [reflexivity|]. cbn [fpow]. rewrite val_mul, V, IH by lia.
  rewrite Nat2Z.inj_succ, Z.pow_succ_r by lia. apply Z.mod_small. split; [apply Z.mul_nonneg_nonneg; [lia|apply Z.pow_nonneg; lia]|].
  apply Z.lt_trans with (3 * 3 ^ 20)%Z; [|reflexivity]. apply Z.mul_lt_mono_pos_l; [lia|]. apply Z.pow_lt_mono_r; lia.
Qed.
Lemma words_case checked : exists ks, zkw_setup checked ks 3 10 (fr_of 3).
Proof.
  set (secret := 3%Z :: repeat 0%Z 31).
  assert (B : is_bytes 32 secret) by (split; [reflexivity|repeat constructor; discriminate]).
  assert (N : forall i, i < 10 -> ~ rounding_carries (val (fpow (fr_of 3) i))).
  { intros i Hi. rewrite small_power by (lia || (vm_compute; reflexivity)). apply g1_small_scalars. split; [apply Z.pow_nonneg; lia|].
    apply Z.lt_trans with (3 ^ 10)%Z; [apply Z.pow_lt_mono_r; lia|reflexivity]. }
  destruct (new_ok 3 ltac:(lia)) as (fs & EF & _). rewrite <- zk_new_blst in EF.
  destruct (words_setup checked 10 secret (fr_of 3) B eq_refl) as [_ S]. specialize (S ltac:(reflexivity)).
  destruct (proj1 S N) as (g1s & g2s & E & _). exists (zkw_new g1s g2s fs), secret, fs, g1s, g2s. 
  split; [reflexivity|]. split; [exact B|]. split; [exact EF|]. split; [exact E|]. split; [reflexivity|]. split; [reflexivity|exact N].
Qed.
Lemma verify_case : exists a1 a2 b1 b2, g1_stands a1 (point_zmul (val (fr_of 2)) g1_gen) /\ g2_stands a2 (point_zmul (val (fr_of 3)) g2_gen) /\
  g1_stands b1 (point_zmul (val (fr_of 6)) g1_gen) /\ g2_stands b2 (point_zmul (val (fr_of 1)) g2_gen) /\ feqb (fmul (fr_of 2) (fr_of 3)) (fmul (fr_of 6) (fr_of 1)) = true /\
  feqb (fmul (fr_of 2) (fr_of 3)) (fmul (fr_of 6) (fr_of 2)) = false.
Proof.
  assert (H1 : forall n, exists a, g1_stands a (point_zmul n g1_gen)) by (intros n; apply g1_stands_total, G1_ZON; exact (proj1 gen1_sub)).
  assert (H2 : forall n, exists a, g2_stands a (point_zmul n g2_gen)) by (intros n; apply g2_stands_total; exact (proj1 (sub_zmul _ n gen2_sub))).
  destruct (H1 (val (fr_of 2))) as [a1 A1], (H2 (val (fr_of 3))) as [a2 A2], (H1 (val (fr_of 6))) as [b1 B1], (H2 (val (fr_of 1))) as [b2 B2].
  exists a1, a2, b1, b2. repeat (split; [assumption|]). split; vm_compute; reflexivity.
Qed.
