(** * Proof_G2Top: the G2 results in terms of the specification *)
From Coq Require Import ZArith List Bool Lia Znumtheory.
From Verif Require Import Base Fld Zr Zp Spec_Scalar Model_Scalar Proof_Scalar Proof_Scalar2 Proof_Scalar5 Spec_Fp Spec_Curve Model_Fp Model_Curve Model_Fp2 Model_G2
  Proof_FpRep Proof_FpTop Spec_CurveCode Proof_Curve Proof_CurveCode Proof_CurveMul Proof_G1Base Proof_Endo Proof_Twist Proof_G1Mod Proof_G1Top
  Power Tower Ext Spec_Ext Proof_Fp2 Proof_ExtTop Spec_G2 Proof_G2Base Proof_G2Enc Proof_Chain2 Cert_G2 Proof_G2Psi.
Import ListNotations.
Local Open Scope Z_scope.

Definition G2_ADD := proj_add_ok fp2_ops_ok Fp2_two Fp2_NoTwo.
Definition G2_DBL := proj_double_ok fp2_ops_ok Fp2_two Fp2_NoTwo.
Definition G2_MIX := proj_add_mixed_ok fp2_ops_ok Fp2_two Fp2_NoTwo.
Definition G2_SUBM := proj_sub_mixed_ok fp2_ops_ok Fp2_two Fp2_NoTwo.
Lemma pst q P : g2_stands q P <-> pstands2 q P.
Proof. apply (proj_stands_rep bq). exact stands_for2_rep. Qed.
Lemma ast q P : g2_aff_stands q P <-> astands2 q P.
Proof. apply (aff_stands_rep bq). exact stands_for2_rep. Qed.
Lemma pst_list l L : Forall2 g2_stands l L -> Forall2 pstands2 l L.
Proof. induction 1; constructor; [apply pst; assumption|assumption]. Qed.
Lemma ast_list l L : Forall2 astands2 l L -> Forall2 g2_aff_stands l L.
Proof. induction 1; constructor; [apply ast; assumption|assumption]. Qed.

(** ** the curve is a group *)
Theorem g2_group :
  (forall P Q, g2_on_curve P -> g2_on_curve Q -> g2_on_curve (point_add P Q)) /\
  (forall P, g2_on_curve P -> g2_on_curve (point_neg P)) /\
  (forall P Q R, g2_on_curve P -> g2_on_curve Q -> g2_on_curve R ->
     point_add P (point_add Q R) = point_add (point_add P Q) R) /\
  (forall P Q, g2_on_curve P -> g2_on_curve Q -> point_add P Q = point_add Q P) /\
  (forall P, g2_on_curve P -> point_add Infinity P = P) /\
  (forall P, g2_on_curve P -> point_add P (point_neg P) = Infinity).
Proof.
  split; [exact ON2_|]. split; [exact NON2_|]. split; [exact A2_|]. split; [exact C2_|].
  split; [intros P _; apply point_add_0_l|intros P _; apply point_add_neg_r].
Qed.
(** every point of the curve has machine coordinates, and they stand for one point *)
Theorem g2_stands_total :
  (forall P, g2_on_curve P -> (exists q, g2_stands q P) /\ (exists q, g2_aff_stands q P)) /\
  (forall q P, g2_stands q P -> g2_on_curve P) /\ (forall q P, g2_aff_stands q P -> g2_on_curve P) /\
  (forall q P P', g2_stands q P -> g2_stands q P' -> P = P') /\
  (forall q P P', g2_aff_stands q P -> g2_aff_stands q P' -> P = P').
Proof.
  assert (AX : forall P, g2_on_curve P -> exists q, astands2 q P).
  { intros [|X Y] C; [exists aff_identity; apply (aff_identity_ok fp2_ops_ok)|].
    destruct (stands_for2_exists X) as [x RX], (stands_for2_exists Y) as [y RY].
    apply stands_for2_rep in RX. apply stands_for2_rep in RY.
    exists (@Aff fp2_ops x y false), X, Y. split; [exact RX|]. split; [exact RY|]. split; [exact C|reflexivity]. }
  split; [|split; [|split; [|split]]].
  - intros P C. destruct (AX P C) as [q A]. split.
    + exists (proj_from_aff q). apply pst. apply (Proof_CurveCode.proj_from_aff_ok fp2_ops_ok). exact A.
    + exists q. apply ast. exact A.
  - intros q P A. apply pst in A. exact (proj_stands_on_curve _ _ A).
  - intros q P A. apply ast in A. exact (aff_stands_on_curve _ _ A).
  - intros q P P' A B. apply pst in A. apply pst in B. exact (proj_stands_unique fp2_ops_ok q P P' A B).
  - intros q P P' A B. apply ast in A. apply ast in B. exact (aff_stands_unique fp2_ops_ok q P P' A B).
Qed.
Theorem g2_point_ops :
  (g2_stands proj_identity Infinity /\ g2_aff_stands aff_identity Infinity) /\
  (forall p q P Q, g2_stands p P -> g2_stands q Q ->
     g2_stands (proj_add p q) (point_add P Q) /\ g2_stands (proj_sub p q) (point_add P (point_neg Q)) /\
     g2_stands (proj_neg p) (point_neg P) /\ g2_stands (proj_double p) (point_add P P) /\
     (proj_eq p q = true <-> P = Q) /\ (proj_is_identity p = true <-> P = Infinity)) /\
  (forall p q P Q, g2_stands p P -> g2_aff_stands q Q ->
     g2_stands (proj_add_mixed p q) (point_add P Q) /\ g2_stands (proj_sub_mixed p q) (point_add P (point_neg Q)) /\
     g2_aff_stands (aff_from_proj p) P /\ g2_stands (proj_from_aff q) Q) /\
  (forall p q P Q, g2_aff_stands p P -> g2_aff_stands q Q ->
     g2_aff_stands (aff_neg p) (point_neg P) /\ (aff_eq p q = true <-> P = Q) /\ (aff_is_identity p = true <-> P = Infinity)).
Proof.
  split; [split; [apply pst, (proj_identity_ok fp2_ops_ok)|apply ast, (aff_identity_ok fp2_ops_ok)]|].
  split; [|split].
  - intros p q P Q A B. apply pst in A. apply pst in B.
    split; [apply pst, G2_ADD; assumption|]. split; [apply pst, (proj_sub_ok fp2_ops_ok Fp2_two Fp2_NoTwo); assumption|].
    split; [apply pst, (proj_neg_ok fp2_ops_ok); assumption|]. split; [apply pst, G2_DBL; assumption|].
    split; [apply (proj_eq_ok fp2_ops_ok); assumption|apply (proj_is_identity_ok fp2_ops_ok); assumption].
  - intros p q P Q A B. apply pst in A. apply ast in B.
    split; [apply pst, G2_MIX; assumption|]. split; [apply pst, G2_SUBM; assumption|].
    split; [apply ast, (aff_from_proj_ok fp2_ops_ok); assumption|apply pst, (Proof_CurveCode.proj_from_aff_ok fp2_ops_ok); assumption].
  - intros p q P Q A B. apply ast in A. apply ast in B.
    split; [apply ast, (aff_neg_ok fp2_ops_ok); assumption|].
    split; [apply (aff_eq_ok fp2_ops_ok); assumption|exact (aff_is_identity_ok p P A)].
Qed.
Theorem g2_sum l L : Forall2 g2_stands l L -> g2_stands (proj_sum l) (fold_right point_add Infinity L).
Proof.
  intros H. apply pst_list in H.
  assert (D : Forall (on_curve bq) L) by (clear -H; induction H; constructor; [eapply proj_stands_on_curve; eassumption|assumption]).
  apply pst. pose proof (proj_sum_ok fp2_ops_ok Fp2_two Fp2_NoTwo l L H) as S.
  assert (OF : on_curve bq (fold_right point_add Infinity L)) by (clear H S; induction D; cbn [fold_right]; [exact I|apply ON2_; assumption]).
  replace (fold_right point_add Infinity L) with (fold_left point_add L Infinity); [exact S|]. clear H S OF l.
  assert (G : forall A, on_curve bq A -> fold_left point_add L A = point_add A (fold_right point_add Infinity L)).
  { induction D as [|P L CP D IH]; intros A CA; cbn [fold_left fold_right].
    - rewrite C2_ by (exact CA || exact I). symmetry. apply point_add_0_l.
    - assert (OF : on_curve bq (fold_right point_add Infinity L)) by (clear IH; induction D; cbn [fold_right]; [exact I|apply ON2_; assumption]).
      rewrite IH by (apply ON2_; assumption). symmetry. apply A2_; assumption. }
  rewrite G by exact I. apply point_add_0_l.
Qed.
Theorem g2_normalize ps Ps : Forall2 g2_stands ps Ps ->
  (exists out, batch_normalize ps (length ps) = Ok out /\ Forall2 g2_aff_stands out Ps) /\
  (forall n, n <> length ps -> batch_normalize ps n = Panic).
Proof.
  intros H. destruct (batch_normalize_ok fp2_ops_ok ps Ps (pst_list _ _ H)) as [(out & E & S) N].
  split; [exists out; split; [exact E|apply ast_list; exact S]|exact N].
Qed.
(** the curve tests accept what they accept *)
Theorem g2_curve_tests :
  (forall x y i (X Y : Fp2), stands_for2 x X -> stands_for2 y Y ->
     (@aff_is_on_curve fp2_ops (@Aff fp2_ops x y i) = true <-> i = true \/ g2_on_curve (Affine X Y))) /\
  (forall x y z (X Y Z : Fp2), stands_for2 x X -> stands_for2 y Y -> stands_for2 z Z ->
     (@proj_is_on_curve fp2_ops (@Proj fp2_ops x y z) = true <-> Z = f0 \/ projective g2_b X Y Z)).
Proof.
  split.
  - intros x y i X Y A B. apply stands_for2_rep in A. apply stands_for2_rep in B. exact (aff_is_on_curve_ok fp2_ops_ok x y i X Y A B).
  - intros x y z X Y Z A B C. apply stands_for2_rep in A. apply stands_for2_rep in B. apply stands_for2_rep in C.
    exact (proj_is_on_curve_ok fp2_ops_ok x y z X Y Z A B C).
Qed.
Theorem g2_curve_test_refuted : exists q : g2_projective, proj_is_on_curve q = true /\ forall P, ~ g2_stands q P.
Proof.
  exists (@Proj fp2_ops fp2_one fp2_zero fp2_zero). split; [vm_compute; reflexivity|].
  intros P H. apply pst in H. destruct H as (X & Y & Z & RX & RY & RZ & [E _] & _).
  pose proof (rep2_unique _ _ _ RX rep2_one) as ->. pose proof (rep2_unique _ _ _ RY rep2_zero) as ->.
  pose proof (rep2_unique _ _ _ RZ rep2_zero) as ->. apply (@f1_neq_0 Fp2). exact (one_not_root _ E).
Qed.

(** ** multiplication by scalars: every point of the curve, every scalar *)
Theorem g2_scalar_mul s (x : Fr) P : represents s x ->
  (forall q, g2_stands q P -> g2_stands (g2_mul q s) (point_zmul (val x) P)) /\
  (forall a, g2_aff_stands a P -> g2_stands (g2_mul_affine a s) (point_zmul (val x) P)).
Proof.
  intros R. destruct (scalar_bytes s x R) as [B V]. destruct (val_small x) as [L _]. pose proof (val_range x) as VR.
  assert (M : forall q, pstands2 q P -> g2_stands (g2_multiply q (Model_Scalar.to_bytes s)) (point_zmul (val x) P)).
  { intros q H. apply pst. pose proof (multiply2_ok q P _ H B) as S. rewrite V, Z.mod_small in S by lia. exact S. }
  split.
  - intros q H. apply M, pst. exact H.
  - intros a H. apply M, (Proof_CurveCode.proj_from_aff_ok fp2_ops_ok), ast. exact H.
Qed.

(** ** the subgroup *)
Theorem g2_generator_ok : g2_stands g2_generator g2_gen /\ g2_aff_stands g2_generator_affine g2_gen /\ g2_subgroup g2_gen /\
  (forall n, point_zmul n g2_gen = Infinity <-> (r | n)).
Proof.
  split; [apply pst; exact (proj1 gen2_rep)|]. split; [apply ast; exact (proj2 gen2_rep)|].
  split; [exact (conj G2gen_on gen2_order)|]. intros n. split.
  - intros E. apply Z.mod_divide; [discriminate|].
    exact (pt_zmul_prime_order (b:=bq) Fp2_two Fp2_NoTwo r n G2gen G2gen_on r_prime gen2_order E G2gen_finite).
  - intros [k ->]. rewrite (G2_ZMUL k r g2_gen G2gen_on). change (point_zmul r g2_gen) with (point_zmul r G2gen). rewrite gen2_order.
    apply (pt_zmul_inf (b:=bq) Fp2_two Fp2_NoTwo).
Qed.
Theorem g2_torsion_test q P : g2_aff_stands q P -> (g2_is_torsion_free q = true <-> g2_subgroup P).
Proof.
  intros H. apply ast in H. rewrite (torsion_free2_ok q P H).
  pose proof (aff_stands_on_curve _ _ H) as C. split; [intros O; exact (conj C O)|intros [_ O]; exact O].
Qed.
Theorem g2_module : exists (M : gmod Fr) (pt : M -> point Fp2),
  (forall a, g2_subgroup (pt a)) /\ (forall P, g2_subgroup P -> exists a, pt a = P) /\ (forall a c, pt a = pt c -> a = c) /\
  pt g0 = Infinity /\ (forall a c, pt (gadd a c) = point_add (pt a) (pt c)) /\ (forall a, pt (gneg a) = point_neg (pt a)) /\
  (forall x a, pt (smul x a) = point_zmul (val x) (pt a)).
Proof.
  destruct (module_exists (b:=bq) Fp2_two Fp2_NoTwo) as (M & pt & A & B & C & D). exists M, pt.
  split; [exact A|]. split; [intros P [X Y]; exact (B P X Y)|]. split; [exact C|exact D].
Qed.
(** ** the Frobenius map *)
Theorem g2_psi_code q P : g2_stands q P ->
  g2_stands (g2_psi q) (g2_psi_pt P) /\ g2_stands (g2_psi2 q) (g2_psi_pt (g2_psi_pt P)) /\
  g2_stands (g2_clear_cofactor q)
    (point_add (g2_psi_pt (g2_psi_pt (point_add P P)))
      (point_add (point_zmul (bls_x * bls_x - bls_x - 1) P) (point_zmul (bls_x - 1) (g2_psi_pt P)))).
Proof.
  intros H. apply pst in H.
  assert (E : forall R, g2_psi_pt (g2_psi_pt R) = psi (psi R)).
  { intros R. transitivity (psi (g2_psi_pt R)); [apply psi_spec|exact (f_equal psi (psi_spec R))]. }
  rewrite (E (point_add P P)), (E P), (psi_spec P). clear E.
  split; [apply pst; exact (psi_ok q P H)|]. split; [apply pst; exact (psi2_ok q P H)|].
  apply pst. exact (clear_cofactor2_ok q P H).
Qed.
Theorem g2_psi_endomorphism :
  (forall P, g2_on_curve P -> g2_on_curve (g2_psi_pt P)) /\
  (forall P Q, g2_on_curve P -> g2_psi_pt (point_add P Q) = point_add (g2_psi_pt P) (g2_psi_pt Q)) /\
  (forall P, g2_subgroup P -> g2_subgroup (g2_psi_pt P)) /\
  (forall a, g2_psi_pt (point_zmul a g2_gen) = point_zmul (bls_x * a) g2_gen).
Proof.
  split; [intros P C; rewrite psi_spec; exact (psi_on P C)|].
  split; [intros P Q C; rewrite (psi_spec P), (psi_spec Q), (psi_spec (point_add P Q)); symmetry; exact (psi_add P Q C)|].
  split.
  - intros P [C O]. rewrite psi_spec. split; [exact (psi_on P C)|]. rewrite (psi_zmul r P C). rewrite O. reflexivity.
  - intros a. rewrite psi_spec. rewrite <- (psi_zmul a g2_gen G2gen_on).
    change (psi g2_gen) with (psi G2gen). rewrite psi_gen. change g2_gen with G2gen.
    rewrite <- (G2_ZMUL a bls_x G2gen G2gen_on). now rewrite Z.mul_comm.
Qed.
(** the map of Galbraith and Scott: psi^4 - psi^2 + 1 = 0 *)
Theorem g2_psi_relation P : g2_on_curve P ->
  point_add (g2_psi_pt (g2_psi_pt (g2_psi_pt (g2_psi_pt P)))) P = g2_psi_pt (g2_psi_pt P).
Proof.
  intros C. pose proof (phi2_on P C) as C1.
  assert (E0 : forall R, g2_psi_pt (g2_psi_pt R) = point_neg (phi2 R)).
  { intros R. transitivity (psi (g2_psi_pt R)); [apply psi_spec|]. transitivity (psi (psi R)); [exact (f_equal psi (psi_spec R))|apply psi_twice]. }
  rewrite (E0 P), (E0 (point_neg (phi2 P))). clear E0. pose proof (phi2_on _ C1) as C2.
  assert (E : phi2 (point_neg (phi2 P)) = point_neg (phi2 (phi2 P))) by exact (endo_neg (K:=Fp2) w2 (phi2 P)).
  rewrite E, neg_neg_pt. pose proof (endo_sum (b:=bq) Fp2_two Fp2_NoTwo w2 w2_root Fp2_three P C) as S.
  rewrite (C2_ (phi2 P) P C1 C), (A2_ (phi2 (phi2 P)) P (phi2 P) C2 C C1) in S.
  apply (pt_neg_unique (b:=bq) Fp2_two Fp2_NoTwo) in S; [|apply ON2_; assumption|exact C1].
  symmetry. transitivity (point_neg (point_neg (point_add (phi2 (phi2 P)) P))); [exact (f_equal point_neg S)|]. apply neg_neg_pt.
Qed.
(** ** encodings *)
Theorem g2_write q P : g2_aff_stands q P ->
  (is_bytes 96 (g2_to_compressed q) /\ be_val (g2_to_compressed q) = compressed_val2 P) /\
  (is_bytes 192 (g2_to_uncompressed q) /\ be_val (g2_to_uncompressed q) = uncompressed_val2 P).
Proof. intros H. apply ast in H. split; [apply to_compressed2_ok; exact H|apply to_uncompressed2_ok; exact H]. Qed.
Theorem g2_encodings_distinct P Q : g2_on_curve P -> g2_on_curve Q ->
  (compressed_val2 P = compressed_val2 Q -> P = Q) /\ (uncompressed_val2 P = uncompressed_val2 Q -> P = Q).
Proof. intros CP CQ. split; [exact (compressed_inj2 P Q CP CQ)|exact (uncompressed_inj2 P Q)]. Qed.
Theorem g2_read_compressed bs : is_bytes 96 bs ->
  (forall P, g2_subgroup P -> be_val bs = compressed_val2 P ->
     exists q, g2_from_compressed bs = Some q /\ g2_aff_stands q P) /\
  ((forall P, g2_subgroup P -> be_val bs <> compressed_val2 P) -> g2_from_compressed bs = None).
Proof.
  intros B. pose proof (from_compressed2_ok bs B) as U. destruct (g2_from_compressed bs) as [q|].
  - destruct U as (P & S & I & V). split.
    + intros P' I' V'. exists q. split; [reflexivity|]. rewrite <- V in V'.
      apply (compressed_inj2 _ _ (proj1 I) (proj1 I')) in V'. subst P'. apply ast. exact S.
    + intros N. exfalso. exact (N P I (eq_sym V)).
  - split; [|reflexivity]. intros P' I' V'. exfalso. exact (U P' I' (eq_sym V')).
Qed.
Theorem g2_read_uncompressed bs : is_bytes 192 bs ->
  (forall P, g2_subgroup P -> be_val bs = uncompressed_val2 P ->
     exists q, g2_from_uncompressed bs = Some q /\ g2_aff_stands q P) /\
  ((forall P, g2_subgroup P -> be_val bs <> uncompressed_val2 P) -> g2_from_uncompressed bs = None).
Proof.
  intros B. pose proof (from_uncompressed2_ok bs B) as U. destruct (g2_from_uncompressed bs) as [q|].
  - destruct U as (P & S & I & V). split.
    + intros P' I' V'. exists q. split; [reflexivity|]. rewrite <- V in V'.
      apply uncompressed_inj2 in V'. subst P'. apply ast. exact S.
    + intros N. exfalso. exact (N P I (eq_sym V)).
  - split; [|reflexivity]. intros P' I' V'. exfalso. exact (U P' I' (eq_sym V')).
Qed.
Theorem g2_read_compressed_unchecked bs : is_bytes 96 bs ->
  (forall P, g2_on_curve P -> be_val bs = compressed_val2 P ->
     exists q, g2_from_compressed_unchecked bs = Some q /\ g2_aff_stands q P) /\
  ((forall P, g2_on_curve P -> be_val bs <> compressed_val2 P) -> g2_from_compressed_unchecked bs = None).
Proof.
  intros B. pose proof (from_compressed_unchecked2_ok bs B) as U. destruct (g2_from_compressed_unchecked bs) as [q|].
  - destruct U as (P & S & V). pose proof (aff_stands_on_curve _ _ S) as C. split.
    + intros P' C' V'. exists q. split; [reflexivity|]. rewrite <- V in V'.
      apply (compressed_inj2 _ _ C C') in V'. subst P'. apply ast. exact S.
    + intros N. exfalso. exact (N P C (eq_sym V)).
  - split; [|reflexivity]. intros P' C' V'. exfalso. exact (U P' C' (eq_sym V')).
Qed.
(** without the checks any two coordinates below p are accepted *)
Theorem g2_read_uncompressed_unchecked bs : is_bytes 192 bs ->
  (be_val bs = 2 ^ 1534 -> g2_from_uncompressed_unchecked bs = Some aff_identity) /\
  (forall X Y : Fp2, be_val bs = val2 X * 2 ^ 768 + val2 Y ->
     exists x y, g2_from_uncompressed_unchecked bs = Some (@Aff fp2_ops x y false) /\ stands_for2 x X /\ stands_for2 y Y) /\
  (be_val bs <> 2 ^ 1534 -> (forall X Y : Fp2, be_val bs <> val2 X * 2 ^ 768 + val2 Y) -> g2_from_uncompressed_unchecked bs = None).
Proof.
  intros B. pose proof (from_uncompressed_unchecked2_ok bs B) as U. destruct (g2_from_uncompressed_unchecked bs) as [q|].
  - destruct U as [(-> & V) | (x & y & X & Y & -> & RX & RY & V)].
    + split; [reflexivity|]. split; [|intros N; contradiction].
      intros X Y V'. exfalso. rewrite V' in V. exact (uncompressed_not_inf2 X Y V).
    + split; [intros V'; exfalso; rewrite V' in V; exact (uncompressed_not_inf2 X Y (eq_sym V))|].
      split; [|intros _ N; exfalso; exact (N X Y V)].
      intros X' Y' V'. exists x, y. split; [reflexivity|].
      rewrite V in V'. change (uncompressed_val2 (Affine X Y) = uncompressed_val2 (Affine X' Y')) in V'. apply uncompressed_inj2 in V'.
      pose proof (f_equal (fun q => match q with Affine a _ => a | Infinity => X end) V') as E1.
      pose proof (f_equal (fun q => match q with Affine _ a => a | Infinity => Y end) V') as E2. cbv beta iota in E1, E2.
      rewrite <- E1, <- E2. split; apply stands_for2_rep; assumption.
  - destruct U as [U1 U2]. split; [intros V; contradiction|]. split; [intros X Y V; exfalso; exact (U2 X Y V)|reflexivity].
Qed.
(** reading back what was written *)
Theorem g2_round_trip q P : g2_aff_stands q P -> g2_subgroup P ->
  (exists q', g2_from_compressed (g2_to_compressed q) = Some q' /\ g2_aff_stands q' P /\ aff_eq q' q = true) /\
  (exists q', g2_from_uncompressed (g2_to_uncompressed q) = Some q' /\ g2_aff_stands q' P /\ aff_eq q' q = true).
Proof.
  intros H I. destruct (g2_write q P H) as [[B1 V1] [B2 V2]].
  destruct (proj1 (g2_read_compressed _ B1) P I V1) as (q1 & E1 & S1).
  destruct (proj1 (g2_read_uncompressed _ B2) P I V2) as (q2 & E2 & S2).
  split; [exists q1|exists q2]; (split; [assumption|]); (split; [assumption|]); apply ast in H; apply ast in S1; apply ast in S2.
  - apply (aff_eq_ok fp2_ops_ok q1 q P P S1 H). reflexivity.
  - apply (aff_eq_ok fp2_ops_ok q2 q P P S2 H). reflexivity.
Qed.
Theorem g2_projective_encoding q P : g2_stands q P -> g2_subgroup P ->
  is_bytes 96 (g2_proj_to_bytes q) /\ be_val (g2_proj_to_bytes q) = compressed_val2 P /\
  exists q', g2_proj_from_bytes (g2_proj_to_bytes q) = Some q' /\ g2_stands q' P /\ proj_eq q' q = true.
Proof.
  intros H I. apply pst in H. pose proof (aff_from_proj_ok fp2_ops_ok q P H) as A.
  destruct (g2_write _ P (proj2 (ast _ _) A)) as [[B V] _]. split; [exact B|]. split; [exact V|].
  destruct (g2_round_trip _ P (proj2 (ast _ _) A) I) as [(q' & E & S & _) _].
  unfold g2_proj_from_bytes, g2_proj_to_bytes. rewrite E. cbn [bind]. exists (proj_from_aff q'). split; [reflexivity|].
  apply ast in S. apply (Proof_CurveCode.proj_from_aff_ok fp2_ops_ok) in S. split; [apply pst; exact S|].
  apply (proj_eq_ok fp2_ops_ok _ _ P P S H). reflexivity.
Qed.

