(** * Proof_G1Top: the G1 results in terms of the specification *)
From Coq Require Import ZArith List Bool Lia Znumtheory.
From Verif Require Import Base Fld Zr Zp Spec_Scalar Model_Scalar Proof_Scalar Proof_Scalar2 Proof_Scalar5 Spec_Fp Spec_Curve Model_Fp Model_Curve Model_G1
  Proof_FpRep Proof_FpTop Spec_CurveCode Proof_Curve Proof_CurveCode Proof_CurveMul Proof_Endo Proof_G1Base Proof_GLV Proof_Recode
  Proof_G1Mul Proof_Chain Cert_G1 Proof_G1Gen Proof_G1Sub Proof_G1Total Spec_G1 Proof_G1Thm Proof_G1Enc Proof_G1Mod.
Import ListNotations.
Local Open Scope Z_scope.

Section Alg.
Context {K : fld}.
Add Field KF3 : (fld_field K).
Lemma one_not_root (b : K) : fmul (fmul f0 f0) f0 = fadd (fmul (fmul f1 f1) f1) (fmul b (fmul (fmul f0 f0) f0)) -> (f1 : K) = f0.
Proof. intros E. transitivity (fmul (fmul (f0 : K) f0) f0); [rewrite E; ring|ring]. Qed.
End Alg.
(** ** the two ways of writing the representation *)
Lemma proj_stands_rep {F : fops} {K : fld} (b : K) (r1 r2 : F -> K -> Prop) : (forall s x, r1 s x <-> r2 s x) ->
  forall q P, proj_stands b r1 q P <-> proj_stands b r2 q P.
Proof.
  intros E [x y z] P. unfold proj_stands. split; intros (X & Y & Z & A & B & C & D); exists X, Y, Z;
    (split; [apply E; exact A|]); (split; [apply E; exact B|]); (split; [apply E; exact C|exact D]).
Qed.
Lemma aff_stands_rep {F : fops} {K : fld} (b : K) (r1 r2 : F -> K -> Prop) : (forall s x, r1 s x <-> r2 s x) ->
  forall q P, aff_stands b r1 q P <-> aff_stands b r2 q P.
Proof.
  intros E [x y i] P. unfold aff_stands. split; intros (X & Y & A & B & C); exists X, Y;
    (split; [apply E; exact A|]); (split; [apply E; exact B|exact C]).
Qed.
Lemma pst q P : g1_stands q P <-> pstands q P.
Proof. apply (proj_stands_rep b4). exact stands_for_frep. Qed.
Lemma ast q P : g1_aff_stands q P <-> astands q P.
Proof. apply (aff_stands_rep b4). exact stands_for_frep. Qed.
Lemma pst_list l L : Forall2 g1_stands l L -> Forall2 pstands l L.
Proof. induction 1; constructor; [apply pst; assumption|assumption]. Qed.
Lemma ast_list l L : Forall2 astands l L -> Forall2 g1_aff_stands l L.
Proof. induction 1; constructor; [apply ast; assumption|assumption]. Qed.

(** ** the curve is a group *)
Theorem g1_group :
  (forall P Q, g1_on_curve P -> g1_on_curve Q -> g1_on_curve (point_add P Q)) /\
  (forall P, g1_on_curve P -> g1_on_curve (point_neg P)) /\
  (forall P Q R, g1_on_curve P -> g1_on_curve Q -> g1_on_curve R ->
     point_add P (point_add Q R) = point_add (point_add P Q) R) /\
  (forall P Q, g1_on_curve P -> g1_on_curve Q -> point_add P Q = point_add Q P) /\
  (forall P, g1_on_curve P -> point_add Infinity P = P) /\
  (forall P, g1_on_curve P -> point_add P (point_neg P) = Infinity).
Proof.
  split; [exact ON_|]. split; [exact NON_|]. split; [exact A_|]. split; [exact C_|].
  split; [intros P _; apply point_add_0_l|intros P _; apply point_add_neg_r].
Qed.
(** every point of the curve has machine coordinates, and they stand for one point *)
Theorem g1_stands_total :
  (forall P, g1_on_curve P -> (exists q, g1_stands q P) /\ (exists q, g1_aff_stands q P)) /\
  (forall q P, g1_stands q P -> g1_on_curve P) /\ (forall q P, g1_aff_stands q P -> g1_on_curve P) /\
  (forall q P P', g1_stands q P -> g1_stands q P' -> P = P') /\
  (forall q P P', g1_aff_stands q P -> g1_aff_stands q P' -> P = P').
Proof.
  assert (AX : forall P, g1_on_curve P -> exists q, astands q P).
  { intros [|X Y] C; [exists aff_identity; apply (aff_identity_ok fp_ops_ok)|].
    destruct (proj1 fp_one_to_one X) as [x RX], (proj1 fp_one_to_one Y) as [y RY].
    apply stands_for_frep in RX. apply stands_for_frep in RY.
    exists (@Aff fp_ops x y false), X, Y. split; [exact RX|]. split; [exact RY|]. split; [exact C|reflexivity]. }
  split; [|split; [|split; [|split]]].
  - intros P C. destruct (AX P C) as [q A]. split.
    + exists (proj_from_aff q). apply pst. apply (Proof_CurveCode.proj_from_aff_ok fp_ops_ok). exact A.
    + exists q. apply ast. exact A.
  - intros q P A. apply pst in A. exact (proj_stands_on_curve _ _ A).
  - intros q P A. apply ast in A. exact (aff_stands_on_curve _ _ A).
  - intros q P P' A B. apply pst in A. apply pst in B. exact (proj_stands_unique fp_ops_ok q P P' A B).
  - intros q P P' A B. apply ast in A. apply ast in B. exact (aff_stands_unique fp_ops_ok q P P' A B).
Qed.
Theorem g1_point_ops :
  (g1_stands proj_identity Infinity /\ g1_aff_stands aff_identity Infinity) /\
  (forall p q P Q, g1_stands p P -> g1_stands q Q ->
     g1_stands (proj_add p q) (point_add P Q) /\ g1_stands (proj_sub p q) (point_add P (point_neg Q)) /\
     g1_stands (proj_neg p) (point_neg P) /\ g1_stands (proj_double p) (point_add P P) /\
     (proj_eq p q = true <-> P = Q) /\ (proj_is_identity p = true <-> P = Infinity)) /\
  (forall p q P Q, g1_stands p P -> g1_aff_stands q Q ->
     g1_stands (proj_add_mixed p q) (point_add P Q) /\ g1_stands (proj_sub_mixed p q) (point_add P (point_neg Q)) /\
     g1_aff_stands (aff_from_proj p) P /\ g1_stands (proj_from_aff q) Q) /\
  (forall p q P Q, g1_aff_stands p P -> g1_aff_stands q Q ->
     g1_aff_stands (aff_neg p) (point_neg P) /\ (aff_eq p q = true <-> P = Q) /\ (aff_is_identity p = true <-> P = Infinity)).
Proof.
  split; [split; [apply pst, (proj_identity_ok fp_ops_ok)|apply ast, (aff_identity_ok fp_ops_ok)]|].
  split; [|split].
  - intros p q P Q A B. apply pst in A. apply pst in B.
    split; [apply pst, G1_ADD; assumption|]. split; [apply pst, (proj_sub_ok fp_ops_ok Fp_two Fp_NoTwo); assumption|].
    split; [apply pst, (proj_neg_ok fp_ops_ok); assumption|]. split; [apply pst, G1_DBL; assumption|].
    split; [apply (proj_eq_ok fp_ops_ok); assumption|apply (proj_is_identity_ok fp_ops_ok); assumption].
  - intros p q P Q A B. apply pst in A. apply ast in B.
    split; [apply pst, G1_MIX; assumption|]. split; [apply pst, G1_SUBM; assumption|].
    split; [apply ast, (aff_from_proj_ok fp_ops_ok); assumption|apply pst, (Proof_CurveCode.proj_from_aff_ok fp_ops_ok); assumption].
  - intros p q P Q A B. apply ast in A. apply ast in B.
    split; [apply ast, (aff_neg_ok fp_ops_ok); assumption|].
    split; [apply (aff_eq_ok fp_ops_ok); assumption|exact (aff_is_identity_ok p P A)].
Qed.
Theorem g1_sum l L : Forall2 g1_stands l L -> g1_stands (proj_sum l) (fold_right point_add Infinity L).
Proof.
  intros H. apply pst_list in H.
  assert (D : Forall (on_curve b4) L) by (clear -H; induction H; constructor; [eapply proj_stands_on_curve; eassumption|assumption]).
  apply pst. pose proof (proj_sum_ok fp_ops_ok Fp_two Fp_NoTwo l L H) as S.
  assert (OF : on_curve b4 (fold_right point_add Infinity L)) by (clear H S; induction D; cbn [fold_right]; [exact I|apply ON_; assumption]).
  replace (fold_right point_add Infinity L) with (fold_left point_add L Infinity); [exact S|]. clear H S OF l.
  assert (G : forall A, on_curve b4 A -> fold_left point_add L A = point_add A (fold_right point_add Infinity L)).
  { induction D as [|P L CP D IH]; intros A CA; cbn [fold_left fold_right].
    - rewrite C_ by (exact CA || exact I). symmetry. apply point_add_0_l.
    - assert (OF : on_curve b4 (fold_right point_add Infinity L)) by (clear IH; induction D; cbn [fold_right]; [exact I|apply ON_; assumption]).
      rewrite IH by (apply ON_; assumption). symmetry. apply A_; assumption. }
  rewrite G by exact I. apply point_add_0_l.
Qed.
Theorem g1_normalize ps Ps : Forall2 g1_stands ps Ps ->
  (exists out, batch_normalize ps (length ps) = Ok out /\ Forall2 g1_aff_stands out Ps) /\
  (forall n, n <> length ps -> batch_normalize ps n = Panic).
Proof.
  intros H. destruct (batch_normalize_ok fp_ops_ok ps Ps (pst_list _ _ H)) as [(out & E & S) N].
  split; [exists out; split; [exact E|apply ast_list; exact S]|exact N].
Qed.
(** the curve tests accept what they accept *)
Theorem g1_curve_tests :
  (forall x y i (X Y : Fp), stands_for x X -> stands_for y Y ->
     (@aff_is_on_curve fp_ops (@Aff fp_ops x y i) = true <-> i = true \/ g1_on_curve (Affine X Y))) /\
  (forall x y z (X Y Z : Fp), stands_for x X -> stands_for y Y -> stands_for z Z ->
     (@proj_is_on_curve fp_ops (@Proj fp_ops x y z) = true <-> Z = f0 \/ projective g1_b X Y Z)).
Proof.
  split.
  - intros x y i X Y A B. apply stands_for_frep in A. apply stands_for_frep in B. exact (aff_is_on_curve_ok fp_ops_ok x y i X Y A B).
  - intros x y z X Y Z A B C. apply stands_for_frep in A. apply stands_for_frep in B. apply stands_for_frep in C.
    exact (proj_is_on_curve_ok fp_ops_ok x y z X Y Z A B C).
Qed.
Theorem g1_curve_test_refuted : exists q : g1_projective, proj_is_on_curve q = true /\ forall P, ~ g1_stands q P.
Proof.
  exists (@Proj fp_ops fp_one fp_zero fp_zero). split; [vm_compute; reflexivity|].
  intros P H. apply pst in H. destruct H as (X & Y & Z & RX & RY & RZ & [E _] & _).
  pose proof (frep_unique _ _ _ RX frep_one) as ->. pose proof (frep_unique _ _ _ RY frep_zero) as ->.
  pose proof (frep_unique _ _ _ RZ frep_zero) as ->. apply (@f1_neq_0 Fp). exact (one_not_root _ E).
Qed.

(** ** multiplication by scalars *)
Lemma carries_iff k : rounding_carries k <-> glv_carry k = true.
Proof. unfold rounding_carries, glv_carry. fold glv_v. symmetry. apply Z.eqb_eq. Qed.
Lemma no_carry k : ~ rounding_carries k -> glv_carry k = false.
Proof. intros N. destruct (glv_carry k) eqn:E; [|reflexivity]. exfalso. apply N, carries_iff. exact E. Qed.
Lemma scalar_bytes s x : represents s x -> is_bytes 32 (Model_Scalar.to_bytes s) /\ bytes_val (Model_Scalar.to_bytes s) = val x.
Proof. rewrite represents_rep. apply to_bytes_spec. Qed.
Lemma val_small (x : Fr) : val x < 2 ^ 255 /\ val x <= r.
Proof. pose proof (val_range x). assert (r < 2 ^ 255) by reflexivity. lia. Qed.
Theorem g1_scalar_mul checked p a P s (x : Fr) : g1_subgroup P -> represents s x -> ~ rounding_carries (val x) ->
  (g1_stands p P -> exists q, g1_mul checked p s = Ok q /\ g1_stands q (point_zmul (val x) P)) /\
  (g1_aff_stands a P -> exists q, g1_mul_affine checked a s = Ok q /\ g1_stands q (point_zmul (val x) P)).
Proof.
  intros I R N. destruct (scalar_bytes s x R) as [B V]. destruct (val_small x) as [L _]. apply no_carry in N.
  assert (M : forall q, pstands q P -> exists q', g1_multiply checked q (Model_Scalar.to_bytes s) = Ok q' /\ g1_stands q' (point_zmul (val x) P)).
  { intros q H. destruct (multiply_in checked q P _ _ H I B V L N) as (q' & E & S). exists q'. split; [exact E|apply pst; exact S]. }
  split.
  - intros H. apply M, pst. exact H.
  - intros H. apply M, (Proof_CurveCode.proj_from_aff_ok fp_ops_ok), ast. exact H.
Qed.
Theorem g1_scalar_mul_panics p s (x : Fr) : represents s x -> rounding_carries (val x) -> g1_mul true p s = Panic.
Proof.
  intros R N. destruct (scalar_bytes s x R) as [B V]. destruct (val_small x) as [_ L]. apply carries_iff in N.
  exact (g1_multiply_carry p _ _ B V L N).
Qed.
Lemma bad_scalar k : 0 <= k < r -> exists s (x : Fr), represents s x /\ val x = k.
Proof.
  intros K. destruct (proj2 C41_representation_proof (fr_of k)) as (s & R & _). exists s, (fr_of k). split; [exact R|].
  unfold fr_of. rewrite val_to_Fr. apply Z.mod_small. exact K.
Qed.
Theorem g1_scalar_mul_refuted : exists s (x : Fr) q, represents s x /\ g1_subgroup g1_gen /\ g1_stands g1_generator g1_gen /\
  g1_mul false g1_generator s = Ok q /\ ~ g1_stands q (point_zmul (val x) g1_gen).
Proof.
  destruct (bad_scalar bad_k) as (s & x & R & V); [split; vm_compute; congruence|].
  destruct (scalar_bytes s x R) as [B VB]. rewrite V in VB.
  destruct (multiply_bad g1_generator _ (proj1 gen_rep) B VB) as (q & n & E & S & N).
  exists s, x, q. split; [exact R|]. split; [exact (conj G1gen_on gen_order)|]. split; [apply pst; exact (proj1 gen_rep)|].
  split; [exact E|]. intros H. apply pst in H. rewrite V in H. apply N.
  apply gen_zmul_inj. exact (proj_stands_unique fp_ops_ok q _ _ S H).
Qed.
Lemma g1_small_scalars k : 0 <= k < 2 ^ 190 -> ~ rounding_carries k.
Proof.
  intros K E. unfold rounding_carries in E.
  assert (B : 0 <= k * 0x17c6becf1e01faadd63f6e522f6cfee2f < 2 ^ 255 * 2 ^ 64).
  { assert (H : 2 ^ 190 * 0x17c6becf1e01faadd63f6e522f6cfee2f < 2 ^ 255 * 2 ^ 64) by reflexivity. nia. }
  set (n := k * _) in *. set (q := 2 ^ 255) in *.
  assert (D : 0 <= n / q < 2 ^ 64) by (split; [apply Z.div_pos; [lia|reflexivity]|apply Z.div_lt_upper_bound; [reflexivity|lia]]).
  assert (2 ^ 65 = 2 * 2 ^ 64) by reflexivity. rewrite Z.mod_small in E by lia. lia.
Qed.
(** outside the subgroup the product is not the multiple *)
Theorem g1_scalar_mul_outside_refuted : exists p s (x : Fr) P, represents s x /\ g1_on_curve P /\ g1_stands p P /\
  point_zmul (val x) P = Infinity /\ forall checked, exists q, g1_mul checked p s = Ok q /\ ~ g1_stands q Infinity.
Proof.
  destruct (proj1 (proj1 g1_stands_total P3 P3_on)) as [p H].
  destruct (bad_scalar glv_lambda) as (s & x & R & V); [split; vm_compute; congruence|].
  destruct (scalar_bytes s x R) as [B VB]. rewrite V in VB. exists p, s, x, P3.
  split; [exact R|]. split; [exact P3_on|]. split; [exact H|]. rewrite V. apply pst in H.
  split; [exact (proj1 (proj2 (multiply_outside true p _ H B VB)))|].
  intros checked. destruct (multiply_outside checked p _ H B VB) as ((q & E & S) & _ & NI).
  exists q. split; [exact E|]. intros H'. apply pst in H'. apply NI. exact (proj_stands_unique fp_ops_ok q _ _ S H').
Qed.

(** ** the subgroup *)
Theorem g1_generator_ok : g1_stands g1_generator g1_gen /\ g1_aff_stands g1_generator_affine g1_gen /\ g1_subgroup g1_gen /\
  (forall n, point_zmul n g1_gen = Infinity <-> (r | n)).
Proof.
  split; [apply pst; exact (proj1 gen_rep)|]. split; [apply ast; exact (proj2 gen_rep)|].
  split; [exact (conj G1gen_on gen_order)|]. intros n. split.
  - intros E. apply Z.mod_divide; [discriminate|].
    exact (pt_zmul_prime_order (b:=b4) Fp_two Fp_NoTwo r n G1gen G1gen_on r_prime gen_order E G1gen_finite).
  - intros [k ->]. rewrite (G1_ZMUL k r g1_gen G1gen_on). change (point_zmul r g1_gen) with (point_zmul r G1gen). rewrite gen_order.
    apply (pt_zmul_inf (b:=b4) Fp_two Fp_NoTwo).
Qed.
Theorem g1_subgroup_generated P : g1_subgroup P <-> exists a, 0 <= a < r /\ P = point_zmul a g1_gen.
Proof.
  split.
  - intros [C O]. exact (subgroup_is_generated P C O).
  - intros (a & _ & ->). split; [exact (G1_ZON a _ G1gen_on)|].
    rewrite <- (G1_ZMUL r a g1_gen G1gen_on). rewrite Z.mul_comm. rewrite (G1_ZMUL a r g1_gen G1gen_on).
    change (point_zmul r g1_gen) with (point_zmul r G1gen). rewrite gen_order. apply (pt_zmul_inf (b:=b4) Fp_two Fp_NoTwo).
Qed.
Theorem g1_torsion_test checked q P : g1_aff_stands q P ->
  exists t, g1_is_torsion_free checked q = Ok t /\ (t = true <-> g1_subgroup P).
Proof.
  intros H. apply ast in H. destruct (torsion_free_ok checked q P H) as (t & E & T). exists t. split; [exact E|].
  rewrite T. pose proof (aff_stands_on_curve _ _ H) as C. split; [intros O; exact (conj C O)|intros [_ O]; exact O].
Qed.

Theorem g1_module : exists (M : gmod Fr) (pt : M -> point Fp),
  (forall a, g1_subgroup (pt a)) /\ (forall P, g1_subgroup P -> exists a, pt a = P) /\ (forall a c, pt a = pt c -> a = c) /\
  pt g0 = Infinity /\ (forall a c, pt (gadd a c) = point_add (pt a) (pt c)) /\ (forall a, pt (gneg a) = point_neg (pt a)) /\
  (forall x a, pt (smul x a) = point_zmul (val x) (pt a)).
Proof.
  destruct (module_exists (b:=b4) Fp_two Fp_NoTwo) as (M & pt & A & B & C & D). exists M, pt.
  split; [exact A|]. split; [intros P [X Y]; exact (B P X Y)|]. split; [exact C|exact D].
Qed.

(** ** encodings *)
Theorem g1_write q P : g1_aff_stands q P ->
  (is_bytes 48 (g1_to_compressed q) /\ be_val (g1_to_compressed q) = compressed_val P) /\
  (is_bytes 96 (g1_to_uncompressed q) /\ be_val (g1_to_uncompressed q) = uncompressed_val P).
Proof. intros H. apply ast in H. split; [apply to_compressed_ok; exact H|apply to_uncompressed_ok; exact H]. Qed.
Theorem g1_encodings_distinct P Q : g1_on_curve P -> g1_on_curve Q ->
  (compressed_val P = compressed_val Q -> P = Q) /\ (uncompressed_val P = uncompressed_val Q -> P = Q).
Proof. intros CP CQ. split; [exact (compressed_inj P Q CP CQ)|exact (uncompressed_inj P Q)]. Qed.
Theorem g1_read_compressed checked bs : is_bytes 48 bs ->
  (forall P, g1_subgroup P -> be_val bs = compressed_val P ->
     exists q, g1_from_compressed checked bs = Ok (Some q) /\ g1_aff_stands q P) /\
  ((forall P, g1_subgroup P -> be_val bs <> compressed_val P) -> g1_from_compressed checked bs = Ok None).
Proof.
  intros B. pose proof (from_compressed_ok checked bs B) as U. destruct (g1_from_compressed checked bs) as [[q|]| | |]; try contradiction.
  - destruct U as (P & S & I & V). split.
    + intros P' I' V'. exists q. split; [reflexivity|]. rewrite <- V in V'.
      apply (compressed_inj _ _ (proj1 I) (proj1 I')) in V'. subst P'. apply ast. exact S.
    + intros N. exfalso. exact (N P I (eq_sym V)).
  - split; [|reflexivity]. intros P' I' V'. exfalso. exact (U P' I' (eq_sym V')).
Qed.
Theorem g1_read_uncompressed checked bs : is_bytes 96 bs ->
  (forall P, g1_subgroup P -> be_val bs = uncompressed_val P ->
     exists q, g1_from_uncompressed checked bs = Ok (Some q) /\ g1_aff_stands q P) /\
  ((forall P, g1_subgroup P -> be_val bs <> uncompressed_val P) -> g1_from_uncompressed checked bs = Ok None).
Proof.
  intros B. pose proof (from_uncompressed_ok checked bs B) as U. destruct (g1_from_uncompressed checked bs) as [[q|]| | |]; try contradiction.
  - destruct U as (P & S & I & V). split.
    + intros P' I' V'. exists q. split; [reflexivity|]. rewrite <- V in V'.
      apply uncompressed_inj in V'. subst P'. apply ast. exact S.
    + intros N. exfalso. exact (N P I (eq_sym V)).
  - split; [|reflexivity]. intros P' I' V'. exfalso. exact (U P' I' (eq_sym V')).
Qed.
Theorem g1_read_compressed_unchecked bs : is_bytes 48 bs ->
  (forall P, g1_on_curve P -> be_val bs = compressed_val P ->
     exists q, g1_from_compressed_unchecked bs = Some q /\ g1_aff_stands q P) /\
  ((forall P, g1_on_curve P -> be_val bs <> compressed_val P) -> g1_from_compressed_unchecked bs = None).
Proof.
  intros B. pose proof (from_compressed_unchecked_ok bs B) as U. destruct (g1_from_compressed_unchecked bs) as [q|].
  - destruct U as (P & S & V). pose proof (aff_stands_on_curve _ _ S) as C. split.
    + intros P' C' V'. exists q. split; [reflexivity|]. rewrite <- V in V'.
      apply (compressed_inj _ _ C C') in V'. subst P'. apply ast. exact S.
    + intros N. exfalso. exact (N P C (eq_sym V)).
  - split; [|reflexivity]. intros P' C' V'. exfalso. exact (U P' C' (eq_sym V')).
Qed.
(** without the checks any two coordinates below p are accepted *)
Theorem g1_read_uncompressed_unchecked bs : is_bytes 96 bs ->
  (be_val bs = 2 ^ 766 -> g1_from_uncompressed_unchecked bs = Some aff_identity) /\
  (forall X Y : Fp, be_val bs = pval X * 2 ^ 384 + pval Y ->
     exists x y, g1_from_uncompressed_unchecked bs = Some (@Aff fp_ops x y false) /\ stands_for x X /\ stands_for y Y) /\
  (be_val bs <> 2 ^ 766 -> (forall X Y : Fp, be_val bs <> pval X * 2 ^ 384 + pval Y) -> g1_from_uncompressed_unchecked bs = None).
Proof.
  intros B. pose proof (from_uncompressed_unchecked_ok bs B) as U. destruct (g1_from_uncompressed_unchecked bs) as [q|].
  - destruct U as [(-> & V) | (x & y & X & Y & -> & RX & RY & V)].
    + split; [reflexivity|]. split; [|intros N; contradiction].
      intros X Y V'. exfalso. rewrite V' in V. exact (uncompressed_not_inf X Y V).
    + split; [intros V'; exfalso; rewrite V' in V; exact (uncompressed_not_inf X Y (eq_sym V))|].
      split; [|intros _ N; exfalso; exact (N X Y V)].
      intros X' Y' V'. exists x, y. split; [reflexivity|].
      rewrite V in V'. change (uncompressed_val (Affine X Y) = uncompressed_val (Affine X' Y')) in V'. apply uncompressed_inj in V'.
      pose proof (f_equal (fun q => match q with Affine a _ => a | Infinity => X end) V') as E1.
      pose proof (f_equal (fun q => match q with Affine _ a => a | Infinity => Y end) V') as E2. cbv beta iota in E1, E2.
      rewrite <- E1, <- E2. split; apply stands_for_frep; assumption.
  - destruct U as [U1 U2]. split; [intros V; contradiction|]. split; [intros X Y V; exfalso; exact (U2 X Y V)|reflexivity].
Qed.
(** reading back what was written *)
Theorem g1_round_trip checked q P : g1_aff_stands q P -> g1_subgroup P ->
  (exists q', g1_from_compressed checked (g1_to_compressed q) = Ok (Some q') /\ g1_aff_stands q' P /\ aff_eq q' q = true) /\
  (exists q', g1_from_uncompressed checked (g1_to_uncompressed q) = Ok (Some q') /\ g1_aff_stands q' P /\ aff_eq q' q = true).
Proof.
  intros H I. destruct (g1_write q P H) as [[B1 V1] [B2 V2]].
  destruct (proj1 (g1_read_compressed checked _ B1) P I V1) as (q1 & E1 & S1).
  destruct (proj1 (g1_read_uncompressed checked _ B2) P I V2) as (q2 & E2 & S2).
  split; [exists q1|exists q2]; (split; [assumption|]); (split; [assumption|]); apply ast in H; apply ast in S1; apply ast in S2.
  - apply (aff_eq_ok fp_ops_ok q1 q P P S1 H). reflexivity.
  - apply (aff_eq_ok fp_ops_ok q2 q P P S2 H). reflexivity.
Qed.
Theorem g1_projective_encoding checked q P : g1_stands q P -> g1_subgroup P ->
  is_bytes 48 (g1_proj_to_bytes q) /\ be_val (g1_proj_to_bytes q) = compressed_val P /\
  exists q', g1_proj_from_bytes checked (g1_proj_to_bytes q) = Ok (Some q') /\ g1_stands q' P /\ proj_eq q' q = true.
Proof.
  intros H I. apply pst in H. pose proof (aff_from_proj_ok fp_ops_ok q P H) as A.
  destruct (g1_write _ P (proj2 (ast _ _) A)) as [[B V] _]. split; [exact B|]. split; [exact V|].
  destruct (g1_round_trip checked _ P (proj2 (ast _ _) A) I) as [(q' & E & S & _) _].
  unfold g1_proj_from_bytes, g1_proj_to_bytes. rewrite E. cbn [bind]. exists (proj_from_aff q'). split; [reflexivity|].
  apply ast in S. apply (Proof_CurveCode.proj_from_aff_ok fp_ops_ok) in S. split; [apply pst; exact S|].
  apply (proj_eq_ok fp_ops_ok _ _ P P S H). reflexivity.
Qed.

(** ** cases *)
Lemma g1_mul_case : exists s (x : Fr), represents s x /\ val x = 5 /\ ~ rounding_carries (val x) /\ g1_subgroup g1_gen /\ g1_gen <> Infinity.
Proof.
  destruct (bad_scalar 5) as (s & x & R & V); [split; vm_compute; congruence|]. exists s, x. split; [exact R|]. split; [exact V|].
  split; [rewrite V; apply g1_small_scalars; split; [discriminate|reflexivity]|]. split; [exact (conj G1gen_on gen_order)|discriminate].
Qed.
Lemma g1_carry_case : exists s (x : Fr), represents s x /\ rounding_carries (val x).
Proof.
  destruct (bad_scalar bad_k) as (s & x & R & V); [split; vm_compute; congruence|]. exists s, x. split; [exact R|].
  rewrite V. apply carries_iff. exact bad_carry.
Qed.
Lemma g1_outside_case : exists q P, g1_aff_stands q P /\ ~ g1_subgroup P.
Proof.
  destruct (proj2 (proj1 g1_stands_total P3 P3_on)) as [q H]. exists q, P3. split; [exact H|]. intros [_ O].
  assert (E : point_zmul r P3 = P3).
  { replace r with (1 + 3 * ((r - 1) / 3)) by (vm_compute; reflexivity).
    rewrite G1_ZADD, P3_order, G1_ONE by exact P3_on. rewrite C_ by (exact P3_on || exact I). apply point_add_0_l. }
  rewrite E in O. discriminate O.
Qed.
Lemma g1_ops_case : exists p q P, g1_stands p P /\ g1_stands q (point_neg P) /\ P <> Infinity /\
  g1_stands (proj_add p q) Infinity /\ g1_stands (proj_double p) (point_add P P).
Proof.
  pose proof (proj2 (pst _ _) (proj1 gen_rep)) as H. exists g1_generator, (proj_neg g1_generator), G1gen.
  destruct g1_point_ops as (_ & O & _). destruct (O _ _ _ _ H H) as (_ & _ & N & D & _). destruct (O _ _ _ _ H N) as (A & _).
  rewrite point_add_neg_r in A. split; [exact H|]. split; [exact N|]. split; [discriminate|]. split; [exact A|exact D].
Qed.
Lemma g1_sub_case : g1_subgroup g1_gen /\ g1_gen <> Infinity.
Proof. split; [exact (conj G1gen_on gen_order)|discriminate]. Qed.
Lemma g1_encoding_case : (exists q, g1_aff_stands q g1_gen /\ g1_subgroup g1_gen) /\
  g1_to_compressed aff_identity = 192 :: repeat 0 47 /\ g1_to_uncompressed aff_identity = 64 :: repeat 0 95 /\
  option_map aff_is_identity (g1_from_compressed_unchecked (192 :: repeat 0 47)) = Some true /\
  option_map aff_is_identity (g1_from_compressed_unchecked (repeat 255 48)) = None /\
  option_map aff_is_identity (g1_from_uncompressed_unchecked (192 :: repeat 0 95)) = None.
Proof.
  split; [exists g1_generator_affine; split; [apply ast; exact (proj2 gen_rep)|exact (conj G1gen_on gen_order)]|].
  vm_compute. repeat split.
Qed.
