(** * Proof_Concrete: the pairing of the zkcrypto curve is not degenerate, and is an instance of the abstract pairing of the KZG model *)
From Coq Require Import ZArith List Bool Lia Field Znumtheory Eqdep_dec.
From Verif Require Import Base Fld Tables Zr Zp Spec_Fp Model_Scalar Model_Fp Proof_Fp Proof_FpRep Proof_FpTop Proof_G1Base Model_Curve Model_Fp2 Model_Fp12 Model_G1 Model_G2 Model_Pair Model_KZG Spec_Curve Proof_Curve Proof_CurveMul Spec_CurveCode Spec_G1 Spec_G2 Proof_G1Mul Proof_G1Gen Proof_G1Top Proof_G1Mod Proof_G2Base Proof_G2Psi Proof_G2Top Spec_Ext Proof_Fp12 Proof_ExtTop Power Tower Ext Proof_Cyclo Spec_Pair Proof_FinalExp Proof_Gt Proof_PairTop Proof_PairCases Proof_GenValue.
Import ListNotations.
Local Open Scope Z_scope.

Lemma small_multiple q a : 0 <= a < q -> (q | a) -> a = 0.
Proof. intros B D. destruct (Z.eq_dec a 0) as [E|E]; [exact E|]. pose proof (Z.divide_pos_le q a ltac:(lia) D). lia. Qed.

(** ** powers of an element of prime order *)
Section Order.
Context {K : fld}.
Add Field Kco : (fld_field K).
Local Open Scope fld_scope.
Lemma zpow_one (n : Z) : zpow (1 : K) n = 1. Proof. apply zpow_1_l. Qed.
Lemma order_divides (x : K) (q n : Z) : prime q -> x <> 0 -> x <> 1 -> zpow x q = 1 -> zpow x n = 1 <-> (q | n)%Z.
Proof.
  intros PQ N0 N1 Q. split.
  - intros E. destruct (Zdivide_dec q n) as [D|D]; [exact D|]. exfalso. apply N1.
    pose proof (prime_rel_prime q PQ n D) as RP. destruct (rel_prime_bezout _ _ RP) as [u v B].
    transitivity (zpow x (u * q + v * n)); [rewrite B; symmetry; apply zpow_1|].
    rewrite zpow_add, (Z.mul_comm u), (Z.mul_comm v), !zpow_mul, Q, E, !zpow_one by exact N0. ring.
  - intros [k ->]. rewrite Z.mul_comm, zpow_mul, Q by exact N0. apply zpow_one.
Qed.
Lemma same_power (x : K) (q m n : Z) : prime q -> x <> 0 -> x <> 1 -> zpow x q = 1 -> zpow x m = zpow x n <-> (m mod q = n mod q)%Z.
Proof.
  intros PQ N0 N1 Q. pose proof (prime_ge_2 q PQ) as G. assert (D : zpow x m = zpow x n <-> (q | m - n)%Z).
  - rewrite <- (order_divides x q (m - n) PQ N0 N1 Q). unfold Z.sub. rewrite zpow_add, zpow_neg by exact N0.
    pose proof (zpow_nonzero x n N0) as NZ. split; [intros ->; apply finv_r; exact NZ|].
    intros E. transitivity (zpow x n * (zpow x m * finv (zpow x n))); [field; exact NZ|]. rewrite E. ring.
  - rewrite D. split.
    + intros [k E]. replace m with (n + k * q)%Z by lia. apply Z_mod_plus_full.
    + intros E. apply Z.mod_divide; [lia|]. rewrite Zminus_mod, E, Z.sub_diag. reflexivity.
Qed.
End Order.

Definition gen_t : Fp12 := pairing_value g1_gen g2_gen.
Lemma gen1_sub : g1_subgroup g1_gen. Proof. exact (proj1 (proj2 (proj2 g1_generator_ok))). Qed.
Lemma gen_t_member : gt_member gen_t. Proof. exact (pairing_member _ _ (proj1 gen1_sub) (proj1 gen2_sub)). Qed.
Lemma gen_t_nz : gen_t <> f0. Proof. exact (pairing_nonzero _ _ (proj1 gen1_sub) (proj1 gen2_sub)). Qed.
Lemma gen_t_one : gen_t <> f1. Proof. exact generator_pairing. Qed.
Theorem gen_t_powers m n : zpow gen_t m = zpow gen_t n <-> m mod r = n mod r.
Proof. exact (same_power (K:=Fp12) gen_t r m n r_prime gen_t_nz gen_t_one gen_t_member). Qed.
(** the constant of the code is the pairing of the generators, computed by the code *)
Theorem generator_code : stands_for12 gt_generator gen_t /\ pairing_fn g1_generator_affine g2_generator_affine = Ok gt_generator /\
  gt_member gen_t /\ (forall n, zpow gen_t n = f1 <-> (r | n)).
Proof.
  destruct pairing_case as (S1 & S2 & G2 & _ & _).
  split; [apply stands_for12_rep; exact gt_generator_rep|]. split.
  - destruct (pairing_code _ _ _ _ S1 S2 G2) as (v & E & R). rewrite E. apply (f_equal Ok).
    apply stands_for12_rep in R. exact (r12_inj _ _ _ R gt_generator_rep).
  - split; [exact gen_t_member|]. intros n. exact (order_divides (K:=Fp12) gen_t r n r_prime gen_t_nz gen_t_one gen_t_member).
Qed.
Theorem pairing_exponents a c : pairing_value (point_zmul a g1_gen) (point_zmul c g2_gen) = zpow gen_t (a * c).
Proof.
  rewrite (proj1 (pairing_multiples g1_gen (point_zmul c g2_gen) a (proj1 gen1_sub) (sub_zmul _ c gen2_sub))).
  rewrite (proj2 (pairing_multiples g1_gen g2_gen c (proj1 gen1_sub) gen2_sub)).
  rewrite Z.mul_comm. symmetry. apply zpow_mul. exact gen_t_nz.
Qed.
Theorem pairing_compare a c d e :
  pairing_value (point_zmul a g1_gen) (point_zmul c g2_gen) = pairing_value (point_zmul d g1_gen) (point_zmul e g2_gen) <-> (a * c) mod r = (d * e) mod r.
Proof. rewrite !pairing_exponents. apply gen_t_powers. Qed.
Lemma zmul1_inf a : 0 <= a < r -> point_zmul a g1_gen = Infinity <-> a = 0.
Proof.
  intros B. rewrite (proj2 (proj2 (proj2 g1_generator_ok)) a). split; [|intros ->; exists 0; reflexivity].
  exact (small_multiple r a B).
Qed.
Theorem pairing_nondegenerate P Q : g1_subgroup P -> g2_subgroup Q -> pairing_value P Q = f1 <-> P = Infinity \/ Q = Infinity.
Proof.
  intros SP SQ. split.
  - apply g1_subgroup_generated in SP. apply g2_subgroup_cyclic in SQ. destruct SP as (a & A & EP). destruct SQ as (c & C & EQ). rewrite EP, EQ.
    rewrite pairing_exponents. rewrite (proj2 (proj2 (proj2 generator_code)) (a * c)). intros D.
    destruct (prime_mult r r_prime a c D) as [E|E].
    + left. rewrite (small_multiple r a A E). reflexivity.
    + right. rewrite (small_multiple r c C E). reflexivity.
  - intros [E|E]; rewrite E; [exact (proj1 (pairing_identity P Q))|exact (proj2 (pairing_identity P Q))].
Qed.
Lemma zmul2_mod n : point_zmul (n mod r) g2_gen = point_zmul n g2_gen.
Proof. apply (pt_zmul_mod (b:=bq) Fp2_two Fp2_NoTwo); [exact (proj1 gen2_sub)|discriminate|exact (proj2 gen2_sub)]. Qed.
(** the comparison of two pairings is the comparison of two products of exponents *)
Theorem verify_exponents a1 a2 b1 b2 (x1 x2 y1 y2 : Fr) :
  g1_stands a1 (point_zmul (val x1) g1_gen) -> g2_stands a2 (point_zmul (val x2) g2_gen) ->
  g1_stands b1 (point_zmul (val y1) g1_gen) -> g2_stands b2 (point_zmul (val y2) g2_gen) ->
  zk_pairings_verify a1 a2 b1 b2 = Ok (feqb (fmul x1 x2) (fmul y1 y2)).
Proof.
  intros S1 S2 S3 S4. destruct (pairings_verify_code _ _ _ _ _ _ _ _ S1 S2 S3 S4 (sub_zmul _ _ gen2_sub) (sub_zmul _ _ gen2_sub)) as (v & E & V).
  rewrite E. apply (f_equal Ok). rewrite pairing_compare in V. destruct (feqb (fmul x1 x2) (fmul y1 y2)) eqn:F.
  - apply V. apply feqb_spec in F. rewrite <- !val_mul. exact (f_equal val F).
  - destruct v; [|reflexivity]. exfalso. apply feqb_false in F. apply F. apply val_inj. rewrite !val_mul. apply V. reflexivity.
Qed.

(** ** the target group as a module *)
Definition tmemb (x : Fp12) : bool := feqb (zpow x r) f1.
Definition tcar : Type := { x : Fp12 | tmemb x = true }.
Lemma tmemb_ok x : tmemb x = true <-> gt_member x. Proof. apply feqb_spec. Qed.
Lemma t_eq (a c : tcar) : proj1_sig a = proj1_sig c -> a = c.
Proof. destruct a as [x p], c as [y q]. cbn [proj1_sig]. intros ->. f_equal. apply UIP_dec. decide equality. Qed.
Section TAlg.
Context {K : fld}.
Add Field Kta : (fld_field K).
Local Open Scope fld_scope.
Lemma t_assoc (a b c : K) : a * (b * c) = a * b * c. Proof. ring. Qed.
Lemma t_comm (a b : K) : a * b = b * a. Proof. ring. Qed.
Lemma t_one (a : K) : 1 * a = a. Proof. ring. Qed.
Lemma root_nonzero (x : K) n : (0 < n)%Z -> zpow x n = 1 -> x <> 0.
Proof. intros N E Z. rewrite Z, zpow_0_l in E by exact N. exact (@f1_neq_0 K (eq_sym E)). Qed.
End TAlg.
Lemma tnz (a : tcar) : proj1_sig a <> f0.
Proof. apply (root_nonzero (K:=Fp12) _ r); [reflexivity|]. apply tmemb_ok. exact (proj2_sig a). Qed.
Lemma t_mem_1 : tmemb f1 = true. Proof. apply tmemb_ok. exact (zpow_1_l (K:=Fp12) r). Qed.
Lemma t_mem_mul x y : tmemb x = true -> tmemb y = true -> tmemb (fmul x y) = true.
Proof. rewrite !tmemb_ok. exact (root_mul (K:=Fp12) x y r). Qed.
Lemma t_mem_inv x : tmemb x = true -> tmemb (finv x) = true.
Proof. rewrite !tmemb_ok. exact (root_inv (K:=Fp12) x r). Qed.
Lemma t_mem_pow n x : tmemb x = true -> tmemb (zpow x n) = true.
Proof. rewrite !tmemb_ok. exact (member_zpow x n). Qed.
Definition t_zero : tcar := exist _ f1 t_mem_1.
Definition t_add (a c : tcar) : tcar := exist _ _ (t_mem_mul _ _ (proj2_sig a) (proj2_sig c)).
Definition t_neg (a : tcar) : tcar := exist _ _ (t_mem_inv _ (proj2_sig a)).
Definition t_smul (x : Fr) (a : tcar) : tcar := exist _ _ (t_mem_pow (val x) _ (proj2_sig a)).
Definition t_eqb (a c : tcar) : bool := feqb (proj1_sig a) (proj1_sig c).
Lemma tcar_member (a : tcar) : gt_member (proj1_sig a). Proof. apply tmemb_ok. exact (proj2_sig a). Qed.
Lemma t_add_assoc a b c : t_add a (t_add b c) = t_add (t_add a b) c. Proof. apply t_eq. exact (t_assoc (K:=Fp12) _ _ _). Qed.
Lemma t_add_comm a b : t_add a b = t_add b a. Proof. apply t_eq. exact (t_comm (K:=Fp12) _ _). Qed.
Lemma t_add_0_l a : t_add t_zero a = a. Proof. apply t_eq. exact (t_one (K:=Fp12) _). Qed.
Lemma t_add_neg_r a : t_add a (t_neg a) = t_zero. Proof. apply t_eq. exact (finv_r (K:=Fp12) _ (tnz a)). Qed.
Lemma t_smul_1 a : t_smul f1 a = a. Proof. apply t_eq. exact (zpow_1 (K:=Fp12) _). Qed.
Lemma t_smul_smul x y a : t_smul x (t_smul y a) = t_smul (fmul x y) a.
Proof.
  apply t_eq. change (zpow (zpow (proj1_sig a) (val y)) (val x) = zpow (proj1_sig a) (val (fmul x y))).
  rewrite (t_comm (K:=Fr) x y). symmetry. exact (proj2 (gt_exponents (proj1_sig a) y x (tcar_member a))).
Qed.
Lemma t_smul_add_l x y a : t_smul (fadd x y) a = t_add (t_smul x a) (t_smul y a).
Proof. apply t_eq. exact (proj1 (gt_exponents (proj1_sig a) x y (tcar_member a))). Qed.
Lemma t_smul_add_r x a b : t_smul x (t_add a b) = t_add (t_smul x a) (t_smul x b).
Proof. apply t_eq. exact (zpow_mul_base (K:=Fp12) _ _ _). Qed.
Lemma t_eqb_ok a b : t_eqb a b = true <-> a = b.
Proof. unfold t_eqb. rewrite (feqb_spec Fp12). split; [exact (t_eq a b)|]. intros E. exact (f_equal (@proj1_sig _ _) E). Qed.
Definition t_mod : gmod Fr :=
  mkMod Fr tcar t_zero t_add t_neg t_smul t_eqb t_add_assoc t_add_comm t_add_0_l t_add_neg_r t_smul_1 t_smul_smul t_smul_add_l t_smul_add_r t_eqb_ok.

(** ** the instance *)
Definition mod1 : gmod Fr := sub_mod (b:=b4) Fp_two Fp_NoTwo.
Definition mod2 : gmod Fr := sub_mod (b:=bq) Fp2_two Fp2_NoTwo.
Definition pt1 (a : mod1) : point Fp := proj1_sig a.
Definition pt2 (a : mod2) : point Fp2 := proj1_sig a.
Definition val_t (a : t_mod) : Fp12 := proj1_sig a.
Lemma pt1_sub a : g1_subgroup (pt1 a). Proof. exact (proj1 (memb_ok (b:=b4) _) (proj2_sig a)). Qed.
Lemma pt2_sub a : g2_subgroup (pt2 a). Proof. exact (proj1 (memb_ok (b:=bq) _) (proj2_sig a)). Qed.
Definition c_gen1 : mod1 := exist _ g1_gen (proj2 (memb_ok (b:=b4) g1_gen) gen1_sub).
Definition c_gen2 : mod2 := exist _ g2_gen (proj2 (memb_ok (b:=bq) g2_gen) gen2_sub).
Definition c_pe (a : mod1) (c : mod2) : t_mod :=
  exist _ (pairing_value (pt1 a) (pt2 c)) (proj2 (tmemb_ok _) (pairing_member _ _ (proj1 (pt1_sub a)) (proj1 (pt2_sub c)))).
Lemma c_pe_add_l a a' c : c_pe (gadd a a') c = gadd (c_pe a c) (c_pe a' c).
Proof. apply t_eq. exact (proj1 pairing_additive (pt1 a) (pt1 a') (pt2 c) (proj1 (pt1_sub a)) (proj1 (pt1_sub a')) (pt2_sub c)). Qed.
Lemma c_pe_add_r a c c' : c_pe a (gadd c c') = gadd (c_pe a c) (c_pe a c').
Proof. apply t_eq. exact (proj2 pairing_additive (pt1 a) (pt2 c) (pt2 c') (proj1 (pt1_sub a)) (pt2_sub c) (pt2_sub c')). Qed.
Lemma c_pe_smul_l x a c : c_pe (smul x a) c = smul x (c_pe a c).
Proof. apply t_eq. exact (proj1 (pairing_multiples (pt1 a) (pt2 c) (val x) (proj1 (pt1_sub a)) (pt2_sub c))). Qed.
Lemma c_pe_smul_r x a c : c_pe a (smul x c) = smul x (c_pe a c).
Proof. apply t_eq. exact (proj2 (pairing_multiples (pt1 a) (pt2 c) (val x) (proj1 (pt1_sub a)) (pt2_sub c))). Qed.
Lemma pt1_inj (a a' : mod1) : pt1 a = pt1 a' -> a = a'. Proof. exact (sub_eq (b:=b4) a a'). Qed.
Lemma pt2_inj (a a' : mod2) : pt2 a = pt2 a' -> a = a'. Proof. exact (sub_eq (b:=bq) a a'). Qed.
Lemma val_t_inj (a a' : t_mod) : val_t a = val_t a' -> a = a'. Proof. exact (t_eq a a'). Qed.
Lemma c_pe_nondeg a : c_pe a c_gen2 = g0 -> a = g0.
Proof.
  intros E. apply pt1_inj. apply (f_equal val_t) in E.
  destruct (proj1 (pairing_nondegenerate (pt1 a) g2_gen (pt1_sub a) gen2_sub) E) as [Z|Z]; [exact Z|discriminate Z].
Qed.
Lemma c_gen1_nz : c_gen1 <> g0.
Proof. intros E. apply (f_equal pt1) in E. discriminate E. Qed.
Definition bls_pairing : pairing Fr :=
  mkPairing Fr mod1 mod2 t_mod c_gen1 c_gen2 c_pe c_pe_add_l c_pe_add_r c_pe_smul_l c_pe_smul_r c_pe_nondeg c_gen1_nz.
(** what the instance is *)
Theorem instance_spec : exists (P : pairing Fr) (p1 : PG1 P -> point Fp) (p2 : PG2 P -> point Fp2) (pt : PGT P -> Fp12),
  ((forall a, g1_subgroup (p1 a)) /\ (forall X, g1_subgroup X -> exists a, p1 a = X) /\ (forall a c, p1 a = p1 c -> a = c)) /\
  ((forall a, g2_subgroup (p2 a)) /\ (forall X, g2_subgroup X -> exists a, p2 a = X) /\ (forall a c, p2 a = p2 c -> a = c)) /\
  ((forall a, gt_member (pt a)) /\ (forall X, gt_member X -> exists a, pt a = X) /\ (forall a c, pt a = pt c -> a = c)) /\
  (p1 g0 = Infinity /\ (forall a c, p1 (gadd a c) = point_add (p1 a) (p1 c)) /\ (forall x a, p1 (smul x a) = point_zmul (val x) (p1 a))) /\
  (p2 g0 = Infinity /\ (forall a c, p2 (gadd a c) = point_add (p2 a) (p2 c)) /\ (forall x a, p2 (smul x a) = point_zmul (val x) (p2 a))) /\
  (pt g0 = f1 /\ (forall a c, pt (gadd a c) = fmul (pt a) (pt c)) /\ (forall x a, pt (smul x a) = zpow (pt a) (val x))) /\
  p1 gen1 = g1_gen /\ p2 gen2 = g2_gen /\ (forall a c, pt (pe a c) = pairing_value (p1 a) (p2 c)).
Proof.
  exists bls_pairing, pt1, pt2, val_t.
  split; [split; [exact pt1_sub|split; [|exact pt1_inj]]; intros X SX; exists (exist _ X (proj2 (memb_ok (b:=b4) X) SX)); reflexivity|].
  split; [split; [exact pt2_sub|split; [|exact pt2_inj]]; intros X SX; exists (exist _ X (proj2 (memb_ok (b:=bq) X) SX)); reflexivity|].
  split; [split; [exact tcar_member|split; [|exact val_t_inj]]; intros X SX; exists (exist _ X (proj2 (tmemb_ok X) SX)); reflexivity|].
  split; [split; [reflexivity|split; reflexivity]|]. split; [split; [reflexivity|split; reflexivity]|]. split; [split; [reflexivity|split; reflexivity]|].
  split; [reflexivity|]. split; reflexivity.
Qed.
