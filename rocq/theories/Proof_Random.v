(** * Proof_Random: drawing field elements and points *)
From Coq Require Import ZArith List Bool Lia Znumtheory Field.
From Verif Require Import Base Fld Zr Zp Model_Scalar Spec_Scalar Proof_Scalar Proof_Scalar5 Spec_Fp Spec_Curve Model_Fp Model_Fp2 Model_Fp12 Model_Curve Model_G1 Model_G2
  Proof_FpRep Proof_FpTop Spec_CurveCode Proof_Curve Proof_CurveCode Proof_CurveMul Proof_Endo Proof_Twist Proof_G1Base Proof_GLV Proof_G1Mul
  Proof_Chain Proof_G1Sub Spec_G1 Proof_G1Thm Proof_G1Enc Proof_G1Top
  Proof_Subgroups Proof_Cofactor Model_Random Power Tower Ext Spec_Ext Proof_Fp2 Proof_ExtTop Spec_G2 Proof_G2Base Proof_G2Enc Proof_Chain2 Proof_G2Psi
  Proof_G2Top Proof_PsiLin Proof_Cofactor2 Spec_Cofactor Proof_CofactorTop Spec_Random Proof_RandomGen.
Import ListNotations.
Local Open Scope Z_scope.

(** ** field elements *)
Lemma firstn_bytes n m bs : is_bytes (n + m) bs -> is_bytes n (firstn n bs) /\ is_bytes m (skipn n bs).
Proof.
  intros [L F]. rewrite <- (firstn_skipn n bs) in F. apply Forall_app in F. destruct F as [F1 F2]. split; (split; [|assumption]).
  - rewrite firstn_length. lia.
  - rewrite skipn_length. lia.
Qed.
Lemma be_word_firstn bs i : (i < 6)%nat -> length bs = 96%nat -> be_word (firstn 48 bs) i = be_word bs i.
Proof.
  intros I L. unfold be_word. f_equal. f_equal. rewrite skipn_firstn_comm, firstn_firstn. f_equal. lia.
Qed.
Lemma be_word_skipn bs i : be_word (skipn 48 bs) i = be_word bs (6 + i).
Proof. unfold be_word. rewrite skipn_skipn'. replace (48 + 8 * i)%nat with (8 * (6 + i))%nat by lia. reflexivity. Qed.
Theorem fp_random_value bs : is_bytes 96 bs -> stands_for (fp_random bs) (wide_fp bs).
Proof.
  intros B. destruct (firstn_bytes 48 48 bs B) as [B1 B2]. destruct B as [L _].
  destruct (be_words6 _ B1) as [F1 V1]. destruct (be_words6 _ B2) as [F2 V2].
  rewrite !be_word_firstn in F1, V1 by lia. rewrite !be_word_skipn in F2, V2. cbn [Nat.add] in F2, V2.
  unfold wide_fp. rewrite <- V1, <- V2.
  exact (fp_from_wide _ _ _ _ (proj2 (fwf_limbs6 _ _) (conj F1 eq_refl)) (proj2 (fwf_limbs6 _ _) (conj F2 eq_refl))).
Qed.
Section Draws.
Context {G : rng} (OK : rng_ok G).
Local Notation St := (rng_state G).
Theorem scalar_drawn (s : St) : represents (fst (scalar_random s)) (fr_of (bytes_val (fst (fill_bytes 64 s)))) /\
  snd (scalar_random s) = snd (fill_bytes 64 s).
Proof.
  unfold scalar_random. pose proof (proj1 OK 64%nat s) as B. destruct (fill_bytes 64 s) as [bs t]. cbn [fst snd] in *.
  split; [exact (C42_wide_proof bs B)|reflexivity].
Qed.
Theorem fp_drawn (s : St) : stands_for (fst (fp_draw s)) (fst (drawn_fp s)) /\ snd (fp_draw s) = snd (drawn_fp s).
Proof.
  unfold fp_draw, drawn_fp. pose proof (proj1 OK 96%nat s) as B. destruct (fill_bytes 96 s) as [bs t]. cbn [fst snd] in *.
  split; [exact (fp_random_value bs B)|reflexivity].
Qed.
Theorem fp2_drawn (s : St) : stands_for2 (fst (fp2_draw s)) (fst (drawn_fp2 s)) /\ snd (fp2_draw s) = snd (drawn_fp2 s).
Proof.
  unfold fp2_draw, drawn_fp2.
  destruct (fp_drawn s) as [A E]. destruct (fp_draw s) as [a t], (drawn_fp s) as [x t']. cbn [fst snd] in A, E. subst t'.
  destruct (fp_drawn t) as [A1 E1]. destruct (fp_draw t) as [a1 t1], (drawn_fp t) as [x1 t']. cbn [fst snd] in A1, E1. subst t'.
  split; [exact (conj A A1)|reflexivity].
Qed.
Theorem fp6_drawn (s : St) : stands_for6 (fst (fp6_draw s)) (fst (drawn_fp6 s)) /\ snd (fp6_draw s) = snd (drawn_fp6 s).
Proof.
  unfold fp6_draw, drawn_fp6.
  destruct (fp2_drawn s) as [A E]. destruct (fp2_draw s) as [a t], (drawn_fp2 s) as [x t']. cbn [fst snd] in A, E. subst t'.
  destruct (fp2_drawn t) as [A1 E1]. destruct (fp2_draw t) as [a1 t1], (drawn_fp2 t) as [x1 t']. cbn [fst snd] in A1, E1. subst t'.
  destruct (fp2_drawn t1) as [A2 E2]. destruct (fp2_draw t1) as [a2 t2], (drawn_fp2 t1) as [x2 t']. cbn [fst snd] in A2, E2. subst t'.
  split; [exact (conj A (conj A1 A2))|reflexivity].
Qed.
Theorem fp12_drawn (s : St) : stands_for12 (fst (fp12_draw s)) (fst (drawn_fp12 s)) /\ snd (fp12_draw s) = snd (drawn_fp12 s).
Proof.
  unfold fp12_draw, drawn_fp12.
  destruct (fp6_drawn s) as [A E]. destruct (fp6_draw s) as [a t], (drawn_fp6 s) as [x t']. cbn [fst snd] in A, E. subst t'.
  destruct (fp6_drawn t) as [A1 E1]. destruct (fp6_draw t) as [a1 t1], (drawn_fp6 t) as [x1 t']. cbn [fst snd] in A1, E1. subst t'.
  split; [exact (conj A A1)|reflexivity].
Qed.

End Draws.

(** ** square roots *)
Lemma fp_sqrt_root a (y : Fp) : frep a y ->
  match fp_sqrt a with Some s => frep s (fp_root y) /\ fmul (fp_root y) (fp_root y) = y | None => forall z, fmul z z <> y end.
Proof.
  intros A. destruct (fp_sqrt_spec a y A) as [S1 _]. pose proof (sqrt_some a y) as SS. revert S1 SS. unfold fp_sqrt.
  assert (FU : Forall u64 fp_sqrt_exp) by (repeat constructor; discriminate || reflexivity).
  destruct (fp_pow_vartime_spec y a _ A FU) as [_ R]. rewrite fp_sqrt_exp_val in R.
  assert (NN : 0 <= (p + 1) / 4) by (vm_compute; discriminate). rewrite <- (Fp_zpow y _ NN) in R. fold (fp_root y) in R.
  set (s := fp_pow_vartime a fp_sqrt_exp) in *. destruct (fp_eq (fp_square s) a).
  - intros _ SS. split; [exact R|]. destruct (SS s A eq_refl) as (z & RZ & Z). rewrite (frep_unique _ _ _ R RZ). exact Z.
  - intros S1 _ z Z. destruct (S1 (ex_intro _ z Z)) as (s' & x & E & _). discriminate.
Qed.
Section Zero.
Context {K : fld}.
Add Field Kz : (fld_field K).
Lemma mul_zero2 (u a : K) : fmul u (fmul a f0) = f0. Proof. ring. Qed.
Lemma four_square (c z t : K) : c <> f0 -> fmul z z = fmul (fmul c c) t -> fmul (fdiv z c) (fdiv z c) = t.
Proof. intros N E. transitivity (fdiv (fmul z z) (fmul c c)); [field; exact N|]. rewrite E. field. exact N. Qed.
Lemma cube_zero (b : K) : fadd (fmul (fmul f0 f0) f0) b = b. Proof. ring. Qed.
End Zero.
Lemma fp2_root_zero : fp2_root f0 = f0.
Proof. unfold fp2_root. cbv zeta. destruct (feqb _ _); apply (mul_zero2 (K:=Fp2)). Qed.
Lemma fp2_sqrt_value a y s : rep2 a y -> fp2_sqrt a = Some s -> rep2 s (fp2_root y).
Proof.
  intros R. unfold fp2_sqrt. rewrite (rep2_is_zero _ _ R). destruct (feqb y f0) eqn:Z.
  { apply feqb_spec in Z. subst y. intros E. apply (f_equal (fun o => match o with Some s => s | None => fp2_zero end)) in E.
    cbv beta iota in E. subst s. rewrite fp2_root_zero. exact rep2_zero. }
  destruct fp2_sqrt_exps_u64 as [U1 U2]. cbv zeta.
  set (A1 := fp2_pow_vartime a fp2_sqrt_exp1). unfold fp2_root. cbv zeta. set (e := (p - 3) / 4).
  assert (RA1 : rep2 A1 (zpow y e)). { unfold e. rewrite <- fp2_sqrt_exp1_val. apply rep2_pow; assumption. }
  assert (RX : rep2 (fp2_mul A1 a) (fmul (zpow y e) y)) by (apply rep2_mul; assumption).
  assert (RAl : rep2 (fp2_mul (fp2_square A1) a) (fmul (fmul (zpow y e) (zpow y e)) y)) by (apply rep2_mul; [apply rep2_square|]; assumption).
  set (al := fmul (fmul (zpow y e) (zpow y e)) y) in *.
  rewrite (rep2_eq _ _ _ _ RAl (rep2_neg _ _ rep2_one)).
  set (root := if feqb al (fneg f1) then _ else _).
  assert (RR : rep2 root (if feqb al (fneg f1) then fmul Fp2_u (fmul (zpow y e) y) else fmul (zpow (fadd al f1) ((p - 1) / 2)) (fmul (zpow y e) y))).
  { unfold root. destruct (feqb al (fneg f1)).
    - destruct RX as [R0 R1]. split.
      + refine (frep_to _ _ _ (rot0 (q0 (fmul (zpow y e) y)) (q1 (fmul (zpow y e) y))) _). apply frep_neg. exact R1.
      + refine (frep_to _ _ _ (rot1 (q0 (fmul (zpow y e) y)) (q1 (fmul (zpow y e) y))) _). exact R0.
    - apply rep2_mul; [|exact RX]. rewrite <- fp2_sqrt_exp2_val. apply rep2_pow; [apply rep2_add; [exact RAl|exact rep2_one]|exact U2]. }
  destruct (fp2_eq (fp2_square root) a); [|discriminate]. intros E.
  apply (f_equal (fun o => match o with Some s => s | None => root end)) in E. cbv beta iota in E. rewrite <- E. exact RR.
Qed.
Lemma fp2_sqrt_root a (y : Fp2) : rep2 a y ->
  match fp2_sqrt a with Some s => rep2 s (fp2_root y) /\ fmul (fp2_root y) (fp2_root y) = y | None => forall z, fmul z z <> y end.
Proof.
  intros R. destruct (fp2_sqrt_all a y R) as [[S1 _] S3]. pose proof (fun s => fp2_sqrt_value a y s R) as V.
  destruct (fp2_sqrt a) as [s|].
  - pose proof (V s eq_refl) as RS. split; [exact RS|]. destruct (S3 s eq_refl) as (x & RX & XX).
    rewrite (rep_unique _ _ _ _ fp2_ops_ok _ _ _ RS RX). exact XX.
  - intros z Z. destruct (S1 (ex_intro _ z Z)) as (s & x & E & _). discriminate.
Qed.

(** ** the maps that clear the cofactors *)
Lemma g1_clear_neg P : on_curve b4 P -> g1_clear (point_neg P) = point_neg (g1_clear P).
Proof. exact (pt_zmul_neg_r (b:=b4) Fp_two Fp_NoTwo _ P). Qed.
Lemma g2_clear_neg P : on_curve bq P -> g2_clear (point_neg P) = point_neg (g2_clear P).
Proof.
  intros C. pose proof (NON2_ P C) as CN. rewrite (g2_clear_eq P C), (g2_clear_eq _ CN).
  pose proof (clear2_zmul (-1) P C) as E.
  assert (M : forall Q : point Fp2, on_curve bq Q -> point_zmul (-1) Q = point_neg Q).
  { intros Q CQ. change (-1) with (Z.opp 1). rewrite (G2_ZOPP 1 Q CQ), (G2_ONE Q CQ). reflexivity. }
  rewrite (M P C), (M _ (clear2_on P C)) in E. exact E.
Qed.
Section Points.
Context {G : rng} (OK : rng_ok G).
Local Notation St := (rng_state G).
Lemma draw1 (s : St) : frep (fst (fp_draw s)) (fst (drawn_fp s)) /\ snd (fp_draw s) = snd (drawn_fp s).
Proof. rewrite <- stands_for_frep. exact (fp_drawn OK s). Qed.
Lemma draw2 (s : St) : rep2 (fst (fp2_draw s)) (fst (drawn_fp2 s)) /\ snd (fp2_draw s) = snd (drawn_fp2 s).
Proof. rewrite <- stands_for2_rep. exact (fp2_drawn OK s). Qed.
Lemma clr1 q P : proj_stands (F:=fp_ops) b4 frep q P -> proj_stands (F:=fp_ops) b4 frep (g1_clear_cofactor q) (g1_clear P).
Proof. intros H. exact (proj1 (Proof_G1Top.pst _ _) (proj1 (g1_clearing q P (proj2 (Proof_G1Top.pst q P) H)))). Qed.
Lemma clr2 q P : proj_stands (F:=fp2_ops) bq rep2 q P -> proj_stands (F:=fp2_ops) bq rep2 (g2_clear_cofactor q) (g2_clear P).
Proof. intros H. exact (proj1 (Proof_G2Top.pst _ _) (proj1 (g2_clearing q P (proj2 (Proof_G2Top.pst q P) H)))). Qed.

Theorem g1_random_sound fuel (s : St) q s' : g1_random fuel s = Ok (q, s') ->
  exists n P, (n <= fuel)%nat /\ g1_picked n s P s' /\ g1_stands q P /\ g1_subgroup P /\ P <> Infinity.
Proof.
  intros E. destruct (loop_sound fp_ops_ok fp_root g1_clear drawn_fp fp_draw g1_clear_cofactor fp_sqrt_root clr1 g1_clear_neg draw1
    fuel s q s' E) as (n & P & L & PK & ST).
  exists n, P. split; [exact L|]. split; [exact PK|]. split; [exact (proj2 (Proof_G1Top.pst _ _) ST)|].
  destruct (picked_image fp_root g1_clear drawn_fp _ _ _ _ PK) as [N (P0 & C0 & ->)]. split; [|exact N].
  unfold g1_clear. rewrite one_minus. exact (clear1_image P0 C0).
Qed.
Theorem g2_random_sound fuel (s : St) q s' : g2_random fuel s = Ok (q, s') ->
  exists n P, (n <= fuel)%nat /\ g2_picked n s P s' /\ g2_stands q P /\ g2_subgroup P /\ P <> Infinity.
Proof.
  intros E. destruct (loop_sound fp2_ops_ok fp2_root g2_clear drawn_fp2 fp2_draw g2_clear_cofactor fp2_sqrt_root clr2 g2_clear_neg draw2
    fuel s q s' E) as (n & P & L & PK & ST).
  exists n, P. split; [exact L|]. split; [exact PK|]. split; [exact (proj2 (Proof_G2Top.pst _ _) ST)|].
  destruct (picked_image fp2_root g2_clear drawn_fp2 _ _ _ _ PK) as [N (P0 & C0 & E0)]. split; [|exact N].
  rewrite E0, (g2_clear_eq P0 C0). exact (clear2_image P0 C0).
Qed.
Theorem g1_random_complete n (s : St) P s' fuel : g1_picked n s P s' -> (n <= fuel)%nat ->
  exists q, g1_random fuel s = Ok (q, s') /\ g1_stands q P.
Proof.
  intros PK L. destruct (loop_complete fp_ops_ok fp_root g1_clear drawn_fp fp_draw g1_clear_cofactor fp_sqrt_root clr1 g1_clear_neg draw1
    n s P s' PK fuel L) as (q & E & ST). exists q. split; [exact E|exact (proj2 (Proof_G1Top.pst _ _) ST)].
Qed.
Theorem g2_random_complete n (s : St) P s' fuel : g2_picked n s P s' -> (n <= fuel)%nat ->
  exists q, g2_random fuel s = Ok (q, s') /\ g2_stands q P.
Proof.
  intros PK L. destruct (loop_complete fp2_ops_ok fp2_root g2_clear drawn_fp2 fp2_draw g2_clear_cofactor fp2_sqrt_root clr2 g2_clear_neg draw2
    n s P s' PK fuel L) as (q & E & ST). exists q. split; [exact E|exact (proj2 (Proof_G2Top.pst _ _) ST)].
Qed.
End Points.
Theorem random_total {G : rng} fuel (s : rng_state G) :
  (g1_random fuel s = NoFuel \/ exists q s', g1_random fuel s = Ok (q, s')) /\
  (g2_random fuel s = NoFuel \/ exists q s', g2_random fuel s = Ok (q, s')).
Proof. split; apply loop_total. Qed.

(** ** a generator that replays given bytes and a given word *)
Definition replay (bss : list (list Z)) (w : Z) : rng :=
  {| rng_state := nat; fill_bytes := fun n s => (firstn n (nth s bss [] ++ repeat 0 n), S s); next_u32 := fun s => (w, S s) |}.
Lemma replay_ok bss w : Forall (Forall (fun b => 0 <= b < 256)) bss -> 0 <= w < 2 ^ 32 -> rng_ok (replay bss w).
Proof.
  intros F B. split; [|intros s; exact B]. intros n s. cbn [replay fill_bytes fst]. split.
  - rewrite firstn_length, app_length, repeat_length. lia.
  - apply Forall_forall. intros x I. pose proof (in_or_app _ (skipn n (nth s bss [] ++ repeat 0 n)) x (or_introl I)) as I'.
    rewrite firstn_skipn in I'. clear I. rename I' into I. apply in_app_or in I. destruct I as [I|I].
    + destruct (Nat.lt_ge_cases s (length bss)) as [L|L]; [|rewrite nth_overflow in I by exact L; contradiction].
      rewrite Forall_forall in F. pose proof (F _ (nth_In bss [] L)) as FF. rewrite Forall_forall in FF. apply FF, I.
    + apply repeat_spec in I. subst x. lia.
Qed.
Lemma wide_zeros bs x : is_bytes 48 bs -> be_val bs = pval x -> wide_fp (firstn 96 (bs ++ repeat 0 96)) = x.
Proof.
  intros [L B] E.
  replace (firstn 96 (bs ++ repeat 0 96)) with (bs ++ repeat 0 48).
  - unfold wide_fp. rewrite firstn_app, skipn_app, L, firstn_all2 by lia. rewrite (skipn_all2 bs) by lia.
    cbn [Nat.sub firstn skipn]. rewrite app_nil_r. change ([] ++ repeat 0 48) with (repeat 0 48).
    replace (be_val (repeat 0 48)) with 0 by reflexivity. rewrite E, Z.mul_0_r, Z.add_0_r. apply fp_of_pval.
  - rewrite firstn_app, L, (firstn_all2 bs) by lia. reflexivity.
Qed.
Lemma bytes_of (x : Fp) : exists bs, is_bytes 48 bs /\ be_val bs = pval x.
Proof. destruct (proj1 fp_one_to_one x) as [a A]. exists (fp_to_bytes a). exact (fp_encode a x A). Qed.
Lemma word_of {K : fld} (y r : K) : y = r \/ r = fneg y ->
  exists w, 0 <= w < 2 ^ 32 /\ y = (if Z.odd w then fneg r else r).
Proof.
  intros [->| ->].
  - exists 0. split; [lia|reflexivity].
  - exists 1. split; [lia|]. symmetry. exact (fneg_neg y).
Qed.
Lemma fibre_point {K : fld} n (A : point K -> Prop) : 0 < n -> counted n A -> exists P, A P.
Proof. intros N (f & F & _). exists (f 0). apply F. lia. Qed.
Theorem g1_random_reach P : g1_subgroup P -> P <> Infinity ->
  exists (G : rng) (s s' : rng_state G) q, rng_ok G /\ g1_random 1 s = Ok (q, s') /\ g1_stands q P.
Proof.
  intros S N. destruct (fibre_point g1_cofactor _ eq_refl (g1_fibres P S)) as (P0 & C0 & E0).
  destruct P0 as [|x y]; [contradiction N; rewrite <- E0; exact (pt_zmul_inf (b:=b4) Fp_two Fp_NoTwo _)|].
  destruct (bytes_of x) as (bs & B & V).
  assert (SQ : fmul (fp_root (fmul y y)) (fp_root (fmul y y)) = fmul y y).
  { destruct (proj1 fp_one_to_one (fmul y y)) as [a A]. apply stands_for_frep in A. pose proof (fp_sqrt_root a _ A) as R.
    destruct (fp_sqrt a); [exact (proj2 R)|contradiction (R y eq_refl)]. }
  destruct (word_of y (fp_root (fmul y y)) (same_square x _ _ _ eq_refl SQ)) as (w & W & EW).
  pose proof (replay_ok [bs] w (Forall_cons _ (proj2 B) (Forall_nil _)) W) as OK.
  assert (PK : g1_picked (G:=replay [bs] w) 1 0%nat P 2%nat).
  { rewrite <- E0. apply (picked_now (G:=replay [bs] w) g1_b fp_root g1_clear drawn_fp 0%nat x (Z.odd w) 2%nat y).
    - unfold drawn_abscissa, drawn_fp. cbn [replay fill_bytes next_u32 nth]. rewrite (wide_zeros bs x B V). reflexivity.
    - exact C0.
    - exact EW.
    - rewrite E0. exact N. }
  destruct (g1_random_complete OK 1 _ P _ 1 PK (le_n _)) as (q & E & ST). exists (replay [bs] w), 0%nat, 2%nat, q.
  split; [exact OK|]. split; [exact E|exact ST].
Qed.
Theorem g2_random_reach P : g2_subgroup P -> P <> Infinity ->
  exists (G : rng) (s s' : rng_state G) q, rng_ok G /\ g2_random 1 s = Ok (q, s') /\ g2_stands q P.
Proof.
  intros S N. destruct (fibre_point g2_cofactor _ eq_refl (g2_fibres P S)) as (P0 & C0 & E0).
  destruct P0 as [|x y]; [contradiction N; rewrite <- E0, (g2_clear_eq Infinity C0); exact clear2_inf|].
  destruct (bytes_of (q0 x)) as (bs & B & V). destruct (bytes_of (q1 x)) as (bs1 & B1 & V1).
  assert (SQ : fmul (fp2_root (fmul y y)) (fp2_root (fmul y y)) = fmul y y).
  { destruct (stands_for2_exists (fmul y y)) as [a A]. apply stands_for2_rep in A. pose proof (fp2_sqrt_root a _ A) as R.
    destruct (fp2_sqrt a); [exact (proj2 R)|contradiction (R y eq_refl)]. }
  destruct (word_of y (fp2_root (fmul y y)) (same_square (K:=Fp2) x _ _ _ eq_refl SQ)) as (w & W & EW).
  pose proof (replay_ok [bs; bs1] w (Forall_cons _ (proj2 B) (Forall_cons _ (proj2 B1) (Forall_nil _))) W) as OK.
  assert (PK : g2_picked (G:=replay [bs; bs1] w) 1 0%nat P 3%nat).
  { rewrite <- E0. apply (picked_now (G:=replay [bs; bs1] w) g2_b fp2_root g2_clear drawn_fp2 0%nat x (Z.odd w) 3%nat y).
    - unfold drawn_abscissa, drawn_fp2, drawn_fp. cbn [replay fill_bytes next_u32 nth].
      rewrite (wide_zeros bs _ B V), (wide_zeros bs1 _ B1 V1). destruct x as [x0 x1]. reflexivity.
    - exact C0.
    - exact EW.
    - rewrite E0. exact N. }
  destruct (g2_random_complete OK 1 _ P _ 1 PK (le_n _)) as (q & E & ST). exists (replay [bs; bs1] w), 0%nat, 3%nat, q.
  split; [exact OK|]. split; [exact E|exact ST].
Qed.

(** ** a generator that returns zeros *)
Definition zeros_rng : rng := {| rng_state := unit; fill_bytes := fun n s => (repeat 0 n, s); next_u32 := fun s => (0, s) |}.
Lemma zeros_rng_ok : rng_ok zeros_rng.
Proof.
  split; [|intros s; cbn [zeros_rng next_u32 fst]; lia]. intros n s. cbn [zeros_rng fill_bytes fst]. split; [apply repeat_length|].
  apply Forall_forall. intros x I. apply repeat_spec in I. subst x. lia.
Qed.
Lemma wide_all_zeros : wide_fp (repeat 0 96) = f0.
Proof.
  unfold wide_fp. replace (be_val (firstn 48 (repeat 0 96)) + 2 ^ 384 * be_val (skipn 48 (repeat 0 96))) with 0 by (vm_compute; reflexivity).
  reflexivity.
Qed.
Lemma g1_clear_order3 : g1_clear (apt 0 2) = Infinity.
Proof.
  unfold g1_clear. replace (1 - bls_x) with ((1 - bls_x) / 3 * 3) by (vm_compute; reflexivity).
  rewrite G1_ZMUL by exact on3. rewrite order3. apply (pt_zmul_inf (b:=b4) Fp_two Fp_NoTwo).
Qed.
Lemma g1_zero_abscissa y : fmul y y = fadd (fmul (fmul f0 f0) f0) g1_b -> g1_clear (Affine (f0 : Fp) y) = Infinity.
Proof.
  intros Y. pose proof on3 as C. change (on_curve b4 (apt 0 2)) with (fmul (fp_of 2 : Fp) (fp_of 2) = fadd (fmul (fmul (f0 : Fp) f0) f0) g1_b) in C.
  change (Affine (f0 : Fp) y) with (Affine (fp_of 0 : Fp) y).
  destruct (same_square f0 _ _ _ C Y) as [<-| ->]; [exact g1_clear_order3|].
  change (Affine (fp_of 0 : Fp) (fneg (fp_of 2))) with (point_neg (apt 0 2)). rewrite g1_clear_neg by exact on3. rewrite g1_clear_order3. reflexivity.
Qed.
Lemma g2_b_eq : g2_b = fmul (fmul (fadd f1 f1) (fadd f1 f1)) xi.
Proof.
  transitivity (fmul (fmul (lit2 2 0) (lit2 2 0)) (lit2 1 1)).
  - rewrite <- !lit2_mul. reflexivity.
  - assert (T : lit2 2 0 = fadd f1 f1) by (rewrite <- lit2_1, <- lit2_add; reflexivity). rewrite T. apply f_equal. unfold lit2. rewrite Fp_of_1. reflexivity.
Qed.
Lemma g2_zero_abscissa (y : Fp2) : fmul y y <> fadd (fmul (fmul f0 f0) f0) g2_b.
Proof.
  rewrite (cube_zero (K:=Fp2)), g2_b_eq. intros E. exact (xi_nonsquare _ (four_square (K:=Fp2) _ y xi Fp2_two E)).
Qed.
Theorem zeros_never fuel : g1_random (G:=zeros_rng) fuel tt = NoFuel /\ g2_random (G:=zeros_rng) fuel tt = NoFuel.
Proof.
  split.
  - destruct (proj1 (random_total (G:=zeros_rng) fuel tt)) as [E|(q & s' & E)]; [exact E|exfalso].
    destruct (g1_random_sound zeros_rng_ok _ _ _ _ E) as (n & P & _ & PK & _). clear E q.
    induction PK as [s x flip s' y D YY YR N|s x flip s1 n P s' D SK PK IH]; [|exact IH].
    apply N. unfold drawn_abscissa, drawn_fp in D. cbn [zeros_rng fill_bytes next_u32] in D. rewrite wide_all_zeros in D.
    assert (X : x = f0) by (symmetry; exact (f_equal (fun t => fst (fst t)) D)). subst x. apply g1_zero_abscissa. exact YY.
  - destruct (proj2 (random_total (G:=zeros_rng) fuel tt)) as [E|(q & s' & E)]; [exact E|exfalso].
    destruct (g2_random_sound zeros_rng_ok _ _ _ _ E) as (n & P & _ & PK & _). clear E q.
    induction PK as [s x flip s' y D YY YR N|s x flip s1 n P s' D SK PK IH]; [|exact IH].
    unfold drawn_abscissa, drawn_fp2, drawn_fp in D. cbn [zeros_rng fill_bytes next_u32] in D. rewrite wide_all_zeros in D.
    assert (X : x = (Quad (f0 : Fp) f0 : Fp2)) by (symmetry; exact (f_equal (fun t => fst (fst t)) D)). subst x.
    exact (g2_zero_abscissa y YY).
Qed.

(** ** cases *)
Lemma second_round P : g1_subgroup P -> P <> Infinity ->
  exists (G : rng) (s s' : rng_state G) q, rng_ok G /\ g1_random 1 s = NoFuel /\ g1_random 2 s = Ok (q, s') /\ g1_stands q P.
Proof.
  intros S N. destruct (fibre_point g1_cofactor _ eq_refl (g1_fibres P S)) as (P0 & C0 & E0).
  destruct P0 as [|x y]; [contradiction N; rewrite <- E0; exact (pt_zmul_inf (b:=b4) Fp_two Fp_NoTwo _)|].
  destruct (bytes_of x) as (bs & B & V).
  assert (SQ : fmul (fp_root (fmul y y)) (fp_root (fmul y y)) = fmul y y).
  { destruct (proj1 fp_one_to_one (fmul y y)) as [a A]. apply stands_for_frep in A. pose proof (fp_sqrt_root a _ A) as R.
    destruct (fp_sqrt a); [exact (proj2 R)|contradiction (R y eq_refl)]. }
  destruct (word_of y (fp_root (fmul y y)) (same_square x _ _ _ eq_refl SQ)) as (w & W & EW).
  pose proof (replay_ok [[]; []; bs] w (Forall_cons _ (Forall_nil _) (Forall_cons _ (Forall_nil _) (Forall_cons _ (proj2 B) (Forall_nil _)))) W) as OK.
  assert (D1 : drawn_abscissa (G:=replay [[]; []; bs] w) drawn_fp 0%nat = (f0, Z.odd w, 2%nat)).
  { unfold drawn_abscissa, drawn_fp. cbn [replay fill_bytes next_u32 nth].
    change (firstn 96 ([] ++ repeat 0 96)) with (repeat 0 96). rewrite wide_all_zeros. reflexivity. }
  assert (PK : g1_picked (G:=replay [[]; []; bs] w) 2 0%nat P 4%nat).
  { apply (picked_skip (G:=replay [[]; []; bs] w) g1_b fp_root g1_clear drawn_fp 0%nat f0 (Z.odd w) 2%nat 1 _ 4%nat D1 g1_zero_abscissa).
    rewrite <- E0. apply (picked_now (G:=replay [[]; []; bs] w) g1_b fp_root g1_clear drawn_fp 2%nat x (Z.odd w) 4%nat y).
    - unfold drawn_abscissa, drawn_fp. cbn [replay fill_bytes next_u32 nth]. rewrite (wide_zeros bs x B V). reflexivity.
    - exact C0.
    - exact EW.
    - rewrite E0. exact N. }
  destruct (g1_random_complete OK 2 _ _ _ 2 PK (le_n _)) as (q & E & ST). exists (replay [[]; []; bs] w), 0%nat, 4%nat, q.
  split; [exact OK|]. split; [|split; [exact E|exact ST]].
  destruct (proj1 (random_total (G:=replay [[]; []; bs] w) 1 0%nat)) as [E1|(q' & s' & E1)]; [exact E1|exfalso].
  destruct (g1_random_sound OK _ _ _ _ E1) as (n & P' & L & PK1 & _).
  pose proof (picked_second _ _ _ _ _ _ _ _ _ _ D1 g1_zero_abscissa PK1). lia.
Qed.
Lemma second_round_case : exists (G : rng) (s s' : rng_state G) q, rng_ok G /\ g1_random 1 s = NoFuel /\ g1_random 2 s = Ok (q, s') /\ g1_stands q g1_gen.
Proof. exact (second_round g1_gen (proj1 (proj2 (proj2 g1_generator_ok))) ltac:(discriminate)). Qed.
