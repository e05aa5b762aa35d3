(** * Proof_AgreeKZG: commitments and proofs of the four backends written in Rust agree *)
From Coq Require Import List Arith Lia Bool ZArith NArith Field.
From Verif Require Import Base Fld Poly Loops Proof_Utils Model_Utils Model_FFT Spec Proof_FFT Zr ZrTables Proof_FFTFr Model_Poly Proof_Poly2 Proof_PolyFr.
From Verif Require Import Model_KZG Spec_KZG Proof_KZG Proof_KZGFr Model_FK20 Proof_FK20 Proof_FK20Fr.
From Verif Require Import Model_Zk Model_ZkKZG Spec_ZkKZG Proof_ZkKZG Model_ZkFK20 Proof_ZkFK20 Model_Ark Spec_Ark Model_ArkKZG Spec_ArkKZG Proof_ArkKZG Model_ArkFK20 Proof_ArkFK20.
From Verif Require Import Model_Mcl Spec_Mcl Model_MclKZG Spec_MclKZG Proof_MclKZGFr Spec_Agree Proof_Agree.
Import ListNotations.

Section Scaled.
Context {K : fld}.
Add Field KfAk : (fld_field K).
Lemma peval_scaled (p : list K) (c x : K) : (peval (map (fun j => coef p j * c ^ j) (seq 0 (length p))) x = peval p (c * x))%F.
Proof. rewrite peval_map_seq, peval_sum. apply sum_ext. intros i _. rewrite fpow_mul_base. ring. Qed.
Lemma unscale (x z : K) : x <> f0 -> (finv x * (x * z) = z)%F.
Proof. intros H. field. exact H. Qed.
End Scaled.

Section Kzg.
Context {P : pairing Fr}.
Implicit Types (p q : list Fr) (g : PG1 P).

Lemma opening_exists p x c s : 0 < c -> exists g : PG1 P, opening p x c s g.
Proof.
  intros Hc. destruct (proj1 (C17_proof p (binomial c (fpow x c)))) as (q & _ & Q & _); [apply binomial_ne|now apply binomial_lead|].
  exists (smul (peval q s) gen1). exists q. split; [exact Q|reflexivity].
Qed.
Lemma opening_fun p x c s g g' : 0 < c -> opening p x c s g -> opening p x c s g' -> g = g'.
Proof.
  intros Hc (q & Q & ->) (q' & Q' & ->).
  rewrite (euclid_fun p (binomial c (fpow x c)) q q'); auto; [apply binomial_ne|now apply binomial_lead].
Qed.
Lemma opening_trim p p' x c s g : 0 < c -> trimmed p p' -> opening p' x c s g -> opening p x c s g.
Proof.
  intros Hc T (q & Q & ->). destruct (opening_exists p x c s Hc) as (g & q' & Q' & E). exists q'. split; [exact Q'|].
  rewrite (trimmed_quotient p p' q' q c (fpow x c) s Hc T Q' Q). reflexivity.
Qed.
Lemma opening_zero p x c s : 0 < c -> (forall i, coef p i = f0) -> opening p x c s (g0 : PG1 P).
Proof.
  intros Hc Z. destruct (opening_exists p x c s Hc) as (g & q & Q & E). exists q. split; [exact Q|].
  rewrite (zero_quotient p c (fpow x c) q s Hc Z Q), smul_0_l. reflexivity.
Qed.
Lemma openings_fun p c s n (f : nat -> Fr) (a b : list (PG1 P)) : 0 < c -> length a = n -> length b = n ->
  (forall i, i < n -> exists g, nth_error a i = Some g /\ opening p (f i) c s g) ->
  (forall i, i < n -> exists g, nth_error b i = Some g /\ opening p (f i) c s g) -> a = b.
Proof.
  intros Hc La Lb Ha Hb. apply nth_error_ext. intros i. destruct (lt_dec i n) as [H|H].
  - destruct (Ha i H) as (g & -> & G), (Hb i H) as (g' & -> & G'). now rewrite (opening_fun _ _ _ _ _ _ Hc G G').
  - rewrite (proj2 (nth_error_None a i)), (proj2 (nth_error_None b i)) by lia. reflexivity.
Qed.
Lemma zero_or p : nonzero p \/ forall i, coef p i = f0.
Proof.
  assert (H : forall n, (exists i, i < n /\ coef p i <> f0) \/ forall i, i < n -> coef p i = f0).
  { induction n as [|n [(i & A & B)|IH]]; [right; lia|left; exists i; split; auto|].
    destruct (feqb (coef p n) f0) eqn:E.
    - right. intros i Hi. apply feqb_spec in E. destruct (Nat.eq_dec i n); [congruence|]. apply IH. lia.
    - left. exists n. split; [lia|]. now apply feqb_false. }
  destruct (H (length p)) as [(i & _ & A)|A]; [left; exists i; exact A|right].
  intros i. destruct (lt_dec i (length p)); [auto|]. apply coef_over. lia.
Qed.

Variable L : ark_lib P.
Hypothesis HW : lib_root (lib_W L).
Lemma powers_le u : u <= ark_powers u <= u + 1.
Proof. unfold ark_powers. destruct (Nat.eqb_spec u 2); lia. Qed.

Lemma agree_commit k w N s kb kz ka km p : setups L k w N s kb kz ka km -> length p <= N -> (N.of_nat (length p) < 2 ^ 64)%N ->
  all_give (smul (peval p s) gen1) [commit_to_poly kb p; zk_commit_to_poly kz p; ark_commit_to_poly ka p; mcl_commit km p].
Proof.
  intros ((nb & lb & B & Hb) & (nz & Z & Hz) & (u & A & Ha) & (nm & lm & M & Hm)) Hp H64. pose proof (powers_le u). apply all4.
  - apply (C28_proof kb k nb lb s p B). lia.
  - apply (C71_commit_proof kz k nz s p Z H64). lia.
  - apply (C79_commit_proof L HW ka k u s p A); [lia|]. intros i Hi. apply coef_over. lia.
  - apply (C63_commit_proof km k w nm lm s p M). lia.
Qed.
Lemma agree_multi k w N s kb kz ka km p x m : setups L k w N s kb kz ka km -> nonzero p -> length p <= N -> (N.of_nat (2 * length p) <= 2 ^ 30)%N ->
  exists g, opening p x (2 ^ m) s g /\
    all_give g [compute_proof_multi blst_table kb p x (2 ^ m); zk_compute_proof_multi zk_table kz p x (2 ^ m);
                ark_compute_proof_multi L ka p x (2 ^ m); mcl_compute_proof_multi mcl_pr5_table km p x (2 ^ m)].
Proof.
  intros ((nb & lb & B & Hb) & (nz & Z & Hz) & (u & A & Ha) & (nm & lm & M & Hm)) NZ Hp HF. pose proof (powers_le u).
  assert (F : fits (2 * length p)) by (unfold fits; lia). assert (C0 : 0 < 2 ^ m) by (apply Nat.neq_0_lt_0, Nat.pow_nonzero; discriminate).
  destruct (trimmed_exists p NZ) as (p' & T). pose proof (trimmed_le _ _ T) as Lp'.
  set (c := 2 ^ m) in *.
  destruct (C35_compute_proof kb k nb lb s p x c B F) as (_ & Q1 & _). destruct (Q1 m eq_refl ltac:(lia)) as (q & Eq & R1).
  exists (smul (peval q s) gen1). assert (G : opening p x c s (smul (peval q s) gen1 : PG1 P)) by (exists q; split; [exact Eq|reflexivity]). split; [exact G|].
  assert (U : forall q', opening p x c s (smul (peval q' s) gen1 : PG1 P) -> Ok (smul (peval q' s) (gen1 : PG1 P)) = Ok (smul (peval q s) gen1)).
  { intros q' G'. f_equal. exact (opening_fun _ _ _ _ _ _ C0 G' G). }
  apply all4; [exact R1| | |].
  - destruct (C71_compute_proof kz k nz s p x c Z F) as (_ & _ & Q2 & _). destruct (Q2 m p' eq_refl T ltac:(lia)) as (q' & Eq' & ->).
    apply U. apply (opening_trim p p' x c s _ C0 T). exists q'. split; [exact Eq'|reflexivity].
  - destruct (proj1 (C80_compute_proof L HW ka k u s p p' x c A F C0 T)) as (q' & Eq' & ->); [lia|right; right; lia|].
    apply U. apply (opening_trim p p' x c s _ C0 T). exists q'. split; [exact Eq'|reflexivity].
  - destruct (C63_multi_compute_proof km k w nm lm s p x c M HF) as (_ & _ & Q4 & _). destruct (Q4 m eq_refl ltac:(lia)) as (q' & Eq' & ->).
    apply U. exists q'. split; [exact Eq'|reflexivity].
Qed.
Lemma opening_1 p x s q : euclid p [fneg x; f1] q -> opening p x 1 s (smul (peval q s) gen1 : PG1 P).
Proof. intros E. exists q. split; [|reflexivity]. rewrite fpow_1. exact E. Qed.
Lemma agree_single k w N s kb kz ka km p x : setups L k w N s kb kz ka km -> nonzero p -> length p <= N -> (N.of_nat (2 * length p) <= 2 ^ 30)%N ->
  exists g, opening p x 1 s g /\
    all_give g [compute_proof_single blst_table kb p x; zk_compute_proof_single zk_table kz p x; ark_compute_proof_single ka p x; mcl_compute_proof_single km p x].
Proof.
  intros S NZ Hp HF. destruct (agree_multi k w N s kb kz ka km p x 0 S NZ Hp HF) as (g & G & R). exists g. split; [exact G|].
  destruct S as ((nb & lb & B & Hb) & (nz & Z & Hz) & (u & A & Ha) & (nm & lm & M & Hm)). pose proof (powers_le u).
  unfold all_give in R. rewrite !Forall_cons_iff in R. destruct R as (R1 & R2 & _). change (2 ^ 0) with 1 in R1, R2, G.
  pose proof (nonzero_nil p NZ) as Np. assert (L1 : 0 < length p) by (destruct p; [congruence|cbn; lia]).
  assert (U0 : 0 < u) by (destruct u; [change (N <= 0) in Ha|]; lia).
  destruct (trimmed_exists p NZ) as (p' & T). pose proof (trimmed_le _ _ T) as Lp'.
  apply all4; [exact R1|exact R2| |].
  - destruct (C79_compute_proof L HW ka k u s p x A) as (_ & _ & Q & _). destruct (Q p' U0 T ltac:(lia)) as (q' & Eq' & ->).
    f_equal. apply (opening_fun p x 1 s); [lia| |exact G]. apply (opening_trim p p'); [lia|exact T|]. now apply opening_1.
  - destruct (C63_truncated_proof km k w nm lm s p x M) as (q' & Eq' & Lq & ->). rewrite firstn_all2 by lia.
    f_equal. apply (opening_fun p x 1 s); [lia| |exact G]. now apply opening_1.
Qed.
Lemma agree_single_check k w N s kb kz ka km fexp com proof x y : setups L k w N s kb kz ka km -> fexp <> f0 -> 2 <= N ->
  exists b, all_give b [check_proof_single kb com proof x y; zk_check_proof_single kz com proof x y; ark_check_proof_single ka com proof x y;
                        mcl_check_proof_single fexp km com proof x y] /\
    (b = true <-> gsub com (smul y gen1) = smul (fsub s x) proof).
Proof.
  intros ((nb & lb & B & Hb) & (nz & Z & Hz) & (u & A & Ha) & (nm & lm & M & Hm)) Hf HN. pose proof (powers_le u).
  destruct (C32_proof kb k nb lb s com proof x y B ltac:(lia)) as (b & E & HE). exists b. split; [|exact HE].
  assert (U : forall b', (b' = true <-> gsub com (smul y gen1) = smul (fsub s x) proof) -> b' = b).
  { intros b' H'. apply eq_true_iff_eq. now rewrite H', HE. }
  destruct (proj1 (C71_single_check_proof kz k nz s com proof x y Z) ltac:(lia)) as (b1 & E1 & H1).
  destruct (proj1 (C79_check_proof L HW ka k u s com proof x y A) ltac:(lia)) as (b2 & E2 & H2).
  destruct (proj1 (C63_single_check_proof km k w nm lm s fexp com proof x y M Hf) ltac:(lia)) as (b3 & E3 & H3).
  apply U in H1, H2, H3. subst. apply all4; assumption.
Qed.
Lemma interpolant k m x (ys : list Fr) : k < 32 -> m <= k -> length ys = 2 ^ m -> x <> f0 ->
  exists I, length I = 2 ^ m /\ forall i, i < 2 ^ m -> peval I (fmul x (fpow (root m) i)) = nth i ys f0.
Proof.
  intros K32 Hm Ly Hx. destruct (new_ok k K32) as (s & E & _). destruct (new_inv _ _ E) as (_ & S).
  destruct (ifft_fr_interpolates s k (root k) m ys S Hm Ly) as (q & _ & Lq & Hq). rewrite root_pow in Hq by auto.
  exists (map (fun j => fmul (coef q j) (fpow (finv x) j)) (seq 0 (length q))). split; [now rewrite map_length, seq_length|].
  intros i Hi. rewrite peval_scaled, unscale by exact Hx. now apply Hq.
Qed.
Lemma agree_multi_check k w N s kb kz ka km fexp m com proof x (ys : list Fr) : setups L k w N s kb kz ka km -> fexp <> f0 -> m <= k ->
  length ys = 2 ^ m -> 2 ^ m < N -> x <> f0 ->
  exists b, all_give b [check_proof_multi kb com proof x ys (2 ^ m); zk_check_proof_multi kz com proof x ys (2 ^ m);
                        ark_check_proof_multi L ka com proof x ys (2 ^ m)] /\
    (w = root k /\ m < 31 -> mcl_check_proof_multi fexp km com proof x ys (2 ^ m) = Ok b) /\
    forall I, length I <= 2 ^ m -> (forall i, i < 2 ^ m -> peval I (fmul x (fpow (root m) i)) = nth i ys f0) ->
      (b = true <-> gsub com (smul (peval I s) gen1) = smul (fsub (fpow s (2 ^ m)) (fpow x (2 ^ m))) proof).
Proof.
  intros ((nb & lb & B & Hb) & (nz & Z & Hz) & (u & A & Ha) & (nm & lm & M & Hm)) Hf Mk Ly HN Hx. pose proof (powers_le u).
  assert (K32 : k < 32) by (destruct B as (? & ? & ? & ? & B & _); exact (proj1 (new_inv _ _ B))).
  destruct (interpolant k m x ys K32 Mk Ly Hx) as (I & LI & HI).
  destruct (C34_proof kb k nb lb s m com proof x ys I B Mk Ly ltac:(lia) (or_introl Hx) ltac:(lia) HI) as (b & E & HE).
  destruct (C71_multi_accept_proof kz k nz s m com proof x ys I Z Mk Ly ltac:(lia) Hx ltac:(lia) HI) as (b1 & E1 & H1).
  destruct (C80_accept_proof L HW ka k u s m com proof x ys I A Mk Ly ltac:(lia) Hx ltac:(lia) HI) as (b2 & E2 & H2).
  assert (b1 = b) by (apply eq_true_iff_eq; rewrite H1, HE; reflexivity).
  assert (b2 = b) by (apply eq_true_iff_eq; rewrite H2, HE; reflexivity).
  subst. exists b. split; [apply all3; assumption|]. split.
  { intros (-> & M31). destruct (C63_multi_accept_proof km k (root k) nm lm s fexp m com proof x ys I M Hf Mk M31 Ly ltac:(lia) (or_introl Hx) ltac:(lia)) as (b3 & E3 & H3).
    { rewrite root_pow by auto. exact HI. }
    rewrite E3. f_equal. apply eq_true_iff_eq. rewrite H3, HE. reflexivity. }
  intros J LJ HJ.
  destruct (C34_proof kb k nb lb s m com proof x ys J B Mk Ly ltac:(lia) (or_introl Hx) LJ HJ) as (b' & E' & H').
  rewrite E in E'. apply ok_inj in E'. subst b'. exact H'.
Qed.

(** ** all openings at once *)
Lemma agree_fk20_single k w N s kb kz ka km m p : setups L k w N s kb kz ka km -> S m <= k -> length p = 2 ^ m -> 2 ^ m <= N ->
  exists fb fz fa out rev,
    fk20_single_new blst_table kb (2 ^ S m) = Ok fb /\ zk_fk20_single_new kz (2 ^ S m) = Ok fz /\
    ark_fk20_single_new (lib_W L) ka (2 ^ S m) = Ok fa /\
    all_give out [fk20_single_da_opt fb p; zk_fk20_single_da_opt fz p; ark_fk20_single_da_opt (lib_W L) fa p] /\
    all_give rev [fk20_single_da fb p; zk_fk20_single_da fz p; ark_fk20_single_da (lib_W L) fa p] /\
    (w = root k /\ S m < 31 -> exists fm, mcl_fk20_single_new km (2 ^ S m) = Ok fm /\ mcl_fk20_single_da_opt fm p = Ok out /\ mcl_fk20_single_da fm p = Ok rev) /\
    length out = 2 ^ S m /\ forall i, i < 2 ^ S m -> exists g, nth_error out i = Some g /\ opening p (fpow (root (S m)) i) 1 s g.
Proof.
  intros ((nb & lb & B & Hb) & (nz & Z & Hz) & (u & A & Ha) & (nm & lm & M & Hm)) Mk Lp HN. pose proof (powers_le u).
  assert (K32 : k < 32) by (destruct B as (? & ? & ? & ? & B & _); exact (proj1 (new_inv _ _ B))).
  assert (F : fits (2 * length p)). { unfold fits. rewrite Lp, <- Nat.pow_succ_r', Nat2N.inj_pow. apply N.pow_le_mono_r; [discriminate|lia]. }
  destruct (C36_proof kb k nb lb s m p B Mk Lp) as (fb & out & NB & OB & LB & HB & rb & RB & LRB & HRB).
  destruct (C72_single_proof kz k nz s m p Z Mk ltac:(lia) Lp) as (fz & oz & NZ & OZ & LZ & HZ & HZ0 & rz & RZ & LRZ & HRZ).
  destruct (C81_single_proof L HW ka k u s m p A Mk ltac:(lia) Lp) as (fa & oa & NA & OA & LA & HA & _ & ra & RA & LRA & HRA).
  assert (XB : forall i, i < 2 ^ S m -> exists g, nth_error out i = Some g /\ opening p (fpow (root (S m)) i) 1 s g).
  { intros i Hi. destruct (HB i Hi) as (g & Eg & Ng). exists g. split; [exact Ng|].
    destruct (C35_compute_proof kb k nb lb s p (fpow (root (S m)) i) 1 B F) as (_ & Q & _). destruct (Q 0 eq_refl ltac:(lia)) as (q & Eq & Rq).
    exists q. split; [exact Eq|]. apply ok_inj. rewrite <- Eg. exact Rq. }
  assert (XZ : forall i, i < 2 ^ S m -> exists g, nth_error oz i = Some g /\ opening p (fpow (root (S m)) i) 1 s g).
  { intros i Hi. destruct (zero_or p) as [V|V].
    - destruct (HZ V i Hi) as (g & Eg & Ng). exists g. split; [exact Ng|]. destruct (trimmed_exists p V) as (p' & T). pose proof (trimmed_le _ _ T) as Lp'.
      apply (opening_trim p p'); [lia|exact T|].
      destruct (C71_compute_proof kz k nz s p (fpow (root (S m)) i) 1 Z F) as (_ & _ & Q & _). destruct (Q 0 p' eq_refl T ltac:(lia)) as (q & Eq & Rq).
      exists q. split; [exact Eq|]. apply ok_inj. rewrite <- Eg. exact Rq.
    - exists g0. split; [rewrite (HZ0 V); apply nth_error_repeat; exact Hi|]. apply opening_zero; [lia|exact V]. }
  assert (XA : forall i, i < 2 ^ S m -> exists g, nth_error oa i = Some g /\ opening p (fpow (root (S m)) i) 1 s g).
  { intros i Hi. destruct (HA i Hi) as (q & Eq & Nq). exists (smul (peval q s) gen1). split; [exact Nq|]. now apply opening_1. }
  pose proof (openings_fun p 1 s (2 ^ S m) (fpow (root (S m))) oz out Nat.lt_0_1 LZ LB XZ XB).
  pose proof (openings_fun p 1 s (2 ^ S m) (fpow (root (S m))) oa out Nat.lt_0_1 LA LB XA XB).
  subst oz oa.
  assert (V : forall r, length r = 2 ^ S m -> (forall i, i < 2 ^ S m -> nth_error r i = nth_error out (bitrev (S m) i)) -> r = rb).
  { intros r Lr Hr. apply nth_error_ext. intros i. destruct (lt_dec i (2 ^ S m)); [now rewrite Hr, HRB|].
    rewrite (proj2 (nth_error_None r i)), (proj2 (nth_error_None rb i)) by lia. reflexivity. }
  rewrite (V rz) in RZ by assumption. rewrite (V ra) in RA by assumption.
  exists fb, fz, fa, out, rb. split; [exact NB|]. split; [exact NZ|]. split; [exact NA|].
  split; [apply all3; assumption|]. split; [apply all3; assumption|]. split; [|split; [exact LB|exact XB]].
  intros (-> & M31).
  destruct (C64_single_proof km k (root k) nm lm s m p M Mk M31 Lp) as (fm & om & NM & OM & LM & HM & rm & RM & LRM & HRM). rewrite root_pow in HM by auto.
  assert (XM : forall i, i < 2 ^ S m -> exists g, nth_error om i = Some g /\ opening p (fpow (root (S m)) i) 1 s g).
  { intros i Hi. destruct (HM i Hi) as (g & Eg & Ng). exists g. split; [exact Ng|].
    destruct (C63_truncated_proof km k (root k) nm lm s p (fpow (root (S m)) i) M) as (q & Eq & Lq & Rq). rewrite firstn_all2 in Rq by lia.
    rewrite Eg in Rq. apply ok_inj in Rq. subst g. now apply opening_1. }
  pose proof (openings_fun p 1 s (2 ^ S m) (fpow (root (S m))) om out Nat.lt_0_1 LM LB XM XB). subst om.
  rewrite (V rm) in RM by assumption. exists fm. split; [exact NM|]. split; [exact OM|exact RM].
Qed.
Lemma agree_fk20_multi k w N s kb kz ka km m a p : setups L k w N s kb kz ka km -> S m <= k -> a <= m -> length p = 2 ^ m -> 2 ^ m <= N ->
  exists fb fz fa out rev,
    fk20_multi_new blst_table kb (2 ^ S m) (2 ^ a) = Ok fb /\ zk_fk20_multi_new kz (2 ^ S m) (2 ^ a) = Ok fz /\
    ark_fk20_multi_new (lib_W L) ka (2 ^ S m) (2 ^ a) = Ok fa /\
    all_give out [fk20_multi_da_opt fb p; zk_fk20_multi_da_opt fz p; ark_fk20_multi_da_opt (lib_W L) fa p] /\
    all_give rev [fk20_multi_da fb p; zk_fk20_multi_da fz p; ark_fk20_multi_da (lib_W L) fa p] /\
    (w = root k /\ S m < 31 -> exists fm, mcl_fk20_multi_new km (2 ^ S m) (2 ^ a) = Ok fm /\ mcl_fk20_multi_da fm p = Ok rev /\
       forall tail, length tail = 2 ^ m -> mcl_fk20_multi_da_opt fm (p ++ tail) = Ok out) /\
    length out = 2 ^ S (m - a) /\ forall i, i < 2 ^ S (m - a) -> exists g, nth_error out i = Some g /\ opening p (fpow (root (S m)) i) (2 ^ a) s g.
Proof.
  intros ((nb & lb & B & Hb) & (nz & Z & Hz) & (u & A & Ha) & (nm & lm & M & Hm)) Mk Am Lp HN. pose proof (powers_le u).
  assert (K32 : k < 32) by (destruct B as (? & ? & ? & ? & B & _); exact (proj1 (new_inv _ _ B))).
  assert (F : fits (2 * length p)). { unfold fits. rewrite Lp, <- Nat.pow_succ_r', Nat2N.inj_pow. apply N.pow_le_mono_r; [discriminate|lia]. }
  assert (C0 : 0 < 2 ^ a) by (apply Nat.neq_0_lt_0, Nat.pow_nonzero; discriminate).
  destruct (C37_proof kb k nb lb s m a p B Mk Am Lp) as (fb & out & NB & OB & LB & HB & rb & RB & LRB & HRB).
  destruct (C72_multi_proof kz k nz s m a p Z Mk Am ltac:(lia) Lp) as (fz & oz & NZ & OZ & LZ & HZ & HZ0 & rz & RZ & LRZ & HRZ).
  destruct (C81_multi_proof L HW ka k u s m a p A Mk Am ltac:(lia) Lp) as (fa & oa & NA & OA & LA & HA & _ & _ & ra & RA & LRA & HRA).
  set (n := 2 ^ S (m - a)) in *. set (c := 2 ^ a) in *.
  assert (XB : forall i, i < n -> exists g, nth_error out i = Some g /\ opening p (fpow (root (S m)) i) c s g).
  { intros i Hi. destruct (HB i Hi) as (g & Eg & Ng). exists g. split; [exact Ng|].
    destruct (C35_compute_proof kb k nb lb s p (fpow (root (S m)) i) c B F) as (_ & Q & _). destruct (Q a eq_refl ltac:(lia)) as (q & Eq & Rq).
    exists q. split; [exact Eq|]. apply ok_inj. rewrite <- Eg. exact Rq. }
  assert (XZ : forall i, i < n -> exists g, nth_error oz i = Some g /\ opening p (fpow (root (S m)) i) c s g).
  { intros i Hi. destruct (zero_or p) as [V|V].
    - destruct (HZ V i Hi) as (g & Eg & Ng). exists g. split; [exact Ng|]. destruct (trimmed_exists p V) as (p' & T). pose proof (trimmed_le _ _ T) as Lp'.
      apply (opening_trim p p'); [exact C0|exact T|].
      destruct (C71_compute_proof kz k nz s p (fpow (root (S m)) i) c Z F) as (_ & _ & Q & _). destruct (Q a p' eq_refl T ltac:(lia)) as (q & Eq & Rq).
      exists q. split; [exact Eq|]. apply ok_inj. rewrite <- Eg. exact Rq.
    - exists g0. split; [rewrite (HZ0 V); apply nth_error_repeat; exact Hi|]. apply opening_zero; [exact C0|exact V]. }
  assert (XA : forall i, i < n -> exists g, nth_error oa i = Some g /\ opening p (fpow (root (S m)) i) c s g).
  { intros i Hi. destruct (HA i Hi) as (q & Eq & Nq). exists (smul (peval q s) gen1). split; [exact Nq|]. exists q. split; [exact Eq|reflexivity]. }
  pose proof (openings_fun p c s n (fpow (root (S m))) oz out C0 LZ LB XZ XB).
  pose proof (openings_fun p c s n (fpow (root (S m))) oa out C0 LA LB XA XB).
  subst oz oa.
  assert (V : forall r, length r = n -> (forall i, i < n -> nth_error r i = nth_error out (bitrev (S (m - a)) i)) -> r = rb).
  { intros r Lr Hr. apply nth_error_ext. intros i. destruct (lt_dec i n); [now rewrite Hr, HRB|].
    rewrite (proj2 (nth_error_None r i)), (proj2 (nth_error_None rb i)) by lia. reflexivity. }
  rewrite (V rz) in RZ by assumption. rewrite (V ra) in RA by assumption.
  exists fb, fz, fa, out, rb. split; [exact NB|]. split; [exact NZ|]. split; [exact NA|].
  split; [apply all3; assumption|]. split; [apply all3; assumption|]. split; [|split; [exact LB|exact XB]].
  intros (-> & M31). assert (F30 : (N.of_nat (2 * length p) <= 2 ^ 30)%N).
  { rewrite Lp, <- Nat.pow_succ_r', Nat2N.inj_pow. apply N.pow_le_mono_r; [discriminate|lia]. }
  assert (X : forall tail, length tail = 2 ^ m -> exists fm, mcl_fk20_multi_new km (2 ^ S m) c = Ok fm /\ mcl_fk20_multi_da fm p = Ok rb /\
    mcl_fk20_multi_da_opt fm (p ++ tail) = Ok out).
  { intros tail Lt. destruct (C64_multi_proof km k (root k) nm lm s m a p tail M Mk M31 Am Lp Lt) as (fm & om & NM & OM & LM & HM & rm & RM & LRM & HRM).
    rewrite root_pow in HM by auto. fold n c in LM, HM, HRM, LRM, NM.
    assert (XM : forall i, i < n -> exists g, nth_error om i = Some g /\ opening p (fpow (root (S m)) i) c s g).
    { intros i Hi. destruct (HM i Hi) as (g & Eg & Ng). exists g. split; [exact Ng|].
      destruct (C63_multi_compute_proof km k (root k) nm lm s p (fpow (root (S m)) i) c M F30) as (_ & _ & Q & _). destruct (Q a eq_refl ltac:(lia)) as (q & Eq & Rq).
      exists q. split; [exact Eq|]. apply ok_inj. rewrite <- Eg. exact Rq. }
    pose proof (openings_fun p c s n (fpow (root (S m))) om out C0 LM LB XM XB). subst om.
    rewrite (V rm) in RM by assumption. exists fm. split; [exact NM|]. split; [exact RM|exact OM]. }
  destruct (X (repeat f0 (2 ^ m)) (repeat_length _ _)) as (fm & NM & RM & _). exists fm. split; [exact NM|]. split; [exact RM|]. intros tail Lt.
  destruct (X tail Lt) as (fm' & NM' & _ & OM). rewrite NM in NM'. apply ok_inj in NM'. subst fm'. exact OM.
Qed.
End Kzg.
