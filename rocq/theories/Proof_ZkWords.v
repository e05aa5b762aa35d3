(** * Proof_ZkWords: the KZG functions on machine words refine the abstract ones at the pairing of the curve *)
From Coq Require Import ZArith List Bool Lia Arith NArith.
From Verif Require Import Base Fld Tables Zr ZrTables Zp Poly Spec Spec_More Spec_Scalar Model_Scalar Proof_Scalar Proof_Scalar2 Proof_Scalar5 Spec_Fp Model_Fp Proof_FpRep Proof_FpTop Spec_Curve Proof_Curve Proof_CurveMul
  Model_Curve Model_Fp2 Model_G1 Model_G2 Model_Pair Spec_CurveCode Spec_G1 Spec_G2 Proof_G1Base Proof_G1Mul Proof_G1Gen Proof_G1Thm Proof_G1Top Proof_G1Mod Proof_G2Base Proof_G2Psi Proof_G2Top
  Loops Model_Utils Model_FFT Model_Poly Model_KZG Model_Zk Model_ZkMsm Proof_ZkMsmFr Model_ZkKZG Spec_KZG Spec_ZkKZG Proof_KZG Proof_ZkKZG Proof_Rel Model_ZkWords Spec_ZkWords Spec_Pair Proof_PairTop Proof_Concrete.
Import ListNotations.
Local Open Scope nat_scope.

Definition R1 (w : g1_projective) (a : PG1 bls_pairing) : Prop := g1_stands w (pt1 a).
Definition R2 (w : g2_projective) (a : PG2 bls_pairing) : Prop := g2_stands w (pt2 a).

(** ** scalars *)
Lemma fr_limbs_rep x : represents (fr_limbs x) x.
Proof.
  unfold represents, fr_limbs, limbs. set (n := ((val x * 2 ^ 256) mod r)%Z).
  assert (B : (0 <= n < 2 ^ 256)%Z).
  { unfold n. pose proof (Z.mod_pos_bound (val x * 2 ^ 256) r ltac:(reflexivity)). assert (r < 2 ^ 256)%Z by reflexivity. lia. }
  clearbody n. unfold W. cbn [limbs_val].
  repeat (split; [apply Z.mod_pos_bound; reflexivity|]).
  assert (D0 := Z.div_mod n (2 ^ 64) ltac:(discriminate)).
  assert (D1 := Z.div_mod (n / 2 ^ 64) (2 ^ 64) ltac:(discriminate)).
  assert (D2 := Z.div_mod (n / 2 ^ 64 / 2 ^ 64) (2 ^ 64) ltac:(discriminate)).
  assert (E2 : (n / (2 ^ 64) ^ 2 = n / 2 ^ 64 / 2 ^ 64)%Z) by (rewrite Z.div_div by (reflexivity || discriminate); reflexivity).
  assert (E3 : (n / (2 ^ 64) ^ 3 = n / 2 ^ 64 / 2 ^ 64 / 2 ^ 64)%Z) by (rewrite !Z.div_div by (reflexivity || discriminate); reflexivity).
  assert (B3 : (0 <= n / (2 ^ 64) ^ 3 < 2 ^ 64)%Z).
  { split; [apply Z.div_pos; [lia|reflexivity]|apply Z.div_lt_upper_bound; [reflexivity|]]. change ((2 ^ 64) ^ 3 * 2 ^ 64)%Z with (2 ^ 256)%Z. lia. }
  rewrite (Z.mod_small (n / (2 ^ 64) ^ 3)) by exact B3. rewrite E2, E3.
  set (a := (n / 2 ^ 64)%Z) in *. set (b := (a / 2 ^ 64)%Z) in *. set (c := (b / 2 ^ 64)%Z) in *. lia.
Qed.
Lemma map_limbs_rep l : Forall2 represents (map fr_limbs l) l.
Proof. induction l; cbn [map]; constructor; auto using fr_limbs_rep. Qed.
Lemma le_value_bytes_val bs : le_value bs = bytes_val bs.
Proof. reflexivity. Qed.

(** ** points *)
Lemma R1_zero : R1 proj_identity g0. Proof. exact (proj1 (proj1 g1_point_ops)). Qed.
Lemma R1_add a b a' b' : R1 a a' -> R1 b b' -> R1 (proj_add a b) (gadd a' b').
Proof. intros H H'. exact (proj1 (proj1 (proj2 g1_point_ops) _ _ _ _ H H')). Qed.
Lemma R1_dbl a a' : R1 a a' -> R1 (proj_double a) (gadd a' a').
Proof. intros H. exact (proj1 (proj2 (proj2 (proj2 (proj1 (proj2 g1_point_ops) _ _ _ _ H H))))). Qed.
Lemma R1_sub a b a' b' : R1 a a' -> R1 b b' -> R1 (zkw_g1_sub a b) (gsub a' b').
Proof. intros H H'. exact (proj1 (proj2 (proj1 (proj2 g1_point_ops) _ _ _ _ H H'))). Qed.
Lemma R1_mul checked a a' s x : R1 a a' -> represents s x -> ~ rounding_carries (val x) ->
  exists q, zkw_g1_mul checked a s = Ok q /\ R1 q (smul x a').
Proof. intros H S N. exact (proj1 (g1_scalar_mul checked a (aff_identity : g1_affine) (pt1 a') s x (pt1_sub a') S N) H). Qed.
Lemma R2_sub a b a' b' : R2 a a' -> R2 b b' -> R2 (zkw_g2_sub a b) (gsub a' b').
Proof. intros H H'. exact (proj1 (proj2 (proj1 (proj2 g2_point_ops) _ _ _ _ H H'))). Qed.
Lemma R2_mul a a' s x : R2 a a' -> represents s x -> R2 (zkw_g2_mul a s) (smul x a').
Proof. intros H S. exact (proj1 (g2_scalar_mul s x (pt2 a') S) a H). Qed.
Lemma gens : zkw_g1_generator = g1_generator /\ zkw_g2_generator = g2_generator /\ zkw_g1_identity = proj_identity /\
  zkw_g1_negative_generator = proj_neg g1_generator /\ zkw_g2_negative_generator = proj_neg g2_generator.
Proof. repeat split; vm_compute; reflexivity. Qed.
Lemma R1_gen : R1 zkw_g1_generator (gen1 : PG1 bls_pairing).
Proof. rewrite (proj1 gens). exact (proj1 g1_generator_ok). Qed.
Lemma R2_gen : R2 zkw_g2_generator (gen2 : PG2 bls_pairing).
Proof. rewrite (proj1 (proj2 gens)). exact (proj1 g2_generator_ok). Qed.

(** ** pairings *)
Lemma verify_rel a1 a2 b1 b2 (A1 B1 : PG1 bls_pairing) (A2 B2 : PG2 bls_pairing) : R1 a1 A1 -> R2 a2 A2 -> R1 b1 B1 -> R2 b2 B2 ->
  zk_pairings_verify a1 a2 b1 b2 = Ok (pairings_verify A1 A2 B1 B2).
Proof.
  intros S1 S2 T1 T2.
  destruct (pairings_verify_code _ _ _ _ _ _ _ _ S1 S2 T1 T2 (pt2_sub A2) (pt2_sub B2)) as (v & E & V). rewrite E. apply (f_equal Ok).
  unfold pairings_verify. destruct (geqb _ _) eqn:G.
  - apply V. apply geqb_spec in G. rewrite pe_neg_l, gadd_comm in G. symmetry. exact (f_equal val_t (gsub_0 _ _ G)).
  - destruct v; [|reflexivity]. exfalso. destruct V as [V _]. specialize (V eq_refl). apply geqb_false in G. apply G.
    assert (Q : (pe A1 A2 : PGT bls_pairing) = pe B1 B2) by (apply val_t_inj; exact V).
    rewrite pe_neg_l, <- Q. apply gadd_neg_l.
Qed.

(** ** commitments *)
Definition krel (ks : zkw_settings) (KS : kzg_settings bls_pairing) : Prop :=
  zkw_fs ks = kzg_fs KS /\ Forall2 R1 (zkw_secret_g1 ks) (secret_g1 KS) /\ Forall2 R2 (zkw_secret_g2 ks) (secret_g2 KS) /\
  (N.of_nat (length (secret_g1 KS)) < 2 ^ 64)%N.
Lemma is_zero_rel ps p : Forall2 represents ps p -> zkw_is_zero ps = zk_is_zero p.
Proof.
  intros H. unfold zkw_is_zero, zk_is_zero. rewrite (Forall2_length _ _ _ H). f_equal.
  induction H as [|s x ps p H _ IH]; [reflexivity|]. cbn [forallb]. rewrite IH. f_equal.
  destruct (C41_operations_proof s zero x f0 H (proj1 (proj2 (proj2 (proj2 (proj2 (proj2 (proj2 (C41_operations_proof s s x x H H))))))))) as (_ & _ & _ & _ & _ & _ & _ & _ & E).
  unfold Model_Scalar.is_zero. destruct (feqb x f0) eqn:F.
  - apply E, feqb_spec. exact F.
  - destruct (ct_eq s zero); [|reflexivity]. apply feqb_false in F. exfalso. apply F, E. reflexivity.
Qed.
Lemma commit_rel ks KS ps p : krel ks KS -> Forall2 represents ps p ->
  rrel R1 (zkw_commit_inner ks ps) (zk_commit_inner KS p).
Proof.
  intros (_ & H1 & _ & LS) HP. unfold zkw_commit_inner, zk_commit_inner. rewrite (is_zero_rel _ _ HP), (Forall2_length _ _ _ H1), (Forall2_length _ _ _ HP).
  destruct (Nat.ltb_spec (length (secret_g1 KS)) (length p)) as [_|LE]; [exact I|]. assert (L : (N.of_nat (length p) < 2 ^ 64)%N) by lia. destruct (zk_is_zero p).
  - cbn [rrel]. rewrite (proj1 (proj2 (proj2 gens))). exact R1_zero.
  - pose proof (msm_rel R1 proj_identity proj_add proj_double g0 gadd (fun a => gadd a a) Model_Scalar.is_zero Model_Scalar.is_one limb_digit
      R1_zero R1_add R1_dbl _ _ ps H1) as M.
    change (rrel R1 (msm_words (zkw_secret_g1 ks) ps) (msm_limbs (secret_g1 KS) ps)) in M.
    rewrite (msm_limbs_spec (secret_g1 KS) ps p HP) in M by (rewrite (Forall2_length _ _ _ HP); exact L). rewrite msm_fr_spec by exact L. exact M.
Qed.
Lemma check_single_rel checked ks KS com proof c q xs ys x y : krel ks KS -> R1 com c -> R1 proof q ->
  represents xs x -> represents ys y -> ~ rounding_carries (val y) ->
  zkw_check_proof_single checked ks com proof xs ys = zk_check_proof_single KS c q x y.
Proof.
  intros (_ & _ & H2 & _) HC HQ SX SY N. unfold zkw_check_proof_single, zk_check_proof_single. apply rrel_to.
  eapply bind_rel; [apply (idx_rel R2); exact H2|]. intros a a' Ra.
  destruct (R1_mul checked _ _ ys y R1_gen SY N) as (g & E & Rg). rewrite E. cbn [bind]. apply rrel_of.
  apply verify_rel; [apply R1_sub; assumption|exact R2_gen|exact HQ|]. apply R2_sub; [exact Ra|]. apply R2_mul; [exact R2_gen|exact SX].
Qed.
Lemma compute_rel ks KS p x n : krel ks KS ->
  rrel R1 (zkw_compute_proof_multi zk_table ks p x n) (zk_compute_proof_multi zk_table KS p x n).
Proof.
  intros H. unfold zkw_compute_proof_multi, zk_compute_proof_multi. destruct (negb (is_pow2 n)); [exact I|].
  apply (bind_rel eq); [apply rrel_of; reflexivity|]. intros e ? <-.
  apply (bind_rel eq); [apply rrel_of; reflexivity|]. intros d ? <-.
  destruct (zk_poly_div zk_table p (d ++ [f1])) as [q| | |] eqn:E; cbn [unwrap bind rrel]; auto.
  apply unwrap_rel, commit_rel; [exact H|apply map_limbs_rep].
Qed.
Lemma check_multi_rel ks KS com proof c q x ys n : krel ks KS -> R1 com c -> R1 proof q ->
  zkw_check_proof_multi ks com proof x ys n = zk_check_proof_multi KS c q x ys n.
Proof.
  intros H HC HQ. pose proof H as (HF & _ & H2 & _). unfold zkw_check_proof_multi, zk_check_proof_multi. rewrite HF.
  destruct (negb (is_pow2 n)); [reflexivity|].
  destruct (zk_fft_fr (kzg_fs KS) ys true) as [l| | |] eqn:E; cbn [bind]; try reflexivity.
  destruct (zk_inverse x) as [xi| | |]; cbn [bind]; try reflexivity.
  destruct (for_range 1 n _ (l, xi)) as [[poly xp]| | |]; cbn [bind]; try reflexivity.
  destruct (zk_inverse xp) as [xpow| | |]; cbn [bind]; try reflexivity. apply rrel_to.
  eapply bind_rel; [apply (idx_rel R2); exact H2|]. intros a a' Ra.
  eapply bind_rel; [apply unwrap_rel, commit_rel; [exact H|apply map_limbs_rep]|]. intros g g' Rg. apply rrel_of.
  apply verify_rel; [apply R1_sub; assumption|exact R2_gen|exact HQ|]. apply R2_sub; [exact Ra|]. apply R2_mul; [exact R2_gen|apply fr_limbs_rep].
Qed.

(** ** the trusted setup *)
Section Setup.
Variables (checked : bool) (s : Fr) (sw : scalar).
Hypothesis Rs : represents sw s.
Let body := fun (_ : nat) (st : scalar * list g1_projective * list g2_projective) =>
        let '(s_pow, s1, s2) := st in
        let* a := zkw_g1_mul checked zkw_g1_generator s_pow in
        let s1 := s1 ++ [a] in
        let s2 := s2 ++ [zkw_g2_mul zkw_g2_generator s_pow] in
        let s_pow := Model_Scalar.mul s_pow sw in
        Ok (s_pow, s1, s2).
Let inv (i : nat) (st : scalar * list g1_projective * list g2_projective) :=
  represents (fst (fst st)) (fpow s i) /\
  Forall2 R1 (snd (fst st)) (map (fun i => smul (fpow s i) (gen1 : PG1 bls_pairing)) (seq 0 i)) /\
  Forall2 R2 (snd st) (map (fun i => smul (fpow s i) (gen2 : PG2 bls_pairing)) (seq 0 i)).
Lemma setup_step i st : inv i st -> ~ rounding_carries (val (fpow s i)) -> exists st', body i st = Ok st' /\ inv (S i) st'.
Proof.
  destruct st as [[p l1] l2]. intros (HP & H1 & H2) N. cbn [fst snd] in *. unfold body.
  destruct (R1_mul checked _ _ p _ R1_gen HP N) as (a & E & Ra). rewrite E. cbn [bind]. eexists. split; [reflexivity|].
  unfold inv. cbn [fst snd]. rewrite seq_S, !map_app. cbn [map Nat.add]. split; [|split].
  - cbn [fpow]. rewrite (t_comm (K:=Fr) s (fpow s i)). exact (proj1 (proj2 (proj2 (C41_operations_proof _ _ _ _ HP Rs)))).
  - apply Forall2_app; [exact H1|]. constructor; [exact Ra|constructor].
  - apply Forall2_app; [exact H2|]. constructor; [|constructor]. apply R2_mul; [exact R2_gen|exact HP].
Qed.
Lemma setup_start : inv 0 (Model_Scalar.one, [], []).
Proof. split; [|split; constructor]. cbn [fst fpow]. exact (proj1 (proj2 (proj2 (proj2 (proj2 (proj2 (proj2 (proj2 (C41_operations_proof _ _ _ _ Rs Rs))))))))). Qed.
Lemma setup_loop n : (forall i, i < n -> ~ rounding_carries (val (fpow s i))) ->
  exists st, for_range 0 n body (Model_Scalar.one, [], []) = Ok st /\ inv n st.
Proof.
  intros N. apply (for_range_inv inv body 0 n); [lia|exact setup_start|]. intros i st Hi HI. apply setup_step; [exact HI|apply N; lia].
Qed.
(** with overflow checks the first power that carries stops the loop *)
Lemma setup_panic n i : checked = true -> i < n -> rounding_carries (val (fpow s i)) -> for_range 0 n body (Model_Scalar.one, [], []) = Panic.
Proof.
  intros HC Hi HN.
  assert (F : exists j, j <= i /\ rounding_carries (val (fpow s j)) /\ forall k, k < j -> ~ rounding_carries (val (fpow s k))).
  { clear Hi. induction i as [i IH] using (well_founded_induction lt_wf). 
    assert (D : (exists k, k < i /\ rounding_carries (val (fpow s k))) \/ (forall k, k < i -> ~ rounding_carries (val (fpow s k)))).
    { clear. induction i as [|i IH]; [right; lia|]. destruct IH as [(k & Hk & R)|R]; [left; exists k; split; [lia|exact R]|].
      destruct (Z.eq_dec ((val (fpow s i) * 0x17c6becf1e01faadd63f6e522f6cfee2f / 2 ^ 255) mod 2 ^ 65) (2 ^ 65 - 1)) as [Y|Y].
      - left. exists i. split; [lia|exact Y].
      - right. intros k Hk. destruct (Nat.eq_dec k i) as [->|]; [exact Y|]. apply R. lia. }
    destruct D as [(k & Hk & R)|R]; [|exists i; auto]. destruct (IH k Hk R) as (j & Hj & X). exists j. split; [lia|exact X]. }
  destruct F as (j & Hj & RJ & NJ). destruct (setup_loop j NJ) as ([[p l1] l2] & E & HP & _). cbn [fst] in HP.
  unfold for_range in *. rewrite Nat.sub_0_r in *. replace n with (j + S (n - j - 1)) by lia.
  assert (SP : forall a b i0 st, for_ (a + b) i0 body st = let* t := for_ a i0 body st in for_ b (i0 + a) body t).
  { clear. induction a as [|a IH]; intros b i0 st; cbn [Nat.add for_ bind]; [rewrite Nat.add_0_r; reflexivity|].
    destruct (body i0 st); cbn [bind]; auto. rewrite IH. replace (S i0 + a) with (i0 + S a) by lia. reflexivity. }
  rewrite SP, E. cbn [bind for_]. unfold body at 1. unfold zkw_g1_mul. rewrite HC.
  rewrite (g1_scalar_mul_panics _ _ _ HP RJ). reflexivity.
Qed.
End Setup.
Lemma nth_pow {A} (f : nat -> A) n i : i < n -> nth_error (map f (seq 0 n)) i = Some (f i).
Proof. intros H. rewrite nth_error_map. replace (nth_error (seq 0 n) i) with (Some i); [reflexivity|]. symmetry. rewrite (nth_error_nth' _ 0) by (rewrite seq_length; exact H). rewrite seq_nth by exact H. reflexivity. Qed.
Lemma Forall2_nth {A B} (R : A -> B -> Prop) l l' i b : Forall2 R l l' -> nth_error l' i = Some b -> exists a, nth_error l i = Some a /\ R a b.
Proof.
  intros H. revert i. induction H as [|a b' l l' H _ IH]; intros [|i]; cbn [nth_error]; try discriminate.
  - intros E. injection E as <-. eauto.
  - apply IH.
Qed.
Theorem words_setup checked n secret s : is_bytes 32 secret -> s = fr_of (bytes_val secret) ->
  ((r <= bytes_val secret)%Z -> zkw_generate_trusted_setup checked n secret = Panic) /\
  ((bytes_val secret < r)%Z ->
    ((forall i, i < n -> ~ rounding_carries (val (fpow s i))) ->
      exists g1s g2s, zkw_generate_trusted_setup checked n secret = Ok (g1s, g2s) /\ length g1s = n /\ length g2s = n /\
        forall i, i < n -> (exists q, nth_error g1s i = Some q /\ g1_stands q (point_zmul (val (fpow s i)) g1_gen)) /\
                           (exists q, nth_error g2s i = Some q /\ g2_stands q (point_zmul (val (fpow s i)) g2_gen))) /\
    (forall i, i < n -> rounding_carries (val (fpow s i)) -> zkw_generate_trusted_setup true n secret = Panic)).
Proof.
  intros B ES. destruct (C42_decode_proof secret B) as [D1 D2]. rewrite <- ES in D1. unfold zkw_generate_trusted_setup. split.
  - intros H. rewrite (D2 H). reflexivity.
  - intros H. destruct (D1 H) as (sw & E & Rs & _). rewrite E. split.
    + intros N. destruct (setup_loop checked s sw Rs n N) as ([[p l1] l2] & EL & _ & H1 & H2). cbn [fst snd] in *. rewrite EL. cbn [bind].
      exists l1, l2. split; [reflexivity|]. split; [|split].
      * rewrite (Forall2_length _ _ _ H1), map_length, seq_length. reflexivity.
      * rewrite (Forall2_length _ _ _ H2), map_length, seq_length. reflexivity.
      * intros i Hi. split.
        -- destruct (Forall2_nth _ _ _ _ _ H1 (nth_pow _ n i Hi)) as (q & EQ & RQ). exists q. split; [exact EQ|exact RQ].
        -- destruct (Forall2_nth _ _ _ _ _ H2 (nth_pow _ n i Hi)) as (q & EQ & RQ). exists q. split; [exact EQ|exact RQ].
    + intros i Hi HN. pose proof (setup_panic true s sw Rs n i eq_refl Hi HN) as EP. cbv zeta in EP. rewrite EP. reflexivity.
Qed.
Lemma setup_rel checked ks k n s : zkw_setup checked ks k n s -> exists KS, krel ks KS /\ zk_setup KS k n s.
Proof.
  intros (secret & fs & sg1 & sg2 & LN & B & HF & HS & -> & -> & N). destruct (C42_decode_proof secret B) as [D1 D2].
  unfold zkw_generate_trusted_setup in HS.
  destruct (Z.lt_ge_cases (bytes_val secret) r) as [H|H]; [|rewrite (D2 H) in HS; discriminate HS].
  destruct (D1 H) as (sw & E & Rs & _). rewrite E in HS.
  destruct (setup_loop checked _ sw Rs n N) as ([[p l1] l2] & EL & _ & H1 & H2). cbn [fst snd] in *. rewrite EL in HS. cbn [bind] in HS.
  assert (S1 : l1 = sg1) by exact (f_equal (fun o => match o with Ok t => fst t | _ => l1 end) HS).
  assert (S2 : l2 = sg2) by exact (f_equal (fun o => match o with Ok t => snd t | _ => l2 end) HS). subst l1 l2.
  exists (mkKZG fs (map (fun i => smul (fpow (fr_of (bytes_val secret)) i) gen1) (seq 0 n)) (map (fun i => smul (fpow (fr_of (bytes_val secret)) i) gen2) (seq 0 n))). split.
  - split; [reflexivity|]. split; [exact H1|]. split; [exact H2|]. cbn [secret_g1]. rewrite map_length, seq_length. exact LN.
  - exists secret, fs. do 2 eexists. exists 0. split; [exact HF|]. split; [|split; [reflexivity|reflexivity]].
    rewrite zk_setup_points. change (le_value secret) with (bytes_val secret). destruct (Z.ltb_spec (bytes_val secret) r); [|lia]. apply trusted_setup_spec.
Qed.
