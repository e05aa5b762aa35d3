(** * Proof_ZkFK20: batch proofs of the zkcrypto backend *)
From Coq Require Import List Arith Lia Bool ZArith NArith Field.
From Verif Require Import Base Fld Poly Loops Model_Utils Proof_Utils Model_FFT Spec Spec_More Proof_FFT Zr ZrTables Proof_FFTFr.
From Verif Require Import Model_Poly Proof_Poly1 Proof_Poly2 Proof_PolyFr Proof_MclPoly Proof_MclFr Model_KZG Spec_KZG Proof_KZG Proof_KZGFr.
From Verif Require Import Proof_Recovery Model_FK20 Proof_FK20 Proof_FK20Fr Model_Zk Proof_Zk Proof_ZkFr Model_ZkMsm Model_ZkKZG Spec_ZkKZG Proof_ZkKZG Model_ZkFK20.
Import ListNotations.

Lemma mul0r {K : fld} (x : K) : fmul x f0 = f0.
Proof. destruct (fld_field K) as [R _ _ _]. rewrite (Ring_theory.Rmul_comm R). apply (Ring_theory.ARmul_0_l (Ring_theory.Rth_ARth (Eqsth _) (Eq_ext _ _ _) R)). Qed.

Lemma for_each_push {A} (x : list A) e : for_each x (fun x_i e => Ok (e ++ [x_i])) e = Ok (e ++ x).
Proof.
  revert e. induction x as [|a x IH]; intros e; cbn [for_each bind]; [now rewrite app_nil_r|]. rewrite IH, <- app_assoc. reflexivity.
Qed.

Section T.
Context {M : gmod Fr}.

Lemma zk_part1_eq (x : list M) fs : zk_toeplitz_part_1 x fs = toeplitz_part_1 fs x.
Proof.
  unfold zk_toeplitz_part_1, toeplitz_part_1. rewrite for_each_push.
  rewrite (Proof_Recovery.push_loop _ (fun i => nth i x g0)) by (intros i l Hi; rewrite (idx_ok x i g0) by lia; reflexivity).
  rewrite map_nth_seq. cbn [bind app]. destruct (for_range (length x) (length x * 2) (fun _ e => Ok (e ++ [g0])) x); cbn [bind]; try reflexivity.
Qed.

Lemma zk_part2_eq c (x : list M) fs : zk_toeplitz_part_2 c x fs = toeplitz_part_2 fs c x.
Proof. unfold zk_toeplitz_part_2, toeplitz_part_2. now rewrite zfft. Qed.

Lemma zk_part3_eq (h : list M) fs : zk_toeplitz_part_3 h fs = toeplitz_part_3 fs h.
Proof. unfold zk_toeplitz_part_3, toeplitz_part_3. now rewrite zfftg. Qed.
End T.

(** a counting [while] loop against the corresponding [for] loop *)
Lemma while_for {S} (body : S -> res S) b : forall fuel a s, b - a < fuel ->
  while_ fuel (fun st : nat * S => fst st <? b) (fun st => let* s := body (snd st) in Ok (fst st + 1, s)) (a, s)
  = let* s := for_range a b (fun _ s => body s) s in Ok (Nat.max a b, s).
Proof.
  induction fuel as [|fuel IH]; intros a s H; [lia|]. cbn [while_ fst]. unfold for_range in *.
  destruct (Nat.ltb_spec a b) as [L|L].
  - replace (b - a) with (Datatypes.S (b - (a + 1))) by lia. cbn [for_ snd]. destruct (body s) as [s'| | |]; cbn [bind]; auto.
    rewrite IH by lia. replace (Datatypes.S a) with (a + 1) by lia. destruct (for_ _ _ _ s'); cbn [bind]; auto. do 2 f_equal. lia.
  - replace (b - a) with 0 by lia. cbn [for_ bind]. do 2 f_equal. lia.
Qed.

Lemma while_map {S T} (f : S -> T) cond body cond' body' : (forall s, cond s = cond' (f s)) ->
  (forall s, (let* t := body s in Ok (f t)) = body' (f s)) -> forall fuel s,
  (let* t := while_ fuel cond body s in Ok (f t)) = while_ fuel cond' body' (f s).
Proof.
  intros C B. induction fuel as [|fuel IH]; intros s; [reflexivity|]. cbn [while_]. rewrite <- C. destruct (cond s); [|reflexivity].
  rewrite <- B. destruct (body s); cbn [bind]; auto.
Qed.

Lemma zk_stride_eq (p : list Fr) off l : 0 < l <= length p -> zk_toeplitz_coeffs_stride off l p = toeplitz_coeffs_stride p off l.
Proof.
  intros H. unfold zk_toeplitz_coeffs_stride, toeplitz_coeffs_stride.
  destruct (Nat.ltb_spec 0 l); [|lia]. destruct (Nat.eqb_spec l 0); [lia|]. cbn [assert bind].
  assert (K1 : 1 <= length p / l) by (apply Nat.div_le_lower_bound; lia). set (k := length p / l) in *. clearbody k.
  destruct (usub (length p) 1) as [i| | |]; cbn [bind]; auto. destruct (usub i off) as [i'| | |]; cbn [bind]; auto.
  destruct (idx p i') as [c| | |]; cbn [bind]; auto.
  rewrite push_const by (destruct (Nat.ltb_spec (k + 2) (k * 2)); lia). cbn [bind].
  assert (NZ : (if k + 2 <? k * 2 then Ok (k + 1) else usub (k * 2) 1) = Ok ((if k + 2 <? k * 2 then k + 2 else k * 2) - 1)).
  { destruct (Nat.ltb_spec (k + 2) (k * 2)); [f_equal; lia|]. now rewrite usub_ok by lia. }
  rewrite NZ. cbn [bind]. rewrite push_const by lia. cbn [bind]. rewrite Nat.sub_0_r.
  destruct (usub (2 * l) off) as [j| | |]; cbn [bind]; auto. destruct (usub j 1) as [j'| | |]; cbn [bind]; auto.
  set (out := [c] ++ repeat f0 ((if k + 2 <? k * 2 then k + 2 else k * 2) - 1)).
  set (bd := fun st : nat * list Fr => let (j, out) := st in let* c := idx p j in Ok (j + l, out ++ [c])).
  assert (W := while_for bd (k * 2) (Datatypes.S (k * 2)) (k + 2) (j', out) ltac:(lia)).
  set (g := fun st : nat * nat * list Fr => let '(i, j, ret) := st in (i, (j, ret))).
  match goal with |- _ = let* st := while_ ?fu ?cond ?body ?s0 in _ =>
    assert (E := while_map g cond body (fun st : nat * (nat * list Fr) => fst st <? k * 2) (fun st => let* s := bd (snd st) in Ok (fst st + 1, s))) end.
  specialize (E ltac:(intros ((a & b') & d); reflexivity)).
  specialize (E ltac:(intros ((a & b') & d); cbn [g snd fst bd]; destruct (idx p b'); reflexivity)).
  specialize (E (Datatypes.S (k * 2)) (k + 2, j', out)). cbn [g] in E. rewrite W in E. clear W.
  match type of E with (let* t := ?w in _) = _ => destruct w as [((a & b') & d)| | |] end; cbn [bind g] in E |- *;
    match goal with |- (let* st := ?f in _) = _ => change f with (for_range (k + 2) (k * 2) (fun _ => bd) (j', out)) end;
    destruct (for_range (k + 2) (k * 2) (fun _ => bd) (j', out)) as [(a' & d')| | |]; cbn [bind] in E |- *; try discriminate; auto.
  apply Ok_inj in E. now inversion E.
Qed.

Section P.
Context {P : pairing Fr}.
Implicit Types (ks : kzg_settings P).

Lemma zk_single_new_eq ks n : zk_fk20_single_new ks n = fk20_single_new blst_table ks n.
Proof.
  unfold zk_fk20_single_new, fk20_single_new. destruct (max_width (kzg_fs ks) <? n); auto. destruct (negb (is_pow2 n)); auto. destruct (n <? 2); auto.
  destruct (usub (n / 2) 1) as [a| | |]; cbn [bind]; auto.
  match goal with |- (let* x := ?f in _) = _ => destruct f as [x| | |] end; cbn [bind]; auto.
  rewrite zk_part1_eq. destruct (toeplitz_part_1 (kzg_fs ks) (x ++ [g0])); cbn [bind]; auto.
  rewrite kzg_clone_ok by auto using blst_table_ok, tl0. reflexivity.
Qed.

Lemma zk_multi_new_eq ks n c : zk_fk20_multi_new ks n c = fk20_multi_new blst_table ks n c.
Proof.
  unfold zk_fk20_multi_new, fk20_multi_new. destruct (max_width (kzg_fs ks) <? n); auto. destruct (negb (is_pow2 n)); auto. destruct (n <? 2); auto.
  destruct (n / 2 <? c); auto. destruct (negb (is_pow2 c)); auto. cbv zeta.
  match goal with |- (let* x := for_range 0 c ?b1 [] in _) = (let* y := for_range 0 c ?b2 [] in _) =>
    assert (E : for_range 0 c b1 [] = for_range 0 c b2 []) end.
  { apply for_range_ext. intros i st Hi. match goal with |- (let* x := ?f in _) = _ => destruct f as [((u1 & u2) & u3)| | |] end; cbn [bind]; auto.
    now rewrite zk_part1_eq. }
  rewrite E. match goal with |- (let* x := ?f in _) = _ => destruct f as [x| | |] end; cbn [bind]; auto.
  rewrite kzg_clone_ok by auto using blst_table_ok, tl0. reflexivity.
Qed.

Lemma zk_single_da_opt_eq (fk : fk20_single P) (p : list Fr) : zk_fk20_single_da_opt fk p = fk20_single_da_opt fk p.
Proof.
  unfold zk_fk20_single_da_opt, fk20_single_da_opt. destruct (max_width (kzg_fs (fks_kzg fk)) <? length p * 2); auto.
  destruct (is_pow2 (length p * 2)) eqn:E; cbn [negb]; auto.
  assert (L : 0 < 1 <= length p). { destruct p; [discriminate|cbn [length]; lia]. }
  unfold zk_toeplitz_coeffs_step, toeplitz_coeffs_step. rewrite zk_stride_eq by exact L.
  destruct (toeplitz_coeffs_stride p 0 1); cbn [bind]; auto. rewrite zk_part2_eq. destruct (toeplitz_part_2 _ _ _); cbn [bind]; auto.
  rewrite zk_part3_eq. destruct (toeplitz_part_3 _ _); cbn [bind]; reflexivity.
Qed.

Lemma zk_single_da_eq (fk : fk20_single P) (p : list Fr) : zk_fk20_single_da fk p = fk20_single_da fk p.
Proof. unfold zk_fk20_single_da, fk20_single_da. now rewrite zk_single_da_opt_eq. Qed.

Lemma zk_multi_da_opt_eq (fk : fk20_multi P) (p : list Fr) : fkm_chunk_len fk <= length p ->
  zk_fk20_multi_da_opt fk p = fk20_multi_da_opt fk p.
Proof.
  intros L. unfold zk_fk20_multi_da_opt, fk20_multi_da_opt. destruct (max_width (kzg_fs (fkm_kzg fk)) <? length p * 2); auto.
  destruct (is_pow2 (length p * 2)); cbn [negb]; auto. destruct (Nat.eqb_spec (fkm_chunk_len fk) 0); cbn [bind]; auto.
  match goal with |- (let* x := for_range 0 ?c ?b1 ?s in _) = (let* y := for_range 0 ?c ?b2 ?s in _) =>
    assert (E : for_range 0 c b1 s = for_range 0 c b2 s) end.
  { apply for_range_ext. intros i st Hi. rewrite zk_stride_eq by lia. destruct (toeplitz_coeffs_stride p i (fkm_chunk_len fk)); cbn [bind]; auto.
  }
  rewrite E. match goal with |- (let* x := ?f in _) = _ => destruct f as [x| | |] end; cbn [bind]; auto.
  rewrite zk_part3_eq. reflexivity.
Qed.

Lemma zk_multi_da_eq (fk : fk20_multi P) (p : list Fr) : fkm_chunk_len fk <= length p -> zk_fk20_multi_da fk p = fk20_multi_da fk p.
Proof. intros L. unfold zk_fk20_multi_da, fk20_multi_da. now rewrite zk_multi_da_opt_eq. Qed.

(** the value of a proof, from the polynomial as given (not trimmed) *)
Lemma zk_compute_value ks k n s (p : list Fr) x a : zk_setup ks k n s -> fits (2 * length p) -> length p <= n + 2 ^ a ->
  (exists i, coef p i <> f0) ->
  exists q, euclid p (binomial (2 ^ a) (fpow x (2 ^ a))) q /\ zk_compute_proof_multi zk_table ks p x (2 ^ a) = Ok (smul (peval q s) gen1).
Proof.
  intros H F L NZ. destruct (zk_setup_inv _ _ _ _ H) as (_ & S & _). destruct (trimmed_exists p NZ) as (p' & T).
  assert (TL := trimmed_le _ _ T). assert (F' : fits (2 * length p')) by (unfold fits in *; lia).
  destruct (proof_multi_spec blst_table Hdiv_Fr ks s n a p x S F) as (q & r & Hq & _).
  destruct (proof_multi_spec blst_table Hdiv_Fr ks s n a p' x S F') as (q' & r' & Hq' & _ & _ & _ & CP & _).
  exists q. split; [exact Hq|]. rewrite (zk_compute_eq ks p p') by auto. rewrite CP by lia. do 2 f_equal. apply peval_ext.
  destruct Hq as (_ & r0 & L0 & E0), Hq' as (_ & r1 & L1 & E1).
  assert (Pa := pow2_pos a). assert (B := binomial_length (2 ^ a) (fpow x (2 ^ a)) Pa).
  refine (proj1 (euclid_unique (binomial (2 ^ a) (fpow x (2 ^ a))) q' r1 q r0 _ _ L1 L0 _)).
  - intros Z. rewrite Z in B. discriminate.
  - rewrite B. replace (Datatypes.S (2 ^ a) - 1) with (2 ^ a) by lia. rewrite binomial_monic by auto. apply f1_neq_0.
  - intros i. rewrite <- E0, <- E1. symmetry. now apply trimmed_coef.
Qed.

Lemma C72_multi_proof ks k n s m a (p : list Fr) : zk_setup ks k n s -> S m <= k -> a <= m -> 2 ^ m <= 2 ^ a + n -> length p = 2 ^ m ->
  exists fk out, zk_fk20_multi_new ks (2 ^ S m) (2 ^ a) = Ok fk /\ zk_fk20_multi_da_opt fk p = Ok out /\
    length out = 2 ^ S (m - a) /\
    ((exists i, coef p i <> f0) -> forall i, i < 2 ^ S (m - a) ->
       exists pf, zk_compute_proof_multi zk_table ks p (fpow (root (S m)) i) (2 ^ a) = Ok pf /\ nth_error out i = Some pf) /\
    ((forall i, coef p i = f0) -> out = repeat g0 (2 ^ S (m - a))) /\
    exists rev, zk_fk20_multi_da fk p = Ok rev /\ length rev = 2 ^ S (m - a) /\
      forall i, i < 2 ^ S (m - a) -> nth_error rev i = nth_error out (bitrev (S (m - a)) i).
Proof.
  intros H Hm Ha Hn Lp. destruct (zk_setup_inv _ _ _ _ H) as (K32 & HS & HF & HN).
  assert (P2 := pow2_pos m). assert (Pa := pow2_pos a).
  assert (EM : 2 ^ m = 2 ^ (m - a) * 2 ^ a) by (rewrite <- Nat.pow_add_r; f_equal; lia).
  assert (AM : 2 ^ a <= 2 ^ m) by (apply Nat.pow_le_mono_r; lia).
  do 2 eexists. split; [rewrite zk_multi_new_eq; apply (multi_new_gen blst_table blst_table_ok tl0 ks s n k (root k)); auto; lia|].
  assert (DA := multi_da_opt_gen blst_table tl0 ks s k (root k) HF m a p Hm Ha Lp).
  split; [rewrite zk_multi_da_opt_eq by (cbn [fkm_chunk_len]; lia); exact DA|]. split; [now rewrite map_length, seq_length|]. split; [|split].
  - intros NZ i Hi. rewrite nth_error_map_seq by auto.
    destruct (zk_compute_value ks k n s p (fpow (root (S m)) i) a H) as (q & Hq & E); auto.
    { rewrite Lp. apply fits_pow. lia. }
    { lia. }
    eexists. split; [exact E|]. do 2 f_equal.
    rewrite (quotient_value p q (2 ^ (m - a)) (2 ^ a) (fpow (fpow (root (S m)) i) (2 ^ a)) s) by (auto; try lia; exact Hq).
    apply sum_ext. intros j Hj. do 2 f_equal. rewrite root_pow by lia.
    rewrite <- fpow_mul, Nat.mul_comm, fpow_mul. f_equal. symmetry.
    replace a with (S m - S (m - a)) at 1 by lia. apply root_pow; lia.
  - intros Z. apply (nth_ext' g0); [now rewrite map_length, seq_length, repeat_length|]. intros i Hi.
    rewrite map_length, seq_length in Hi. rewrite nth_map_seq by auto. rewrite nth_repeat_same.
    rewrite sum_0; [apply smul_0_l|]. intros j _.
    assert (E0 : peval (skipn ((j + 1) * 2 ^ a) p) s = f0).
    { rewrite (peval_ext _ []); [reflexivity|]. intros e. rewrite coef_skipn, Z. symmetry. now apply coef_over, Nat.le_0_l. }
    rewrite E0. apply mul0r.
  - match type of DA with _ = Ok ?o => destruct (reverse_bit_order_correct (S (m - a)) o ltac:(lia) (length_map_seq _ _)) as (l' & E & L & I & _) end.
    exists l'. split; [|split; auto]. rewrite zk_multi_da_eq by (cbn [fkm_chunk_len]; lia). unfold fk20_multi_da. rewrite DA. cbn [fkm_kzg unwrap bind].
    pose proof HF as (W & _). rewrite W, Lp. replace (2 ^ m * 2) with (2 ^ S m) by (simpl; lia).
    assert (2 ^ S m <= 2 ^ k) by (apply Nat.pow_le_mono_r; lia).
    destruct (Nat.ltb_spec (2 ^ k) (2 ^ S m)); [lia|]. rewrite is_pow2_pow. exact E.
Qed.

Lemma C72_single_proof ks k n s m (p : list Fr) : zk_setup ks k n s -> S m <= k -> 2 ^ m <= 1 + n -> length p = 2 ^ m ->
  exists fk out, zk_fk20_single_new ks (2 ^ S m) = Ok fk /\ zk_fk20_single_da_opt fk p = Ok out /\
    length out = 2 ^ S m /\
    ((exists i, coef p i <> f0) -> forall i, i < 2 ^ S m ->
       exists pf, zk_compute_proof_single zk_table ks p (fpow (root (S m)) i) = Ok pf /\ nth_error out i = Some pf) /\
    ((forall i, coef p i = f0) -> out = repeat g0 (2 ^ S m)) /\
    exists rev, zk_fk20_single_da fk p = Ok rev /\ length rev = 2 ^ S m /\
      forall i, i < 2 ^ S m -> nth_error rev i = nth_error out (bitrev (S m) i).
Proof.
  intros H Hm Hn Lp. destruct (zk_setup_inv _ _ _ _ H) as (K32 & HS & HF & HN).
  assert (P2 := pow2_pos m).
  do 2 eexists. split; [rewrite zk_single_new_eq; apply (single_new_gen blst_table blst_table_ok tl0 ks s n k (root k)); auto; lia|].
  assert (DA := single_da_opt_gen blst_table tl0 ks s k (root k) HF m p Hm Lp).
  split; [rewrite zk_single_da_opt_eq; exact DA|]. split; [now rewrite map_length, seq_length|]. split; [|split].
  - intros NZ i Hi. rewrite nth_error_map_seq by auto. unfold zk_compute_proof_single.
    destruct (zk_compute_value ks k n s p (fpow (root (S m)) i) 0 H) as (q & Hq & E); auto.
    { rewrite Lp. apply fits_pow. lia. }
    { rewrite Lp. change (2 ^ 0) with 1. lia. }
    eexists. split; [exact E|]. do 2 f_equal.
    rewrite (quotient_value p q (2 ^ m) 1 (fpow (fpow (root (S m)) i) 1) s) by (auto; try lia; exact Hq).
    apply sum_ext. intros j Hj. do 2 f_equal. rewrite root_pow by lia. now rewrite fpow_1.
  - intros Z. apply (nth_ext' g0); [now rewrite map_length, seq_length, repeat_length|]. intros i Hi.
    rewrite map_length, seq_length in Hi. rewrite nth_map_seq by auto. rewrite nth_repeat_same.
    rewrite sum_0; [apply smul_0_l|]. intros j _.
    assert (E0 : peval (skipn ((j + 1) * 1) p) s = f0).
    { rewrite (peval_ext _ []); [reflexivity|]. intros e. rewrite coef_skipn, Z. symmetry. now apply coef_over, Nat.le_0_l. }
    rewrite E0. apply mul0r.
  - match type of DA with _ = Ok ?o => destruct (reverse_bit_order_correct (S m) o ltac:(lia) (length_map_seq _ _)) as (l' & E & L & I & _) end.
    exists l'. split; [|split; auto]. rewrite zk_single_da_eq. unfold fk20_single_da. rewrite DA. cbn [fks_kzg unwrap bind].
    pose proof HF as (W & _). rewrite W, Lp. replace (2 ^ m * 2) with (2 ^ S m) by (simpl; lia).
    assert (2 ^ S m <= 2 ^ k) by (apply Nat.pow_le_mono_r; lia).
    destruct (Nat.ltb_spec (2 ^ k) (2 ^ S m)); [lia|]. rewrite is_pow2_pow. exact E.
Qed.

(** the constructors: which sizes are refused, and what happens when the setup is too short *)
Lemma C72_multi_new_proof ks k n s n2 cl : zk_setup ks k n s ->
  (~ (n2 <= 2 ^ k /\ exists m a, n2 = 2 ^ S m /\ cl = 2 ^ a /\ a <= m) -> zk_fk20_multi_new ks n2 cl = Err) /\
  (forall m a, n2 = 2 ^ S m -> cl = 2 ^ a -> a <= m -> S m <= k ->
     (2 ^ m <= 2 ^ a + n -> exists fk, zk_fk20_multi_new ks n2 cl = Ok fk) /\
     (2 ^ a + n < 2 ^ m -> zk_fk20_multi_new ks n2 cl = Panic)).
Proof.
  intros H. destruct (zk_setup_inv _ _ _ _ H) as (K32 & HS & HF & HN). rewrite zk_multi_new_eq. split.
  - intros Hn. unfold fk20_multi_new. destruct HF as (W & _). rewrite W.
    destruct (Nat.ltb_spec (2 ^ k) n2) as [|L]; auto. destruct (is_pow2 n2) eqn:E; auto. cbn [negb].
    apply is_pow2_spec in E as ([|m] & ->); [reflexivity|].
    assert (P2 := pow2_pos m). assert (E2 : 2 ^ S m = 2 ^ m * 2) by (simpl; lia).
    destruct (Nat.ltb_spec (2 ^ S m) 2); auto.
    assert (D : 2 ^ S m / 2 = 2 ^ m) by (rewrite E2; now apply Nat.div_mul). rewrite D.
    destruct (Nat.ltb_spec (2 ^ m) cl) as [|C]; auto. destruct (is_pow2 cl) eqn:E; auto. cbn [negb].
    apply is_pow2_spec in E as (a & ->). elim Hn. split; auto. exists m, a. split; auto. split; auto. now apply pow2_le_inv.
  - intros m a -> -> Ha Hm. split; intros L.
    + eexists. apply (multi_new_gen blst_table blst_table_ok tl0 ks s n k (root k)); auto; lia.
    + pose proof HF as (W & _). unfold fk20_multi_new. rewrite W. assert (P2 := pow2_pos m). assert (Pa := pow2_pos a). assert (Pk := pow2_pos (m - a)).
      assert (2 ^ S m <= 2 ^ k)%nat by (apply Nat.pow_le_mono_r; lia).
      assert (E2 : (2 ^ S m = 2 ^ m * 2)%nat) by (simpl; lia).
      assert (EM : (2 ^ m = 2 ^ (m - a) * 2 ^ a)%nat) by (rewrite <- Nat.pow_add_r; f_equal; lia).
      destruct (Nat.ltb_spec (2 ^ k) (2 ^ S m)); [lia|]. rewrite is_pow2_pow. cbn [negb].
      destruct (Nat.ltb_spec (2 ^ S m) 2); [lia|].
      assert (D : (2 ^ S m / 2 = 2 ^ m)%nat) by (rewrite E2; now apply Nat.div_mul). rewrite D.
      destruct (Nat.ltb_spec (2 ^ m) (2 ^ a)); [nia|]. rewrite is_pow2_pow. cbn [negb].
      assert (Dk : (2 ^ m / 2 ^ a = 2 ^ (m - a))%nat) by (rewrite EM; apply Nat.div_mul; lia). rewrite Dk.
      assert (K2 : 2 <= 2 ^ (m - a)) by nia.
      set (kk := 2 ^ (m - a)) in *. set (l := 2 ^ a) in *. unfold for_range. rewrite Nat.sub_0_r.
      destruct l as [|l'] eqn:El; [lia|]. cbn [for_]. rewrite <- El in *.
      cbn [while_]. destruct (Nat.ltb_spec (0 + 1) kk); [|lia].
      destruct (Nat.leb_spec (l + 1 + 0) (2 ^ m)); [|lia].
      destruct HS as (S1 & _). rewrite idx_panic by (rewrite S1, length_map_seq; lia). reflexivity.
Qed.

Lemma C72_single_new_proof ks k n s n2 : zk_setup ks k n s ->
  (~ (n2 <= 2 ^ k /\ exists m, n2 = 2 ^ S m) -> zk_fk20_single_new ks n2 = Err) /\
  (forall m, n2 = 2 ^ S m -> S m <= k ->
     (2 ^ m <= 1 + n -> exists fk, zk_fk20_single_new ks n2 = Ok fk) /\
     (1 + n < 2 ^ m -> zk_fk20_single_new ks n2 = Panic)).
Proof.
  intros H. destruct (zk_setup_inv _ _ _ _ H) as (K32 & HS & HF & HN). rewrite zk_single_new_eq. split.
  - intros Hn. unfold fk20_single_new. destruct HF as (W & _). rewrite W.
    destruct (Nat.ltb_spec (2 ^ k) n2) as [|L]; auto. destruct (is_pow2 n2) eqn:E; auto. cbn [negb].
    apply is_pow2_spec in E as ([|m] & ->); [reflexivity|]. elim Hn. eauto.
  - intros m -> Hm. split; intros L.
    + eexists. apply (single_new_gen blst_table blst_table_ok tl0 ks s n k (root k)); auto; lia.
    + pose proof HF as (W & _). unfold fk20_single_new. rewrite W. assert (P2 := pow2_pos m).
      assert (2 ^ S m <= 2 ^ k)%nat by (apply Nat.pow_le_mono_r; lia).
      assert (E2 : (2 ^ S m = 2 ^ m * 2)%nat) by (simpl; lia).
      destruct (Nat.ltb_spec (2 ^ k) (2 ^ S m)); [lia|]. rewrite is_pow2_pow. cbn [negb].
      destruct (Nat.ltb_spec (2 ^ S m) 2); [lia|].
      assert (D : (2 ^ S m / 2 = 2 ^ m)%nat) by (rewrite E2; now apply Nat.div_mul). rewrite D.
      rewrite usub_ok by lia. cbn [bind]. set (N := 2 ^ m) in *. clearbody N. unfold for_range. rewrite Nat.sub_0_r.
      replace (N - 1) with (Datatypes.S (N - 2)) by lia. cbn [for_]. rewrite usub_ok by lia. cbn [bind]. rewrite usub_ok by lia. cbn [bind].
      destruct HS as (S1 & _). rewrite idx_panic by (rewrite S1, length_map_seq; lia). reflexivity.
Qed.

Lemma C72_errors_proof k n s (fks : fk20_single P) (fkm : fk20_multi P) (p : list Fr) :
  ~ (length p * 2 <= 2 ^ k /\ exists m, length p = 2 ^ m) ->
  (zk_setup (fks_kzg fks) k n s -> zk_fk20_single_da_opt fks p = Err /\ zk_fk20_single_da fks p = Err) /\
  (zk_setup (fkm_kzg fkm) k n s -> zk_fk20_multi_da_opt fkm p = Err /\ zk_fk20_multi_da fkm p = Err).
Proof.
  intros Hn.
  assert (C : (2 ^ k <? length p * 2) = true \/ negb (is_pow2 (length p * 2)) = true).
  { destruct (Nat.ltb_spec (2 ^ k) (length p * 2)); auto. right. destruct (is_pow2 (length p * 2)) eqn:E; auto.
    apply is_pow2_spec in E as ([|m] & E); [change (2 ^ 0) with 1 in E; lia|]. elim Hn. split; auto. exists m. replace (2 ^ S m) with (2 ^ m * 2) in E by (simpl; lia). lia. }
  split; intros H; destruct (zk_setup_inv _ _ _ _ H) as (K32 & HS & (W & _) & _).
  - unfold zk_fk20_single_da_opt, zk_fk20_single_da. rewrite W. destruct C as [-> | ->]; auto. destruct (2 ^ k <? length p * 2); auto.
  - unfold zk_fk20_multi_da_opt, zk_fk20_multi_da. rewrite W. destruct C as [-> | ->]; auto. destruct (2 ^ k <? length p * 2); auto.
Qed.

(** polynomials of another size than the batch settings were made for *)
Lemma C72_long_proof ks k n s m m' a fks fkm (p : list Fr) : zk_setup ks k n s -> a <= m -> m < m' -> S m' <= k -> length p = 2 ^ m' ->
  (zk_fk20_single_new ks (2 ^ S m) = Ok fks -> zk_fk20_single_da_opt fks p = Panic /\ zk_fk20_single_da fks p = Panic) /\
  (zk_fk20_multi_new ks (2 ^ S m) (2 ^ a) = Ok fkm -> zk_fk20_multi_da_opt fkm p = Panic /\ zk_fk20_multi_da fkm p = Panic).
Proof.
  intros H Ha Hm Hm' Lp. destruct (zk_setup_inv _ _ _ _ H) as (K32 & HS & HF & HN). pose proof HF as (W & _).
  assert (P2 := pow2_pos m'). assert (2 ^ S m' <= 2 ^ k) by (apply Nat.pow_le_mono_r; lia).
  assert (E2 : 2 ^ m' * 2 = 2 ^ S m') by (simpl; lia).
  split; intros E.
  - destruct (C72_single_new_proof ks k n s (2 ^ S m) H) as (_ & CN). destruct (CN m eq_refl ltac:(lia)) as (_ & CP).
    destruct (Nat.le_gt_cases (2 ^ m) (1 + n)) as [L|L]; [|rewrite CP in E by exact L; discriminate].
    rewrite zk_single_new_eq, (single_new_gen blst_table blst_table_ok tl0 ks s n k (root k)) in E by (auto; lia). injection E as <-.
    assert (2 ^ S m < 2 ^ S m') by (apply Nat.pow_lt_mono_r; lia).
    match goal with |- zk_fk20_single_da_opt ?fk p = _ /\ _ => assert (DA : fk20_single_da_opt fk p = Panic) end.
    { unfold fk20_single_da_opt. cbn [fks_kzg fks_x_ext_fft]. rewrite W, Lp, E2.
      destruct (Nat.ltb_spec (2 ^ k) (2 ^ S m')); [lia|]. rewrite is_pow2_pow. cbn [negb].
      unfold toeplitz_coeffs_step. rewrite (stride_spec p (2 ^ m') 1 0) by lia. cbn [bind]. rewrite E2.
      rewrite (part2_short_panics (kzg_fs ks) k (root k) HF (S m') 0); auto.
      - now rewrite map_length, seq_length.
      - now rewrite dft_length. }
    rewrite zk_single_da_eq, zk_single_da_opt_eq. split; [exact DA|]. unfold fk20_single_da. rewrite DA. cbn [fks_kzg]. rewrite W, Lp, E2.
    destruct (Nat.ltb_spec (2 ^ k) (2 ^ S m')); [lia|]. rewrite is_pow2_pow. reflexivity.
  - destruct (C72_multi_new_proof ks k n s (2 ^ S m) (2 ^ a) H) as (_ & CN). destruct (CN m a eq_refl eq_refl Ha ltac:(lia)) as (_ & CP).
    destruct (Nat.le_gt_cases (2 ^ m) (2 ^ a + n)) as [L|L]; [|rewrite CP in E by exact L; discriminate].
    rewrite zk_multi_new_eq, (multi_new_gen blst_table blst_table_ok tl0 ks s n k (root k)) in E by (auto; lia). injection E as <-.
    assert (Pa := pow2_pos a). assert (Pk := pow2_pos (m' - a)).
    assert (2 ^ S (m - a) < 2 ^ S (m' - a)) by (apply Nat.pow_lt_mono_r; lia).
    assert (Ek : 2 ^ (m' - a) * 2 = 2 ^ S (m' - a)) by (simpl; lia).
    assert (EM : 2 ^ m' = 2 ^ (m' - a) * 2 ^ a) by (rewrite <- Nat.pow_add_r; f_equal; lia).
    match goal with |- zk_fk20_multi_da_opt ?fk p = _ /\ _ => assert (DA : fk20_multi_da_opt fk p = Panic) end.
    { unfold fk20_multi_da_opt. cbn [fkm_kzg fkm_chunk_len fkm_files]. rewrite W, Lp, E2.
      destruct (Nat.ltb_spec (2 ^ k) (2 ^ S m')); [lia|]. rewrite is_pow2_pow. cbn [negb].
      destruct (Nat.eqb_spec (2 ^ a) 0); [lia|]. cbn [bind].
      assert (D : 2 ^ S m' / 2 = 2 ^ m') by (rewrite <- E2; now apply Nat.div_mul). rewrite D.
      assert (Dk : 2 ^ m' / 2 ^ a = 2 ^ (m' - a)) by (rewrite EM; apply Nat.div_mul; lia). rewrite Dk.
      set (l := 2 ^ a) in *. unfold for_range at 1. rewrite Nat.sub_0_r.
      destruct l as [|l'] eqn:El; [lia|]. cbn [for_]. rewrite <- El in *.
      rewrite (stride_spec p (2 ^ (m' - a)) l 0) by lia. cbn [bind].
      rewrite (idx_ok _ 0 []) by (rewrite map_length, seq_length; lia). cbn [bind]. rewrite nth_map_seq by lia. rewrite Ek.
      rewrite (part2_short_panics (kzg_fs ks) k (root k) HF (S (m' - a)) 0); auto.
      - lia.
      - now rewrite map_length, seq_length.
      - now rewrite dft_length. }
    rewrite zk_multi_da_eq, zk_multi_da_opt_eq by (cbn [fkm_chunk_len]; nia).
    split; [exact DA|]. unfold fk20_multi_da. rewrite DA. cbn [fkm_kzg]. rewrite W, Lp, E2.
    destruct (Nat.ltb_spec (2 ^ k) (2 ^ S m')); [lia|]. rewrite is_pow2_pow. reflexivity.
Qed.

(** a polynomial shorter than the chunk length panics, one shorter than the settings' size is accepted with wrong proofs *)
Lemma part2_total fs k w m (c : list Fr) (x : list (PG1 P)) : settings_ok fs k w -> m <= k -> length c = 2 ^ m -> 2 ^ m <= length x ->
  exists h, toeplitz_part_2 fs c x = Ok h.
Proof.
  intros HF Hm Lc Lx. unfold toeplitz_part_2. rewrite (fft_fr_spec fs k w m) by auto. cbn [unwrap bind].
  eexists. apply (Proof_Recovery.push_loop _ (fun i => smul (peval c (fpow (fpow w (2 ^ (k - m))) i)) (nth i x g0))).
  intros i l Hi. rewrite (idx_ok x i g0) by lia. cbn [bind]. rewrite (idx_ok _ i f0) by (rewrite length_map_seq; lia). cbn [bind].
  now rewrite nth_map_seq by lia.
Qed.

Lemma C72_short_multi_proof ks k n s m a b fk (p : list Fr) : zk_setup ks k n s -> S m <= k -> a <= m -> b < a ->
  zk_fk20_multi_new ks (2 ^ S m) (2 ^ a) = Ok fk -> length p = 2 ^ b -> zk_fk20_multi_da_opt fk p = Panic /\ zk_fk20_multi_da fk p = Panic.
Proof.
  intros H Hm Ha Hb E Lp. destruct (zk_setup_inv _ _ _ _ H) as (K32 & HS & HF & HN).
  destruct (C72_multi_new_proof ks k n s (2 ^ S m) (2 ^ a) H) as (_ & CN). destruct (CN m a eq_refl eq_refl Ha ltac:(lia)) as (_ & CP).
  destruct (Nat.le_gt_cases (2 ^ m) (2 ^ a + n)) as [L|L]; [|rewrite CP in E by exact L; discriminate].
  rewrite zk_multi_new_eq, (multi_new_gen blst_table blst_table_ok tl0 ks s n k (root k)) in E by (auto; lia). injection E as <-.
  assert (Pb := pow2_pos b). assert (2 ^ S b <= 2 ^ k) by (apply Nat.pow_le_mono_r; lia).
  assert (2 ^ b < 2 ^ a) by (apply Nat.pow_lt_mono_r; lia).
  assert (E2 : 2 ^ b * 2 = 2 ^ S b) by (simpl; lia). pose proof HF as (W & _).
  match goal with |- zk_fk20_multi_da_opt ?fk p = _ /\ _ => assert (DA : zk_fk20_multi_da_opt fk p = Panic) end.
  { unfold zk_fk20_multi_da_opt. cbn [fkm_kzg fkm_chunk_len fkm_files]. rewrite W, Lp, E2.
    destruct (Nat.ltb_spec (2 ^ k) (2 ^ S b)); [lia|]. rewrite is_pow2_pow. cbn [negb].
    destruct (Nat.eqb_spec (2 ^ a) 0); [lia|]. cbn [bind].
    assert (D : 2 ^ S b / 2 = 2 ^ b) by (rewrite <- E2; now apply Nat.div_mul). rewrite D.
    rewrite (Nat.div_small (2 ^ b) (2 ^ a)) by lia. change (0 * 2) with 0. cbn [repeat].
    unfold for_range at 1. rewrite Nat.sub_0_r. replace (2 ^ a) with (2 ^ b + S (2 ^ a - 2 ^ b - 1)) at 1 by lia.
    set (files := map _ (seq 0 (2 ^ a))).
    match goal with |- (let* h := for_ _ _ ?bd _ in _) = _ => set (body := bd) end.
    assert (ST : forall i, i < length p -> zk_toeplitz_coeffs_stride i (2 ^ a) p = Ok [nth (length p - 1 - i) p f0]).
    { intros i Hi. unfold zk_toeplitz_coeffs_stride. destruct (Nat.ltb_spec 0 (2 ^ a)); [|lia]. cbn [assert bind].
      rewrite (Nat.div_small (length p) (2 ^ a)) by lia. rewrite usub_ok by lia. cbn [bind]. rewrite usub_ok by lia. cbn [bind].
      rewrite (idx_ok p _ f0) by lia. cbn [bind]. change (0 * 2) with 0. change (0 + 2 <? 0) with false. cbv iota.
      unfold for_range. change (0 - 1) with 0. change (0 - (0 + 2)) with 0. cbn [for_ bind].
      rewrite usub_ok by lia. cbn [bind]. rewrite usub_ok by lia. reflexivity. }
    assert (G : for_ (2 ^ b) 0 body [] = Ok []).
    { assert (G' : forall t j, j + t <= 2 ^ b -> for_ t j body [] = Ok []).
      { induction t as [|t IH]; intros j Hj; [reflexivity|]. cbn [for_].
        assert (B : body j [] = Ok []).
        { unfold body. rewrite ST by lia. cbn [bind]. rewrite (idx_ok files j []) by (unfold files; rewrite length_map_seq; lia). cbn [bind].
          rewrite zk_part2_eq. destruct (part2_total (kzg_fs ks) k (root k) 0 [nth (length p - 1 - j) p f0] (nth j files [])) as (h & Eh); auto; [lia| |].
          - unfold files. rewrite nth_map_seq by lia. rewrite dft_length. change (2 ^ 0) with 1. assert (Q := pow2_pos (m - a)). lia.
          - rewrite Eh. reflexivity. }
        rewrite B. cbn [bind]. apply IH. lia. }
      apply G'. lia. }
    rewrite for_app, G. cbn [bind for_ Nat.add].
    assert (B : body (2 ^ b) [] = Panic).
    { unfold body. unfold zk_toeplitz_coeffs_stride. destruct (Nat.ltb_spec 0 (2 ^ a)); [|lia]. cbn [assert bind].
      rewrite Lp, usub_ok by lia. cbn [bind]. unfold usub. destruct (Nat.leb_spec (2 ^ b) (2 ^ b - 1)); [lia|reflexivity]. }
    rewrite B. reflexivity. }
  split; [exact DA|]. unfold zk_fk20_multi_da. rewrite DA. cbn [fkm_kzg]. rewrite W, Lp, E2.
  destruct (Nat.ltb_spec (2 ^ k) (2 ^ S b)); [lia|]. rewrite is_pow2_pow. reflexivity.
Qed.

Lemma C72_short_proof ks k n s fk (c : Fr) : zk_setup ks k n s -> 2 <= k -> 1 <= n -> c <> f0 ->
  zk_fk20_single_new ks 4 = Ok fk ->
  zk_fk20_single_da_opt fk [c] = Ok [smul c gen1; smul c gen1] /\
  forall x, zk_compute_proof_single zk_table ks [c] x = Ok g0.
Proof.
  intros H Hk Hn Hc E. destruct (zk_setup_inv _ _ _ _ H) as (K32 & HS & HF & HN). pose proof HF as (W & _).
  split.
  - change 4 with (2 ^ S 1) in E.
    rewrite zk_single_new_eq, (single_new_gen blst_table blst_table_ok tl0 ks s n k (root k)) in E by (auto; cbn; lia). injection E as <-.
    rewrite zk_single_da_opt_eq. unfold fk20_single_da_opt. cbn [fks_kzg fks_x_ext_fft]. rewrite W. change (length [c] * 2) with (2 ^ 1).
    assert (2 ^ 2 <= 2 ^ k) by (apply Nat.pow_le_mono_r; lia). change (2 ^ 2) with 4 in *.
    destruct (Nat.ltb_spec (2 ^ k) (2 ^ 1)) as [L|L]; [simpl in L; lia|]. rewrite is_pow2_pow. cbn [negb].
    unfold toeplitz_coeffs_step. rewrite (stride_spec [c] 1 1 0) by (auto; lia). cbn [bind].
    set (w2 := fpow (root k) (2 ^ (k - S 1))).
    assert (X : firstn 2 (dft w2 (2 ^ S 1) (xvec s (2 ^ 1) 1 0 ++ repeat g0 (2 ^ 1))) = dft (fpow (root k) (2 ^ (k - 1))) (2 ^ 1) [gen1 : PG1 P; g0]).
    { cbn [dft Nat.pow Nat.mul Nat.add seq map firstn gsum xvec app repeat nth Nat.ltb Nat.leb Nat.sub fpow].
      rewrite !smul_0_r, !gadd_0_l, !gadd_0_r, !smul_1. reflexivity. }
    rewrite part2_prefix by (rewrite dft_length; cbn; lia). change (length (map (tcoef [c] 1 1 0) (seq 0 (1 * 2)))) with 2. match goal with |- context [firstn 2 ?d] => replace (firstn 2 d) with (dft (fpow (root k) (2 ^ (k - 1))) (2 ^ 1) [gen1 : PG1 P; g0]) by (symmetry; exact X) end.
    rewrite (part2_spec (kzg_fs ks) k (root k) HF 1) by (auto; lia). cbn [bind].
    rewrite (part3_spec (kzg_fs ks) k (root k) HF 0) by (auto; lia). cbn [bind].
    rewrite (fft_g1_spec (kzg_fs ks) k (root k) 1) by (auto; lia). cbn [unwrap]. f_equal.
    set (w1 := fpow (root k) (2 ^ (k - 1))). clearbody w1.
    change (firstn (2 ^ 0) (cyc (2 ^ 1) (map (tcoef [c] 1 1 0) (seq 0 (1 * 2))) [gen1 : PG1 P; g0]))
      with [gadd (gadd g0 (smul c (gen1 : PG1 P))) (smul f0 g0)].
    cbn [dft Nat.pow Nat.mul Nat.add seq map gsum app repeat nth fpow].
    rewrite !smul_0_r, !gadd_0_l, !gadd_0_r, !smul_1. reflexivity.
  - intros x. unfold zk_compute_proof_single.
    destruct (zk_compute_value ks k n s [c] x 0 H) as (q & (Lq & _) & E'); [unfold fits; cbn; lia|cbn; lia|exists 0; exact Hc|].
    change (2 ^ 0) with 1 in E'. rewrite E'. cbn [length app repeat] in Lq.
    assert (BL := binomial_length (2 ^ 0) (fpow x (2 ^ 0)) ltac:(cbn; lia)). rewrite BL in Lq. 
    destruct q; [|discriminate]. f_equal. apply smul_0_l.
Qed.
End P.
