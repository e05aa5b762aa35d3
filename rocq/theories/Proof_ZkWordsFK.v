(** * Proof_ZkWordsFK: transforms of points and batch proofs on machine words *)
From Coq Require Import ZArith List Bool Lia Arith NArith.
From Verif Require Import Base Fld Tables Zr ZrTables Zp Poly Spec Spec_More Spec_Scalar Model_Scalar Proof_Scalar5 Spec_Fp Model_Fp Spec_Curve Proof_Curve
  Model_Curve Model_Fp2 Model_G1 Model_G2 Model_Pair Spec_CurveCode Spec_G1 Spec_G2 Proof_G1Base Proof_G1Mul Proof_GLV Proof_G1Gen Proof_G1Thm Proof_G1Top Proof_G1Mod
  Loops Model_Utils Proof_Utils Model_FFT Model_Poly Model_KZG Model_FK20 Model_Zk Model_ZkMsm Model_ZkKZG Model_ZkFK20 Spec_KZG Spec_ZkKZG Proof_KZG Proof_ZkKZG Proof_FFT Proof_FFTFr Proof_ZkFr Proof_FK20 Proof_FK20Fr Proof_ZkFK20
  Proof_Rel Model_ZkWords Spec_ZkWords Model_ZkWordsFK Spec_ZkWordsFK Proof_Concrete Proof_ZkWords Proof_ZkWordsTop Proof_ZkFKRel Proof_Recode Proof_CurveMul Proof_CurveCode.
Import ListNotations.
Local Open Scope nat_scope.

Notation B := bls_pairing.
(** ** the relation to the instance *)
Lemma R1_id : R1 zkw_g1_identity g0.
Proof. exact (proj1 words_g1_methods). Qed.
Lemma R1_addd a b a' b' : R1 a a' -> R1 b b' -> R1 (zkw_g1_add_or_dbl a b) (gadd a' b').
Proof. intros H H'. exact (proj1 (proj2 (proj2 (proj2 words_g1_methods)) _ _ _ _ H H')). Qed.
Definition safe (c : Fr) : Prop := ~ rounding_carries (val c).
Definition any (c : Fr) : Prop := True.
Lemma mul_safe checked a a' c : R1 a a' -> safe c -> orp False R1 (zkw_g1_mul checked a (fr_limbs c)) (Ok (smul c a')).
Proof. intros H S. right. destruct (R1_mul checked a a' _ c H (fr_limbs_rep c) S) as (q & E & RQ). rewrite E. exact RQ. Qed.
Lemma safe_dec c : {safe c} + {rounding_carries (val c)}.
Proof. unfold safe, rounding_carries. destruct (Z.eq_dec ((val c * 0x17c6becf1e01faadd63f6e522f6cfee2f / 2 ^ 255) mod 2 ^ 65) (2 ^ 65 - 1)) as [E|E]; [right|left]; exact E. Qed.
Lemma mul_any a a' c : R1 a a' -> any c -> orp True R1 (zkw_g1_mul true a (fr_limbs c)) (Ok (smul c a')).
Proof.
  intros H _. destruct (safe_dec c) as [S|S].
  - destruct (mul_safe true a a' c H S) as [[[] _]|E]. right. exact E.
  - left. split; [exact I|]. exact (g1_scalar_mul_panics _ _ _ (fr_limbs_rep c) S).
Qed.
Lemma orp_false {A C} (R : A -> C -> Prop) x y : orp False R x y -> rrel R x y.
Proof. intros [[[] _]|H]; exact H. Qed.
Lemma lift_points data Ps : Forall2 g1_stands data Ps -> Forall g1_subgroup Ps -> exists L : list (PG1 B), Forall2 R1 data L /\ map pt1 L = Ps.
Proof.
  intros H. induction H as [|d P data Ps HD _ IH]; intros HS; [exists []; split; [constructor|reflexivity]|].
  inversion HS as [|? ? SP SS]; subst. destruct (IH SS) as (L & HL & EL). destruct (in1 P SP) as (a & Ea). exists (a :: L).
  split; [constructor; [unfold R1; rewrite Ea; exact HD|exact HL]|]. cbn [map]. rewrite Ea, EL. reflexivity.
Qed.
Lemma pt1_sum n (f : nat -> PG1 B) : pt1 (gsum n f) = point_sum n (fun j => pt1 (f j)).
Proof.
  induction n as [|n IH]; [reflexivity|]. cbn [gsum point_sum]. rewrite <- IH. reflexivity.
Qed.
Lemma nth_pt1 (L : list (PG1 B)) j : nth j (map pt1 L) Infinity = pt1 (nth j L g0).
Proof. exact (map_nth pt1 L g0 j). Qed.
Lemma point_sum_ext n f g : (forall j, j < n -> f j = g j) -> point_sum n f = point_sum n g.
Proof. induction n as [|n IH]; intros H; [reflexivity|]. cbn [point_sum]. rewrite IH by (intros; apply H; lia). rewrite H by lia. reflexivity. Qed.

(** ** transforms *)
Lemma fs_inv k fs : zk_fft_settings_new zk_table k = Ok fs -> k < 32 /\ settings_ok fs k (root k).
Proof. rewrite zk_new_blst. apply new_inv. Qed.
Section KK.
Context {K : fld}.
Add Field Kfk : (fld_field K).
Lemma inv_pow_sub (w : K) n i : fpow w n = f1 -> i <= n -> fpow w (n - i) = fpow (finv w) i.
Proof.
  intros E L. rewrite fpow_inv. symmetry. apply finv_unique. rewrite <- fpow_add. replace (i + (n - i)) with n by lia. exact E.
Qed.
Lemma unit_pow_nz (w : K) n i : fpow w n = f1 -> n <> 0 -> fpow w i <> f0.
Proof. intros E N. apply fpow_neq_0. intros W. rewrite W, fpow_0_l in E by exact N. exact (Field_theory.F_1_neq_0 (fld_field K) (eq_sym E)). Qed.
End KK.
Lemma root_entry k fs m (inverse : bool) i : zk_fft_settings_new zk_table k = Ok fs -> m <= k -> i <= 2 ^ m ->
  nth_error (if inverse then reverse_roots fs else expanded_roots fs) (i * (max_width fs / 2 ^ m)) = Some (fpow (transform_root inverse m) i).
Proof.
  intros E Hm Hi. destruct (fs_inv k fs E) as (K32 & W & PR & _ & EX & RV). rewrite W.
  assert (D : 2 ^ k / 2 ^ m = 2 ^ (k - m)). { replace k with (k - m + m) at 1 by lia. rewrite Nat.pow_add_r, Nat.div_mul; [reflexivity|]. apply Nat.pow_nonzero. lia. }
  rewrite D. assert (EK : 2 ^ k = 2 ^ m * 2 ^ (k - m)) by (rewrite <- Nat.pow_add_r; f_equal; lia).
  assert (L : i * 2 ^ (k - m) <= 2 ^ k) by (rewrite EK; apply Nat.mul_le_mono_r; exact Hi).
  unfold transform_root. destruct inverse.
  - rewrite RV, (nth_pow (fun i => fpow (root k) (2 ^ k - i)) (S (2 ^ k)) _) by lia. f_equal.
    rewrite (inv_pow_sub (K:=Fr)) by (try exact (proj1 PR); auto). rewrite <- (root_pow k m) by auto.
    rewrite <- (fpow_inv (K:=Fr)). rewrite <- (fpow_mul (K:=Fr)). f_equal. lia.
  - rewrite EX, nth_pow by lia. f_equal. rewrite <- (root_pow k m) by auto. rewrite <- (fpow_mul (K:=Fr)). f_equal. lia.
Qed.

(** ** which scalars carry *)
Definition carry_b (v : Z) : bool := ((v * 0x17c6becf1e01faadd63f6e522f6cfee2f / 2 ^ 255) mod 2 ^ 65 =? 2 ^ 65 - 1)%Z.
Lemma carry_b_ok v : carry_b v = false -> ~ rounding_carries v.
Proof. unfold carry_b, rounding_carries. apply Z.eqb_neq. Qed.
Fixpoint none_carries (n : nat) (w v : Z) : bool :=
  match n with O => true | S n' => negb (carry_b v) && none_carries n' w ((v * w) mod r)%Z end.
Lemma none_carries_ok (w : Fr) n : forall (x : Fr), none_carries n (val w) (val x) = true -> forall i, i < n -> ~ rounding_carries (val (fmul x (fpow w i))).
Proof.
  induction n as [|n IH]; intros x H i Hi; [lia|]. cbn [none_carries] in H. apply andb_true_iff in H as [H1 H2]. apply negb_true_iff in H1.
  destruct i as [|i].
  - cbn [fpow]. rewrite (t_comm (K:=Fr)), t_one. apply carry_b_ok. exact H1.
  - cbn [fpow]. rewrite (t_assoc (K:=Fr)). apply IH; [|lia]. rewrite <- H2. f_equal.
Qed.
Definition inv2 : Z := 26217937587563095239723870254092982918845276250263818911301829349969290592257.
Lemma inv2_ok : val (finv (fnat 2 : Fr)) = inv2.
Proof.
  assert (E : finv (fnat 2 : Fr) = fr_of inv2).
  { apply finv_unique. apply val_inj. vm_compute. reflexivity. }
  rewrite E. vm_compute. reflexivity.
Qed.
Lemma inv_len_safe m : m < 32 -> safe (finv (fnat (2 ^ m) : Fr)).
Proof.
  intros Hm. rewrite (fnat_pow (K:=Fr)), <- (fpow_inv (K:=Fr)). unfold safe.
  rewrite <- (t_one (K:=Fr) (fpow _ m)). apply (none_carries_ok _ 32); [|exact Hm]. rewrite inv2_ok. vm_compute. reflexivity.
Qed.
Lemma small_table : none_carries (2 ^ 6) (val (root 6)) (val (f1 : Fr)) = true.
Proof. vm_compute. reflexivity. Qed.
Lemma safe_small m : m <= 6 -> safe_transforms m.
Proof.
  intros Hm.
  assert (T : forall i, i < 2 ^ 6 -> ~ rounding_carries (val (fpow (root 6) i))).
  { intros i Hi. rewrite <- (t_one (K:=Fr) (fpow _ i)). apply (none_carries_ok _ (2 ^ 6)); [exact small_table|exact Hi]. }
  assert (EP : 2 ^ 6 = 2 ^ (6 - m) * 2 ^ m) by (rewrite <- Nat.pow_add_r; f_equal; lia).
  assert (F : forall i, i < 2 ^ m -> ~ rounding_carries (val (fpow (root m) i))).
  { intros i Hi. rewrite <- (root_pow 6 m) by lia. rewrite <- (fpow_mul (K:=Fr)). apply T. rewrite EP. apply Nat.mul_lt_mono_pos_l; [apply pow2_pos|exact Hi]. }
  split; intros i Hi; unfold transform_root; [apply F; lia|].
  destruct i as [|i]; [apply (F 0); lia|].
  rewrite <- (inv_pow_sub (K:=Fr) (root m) (2 ^ m)); [apply F; lia|exact (proj1 (root_primitive m ltac:(lia)))|lia].
Qed.

(** ** transforms of points *)
Lemma roots_safe k fs m inverse : zk_fft_settings_new zk_table k = Ok fs -> m <= k -> safe_transform inverse m -> roots_ok safe fs (2 ^ m) inverse.
Proof.
  intros E Hm S. destruct (fs_inv k fs E) as (K32 & _). split.
  - intros i c Hi N. rewrite (root_entry k fs m inverse i E Hm ltac:(lia)) in N. injection N as <-. apply S. exact Hi.
  - intros _ c Ec. assert (EQ : c = finv (fnat (2 ^ m))) by (unfold zkf_inverse in Ec; destruct (feqb _ _); [discriminate|]; exact (f_equal (fun o => match o with Ok t => t | _ => c end) (eq_sym Ec))).
    rewrite EQ. apply inv_len_safe. lia.
Qed.
Lemma roots_any fs n inverse : roots_ok any fs n inverse.
Proof. split; intros; exact I. Qed.
(** the abstract transform, in terms of points *)
Lemma fft_points k fs m (L : list (PG1 B)) inverse : zk_fft_settings_new zk_table k = Ok fs -> m <= k -> length L = 2 ^ m ->
  exists out : list (PG1 B), zk_fft_g1 fs L inverse = Ok out /\ length out = 2 ^ m /\
    forall i, i < 2 ^ m -> exists a, nth_error out i = Some a /\ pt1 a = transform_point inverse m (map pt1 L) i.
Proof.
  intros E Hm LL. destruct (fs_inv k fs E) as (K32 & HS). rewrite zfftg.
  assert (P : forall w i, pt1 (gsum (2 ^ m) (fun j => smul (fpow w (i * j)) (nth j L g0))) = point_sum (2 ^ m) (fun j => point_zmul (val (fpow w (i * j))) (nth j (map pt1 L) Infinity))).
  { intros w i. rewrite pt1_sum. apply point_sum_ext. intros j _. rewrite nth_pt1. reflexivity. }
  destruct inverse.
  - rewrite (ifft_g1_spec fs k (root k) m) by auto. eexists. split; [reflexivity|]. split; [rewrite map_length; apply dft_length|].
    intros i Hi. unfold dft. rewrite map_map, nth_pow by exact Hi. eexists. split; [reflexivity|].
    rewrite (fpow_inv (K:=Fr)), root_pow by auto. unfold transform_point, transform_root. cbv iota zeta. rewrite <- P. reflexivity.
  - rewrite (fft_g1_spec fs k (root k) m) by auto. eexists. split; [reflexivity|]. split; [apply dft_length|].
    intros i Hi. unfold dft. rewrite nth_pow by exact Hi. eexists. split; [reflexivity|].
    rewrite root_pow by auto. unfold transform_point, transform_root. cbv iota zeta. rewrite <- P. reflexivity.
Qed.

Lemma R1_subb a b a' b' : R1 a a' -> R1 b b' -> R1 (zkw_g1_sub a b) (gsub a' b').
Proof. intros H H'. exact (proj1 (proj2 (proj2 (proj2 (proj2 (proj2 words_g1_methods)) _ _ _ _ H H')))). Qed.
Lemma rel_entry (out : list g1_projective) (L : list (PG1 B)) i a : Forall2 R1 out L -> nth_error L i = Some a -> exists w, nth_error out i = Some w /\ g1_stands w (pt1 a).
Proof.
  intros H. revert i. induction H as [|w b out L HW _ IH]; intros i E; [destruct i; discriminate|]. destruct i as [|i].
  - exists w. split; [reflexivity|]. assert (EQ : b = a) by (exact (f_equal (fun o => match o with Some t => t | None => b end) E)). rewrite <- EQ. exact HW.
  - apply IH. exact E.
Qed.
Lemma holds_of out (L : list (PG1 B)) n f : Forall2 R1 out L -> length L = n -> (forall i, i < n -> exists a, nth_error L i = Some a /\ pt1 a = f i) -> holds out n f.
Proof.
  intros H EL HE. split; [rewrite (Forall2_length _ _ _ H); exact EL|]. intros i Hi. destruct (HE i Hi) as (a & Ea & Ep).
  destruct (rel_entry out L i a H Ea) as (w & Ew & S). exists w. split; [exact Ew|]. rewrite <- Ep. exact S.
Qed.
Lemma rrel_ok {A C} (R : A -> C -> Prop) x c : rrel R x (Ok c) -> exists a, x = Ok a /\ R a c.
Proof. destruct x as [a| | |]; cbn [rrel]; intros H; try contradiction. exists a. split; [reflexivity|exact H]. Qed.
Lemma rrel_err {A C} (R : A -> C -> Prop) x : rrel R x (Err : res C) -> x = Err.
Proof. destruct x as [a| | |]; cbn [rrel]; intros H; try contradiction. reflexivity. Qed.
Lemma rrel_panic {A C} (R : A -> C -> Prop) x : rrel R x (Panic : res C) -> x = Panic.
Proof. destruct x as [a| | |]; cbn [rrel]; intros H; try contradiction. reflexivity. Qed.

Theorem words_transform checked k fs m data Ps inverse : zk_fft_settings_new zk_table k = Ok fs -> m <= k -> length data = 2 ^ m ->
  Forall2 g1_stands data Ps -> Forall g1_subgroup Ps -> safe_transform inverse m ->
  exists out, zkw_fft_g1 checked fs data inverse = Ok out /\ holds out (2 ^ m) (transform_point inverse m Ps).
Proof.
  intros E Hm LD HD HS SF. destruct (lift_points data Ps HD HS) as (L & HL & EL).
  assert (LL : length L = 2 ^ m) by (rewrite <- (Forall2_length _ _ _ HL); exact LD).
  destruct (fft_points k fs m L inverse E Hm LL) as (o & Eo & Lo & Ho).
  pose proof (@fft_rel _ R1 checked False safe R1_id R1_addd R1_subb (mul_safe checked) fs data L inverse HL) as F.
  rewrite LD in F. specialize (F (roots_safe k fs m inverse E Hm SF)). apply orp_false in F. rewrite Eo in F. apply rrel_ok in F as (out & EO & RO).
  exists out. split; [exact EO|]. apply (holds_of out o); [exact RO|exact Lo|]. rewrite <- EL. exact Ho.
Qed.
(** with overflow checks, whatever the roots *)
Theorem words_transform_checked k fs m data Ps inverse : zk_fft_settings_new zk_table k = Ok fs -> m <= k -> length data = 2 ^ m ->
  Forall2 g1_stands data Ps -> Forall g1_subgroup Ps ->
  zkw_fft_g1 true fs data inverse = Panic \/
  exists out, zkw_fft_g1 true fs data inverse = Ok out /\ holds out (2 ^ m) (transform_point inverse m Ps).
Proof.
  intros E Hm LD HD HS. destruct (lift_points data Ps HD HS) as (L & HL & EL).
  assert (LL : length L = 2 ^ m) by (rewrite <- (Forall2_length _ _ _ HL); exact LD).
  destruct (fft_points k fs m L inverse E Hm LL) as (o & Eo & Lo & Ho).
  pose proof (@fft_rel _ R1 true True any R1_id R1_addd R1_subb mul_any fs data L inverse HL (roots_any _ _ _)) as F.
  destruct F as [[_ F]|F]; [left; exact F|right]. rewrite Eo in F. apply rrel_ok in F as (out & EO & RO).
  exists out. split; [exact EO|]. apply (holds_of out o); [exact RO|exact Lo|]. rewrite <- EL. exact Ho.
Qed.
Theorem words_round_trip checked k fs m data Ps inverse : zk_fft_settings_new zk_table k = Ok fs -> m <= k -> length data = 2 ^ m ->
  Forall2 g1_stands data Ps -> Forall g1_subgroup Ps -> safe_transforms m ->
  exists out back, zkw_fft_g1 checked fs data inverse = Ok out /\ zkw_fft_g1 checked fs out (negb inverse) = Ok back /\ Forall2 g1_stands back Ps.
Proof.
  intros E Hm LD HD HS [SF SI]. destruct (lift_points data Ps HD HS) as (L & HL & EL).
  assert (LL : length L = 2 ^ m) by (rewrite <- (Forall2_length _ _ _ HL); exact LD).
  assert (ST : forall b, safe_transform b m) by (intros []; assumption).
  assert (A : exists o, zk_fft_g1 fs L inverse = Ok o /\ zk_fft_g1 fs o (negb inverse) = Ok L).
  { destruct (C65_g1_proof _ k fs m L E Hm LL) as (o & Eo & _ & _ & Eb & (o2 & E2 & E3)). destruct inverse; cbn [negb]; eexists; split; eassumption. }
  destruct A as (o & Eo & Eb).
  pose proof (@fft_rel _ R1 checked False safe R1_id R1_addd R1_subb (mul_safe checked) fs data L inverse HL) as F.
  rewrite LD in F. specialize (F (roots_safe k fs m inverse E Hm (ST _))). apply orp_false in F. rewrite Eo in F. apply rrel_ok in F as (out & EO & RO).
  pose proof (@fft_rel _ R1 checked False safe R1_id R1_addd R1_subb (mul_safe checked) fs out o (negb inverse) RO) as G.
  assert (LO : length out = 2 ^ m) by (rewrite (fft_len checked fs data inverse out EO); exact LD).
  rewrite LO in G. specialize (G (roots_safe k fs m (negb inverse) E Hm (ST _))). apply orp_false in G. rewrite Eb in G. apply rrel_ok in G as (back & EB & RB).
  exists out, back. split; [exact EO|]. split; [exact EB|]. rewrite <- EL. clear - RB. induction RB; cbn [map]; constructor; assumption.
Qed.
Theorem words_transform_errors checked k fs data inverse : zk_fft_settings_new zk_table k = Ok fs -> ~ acceptable fs (length data) ->
  zkw_fft_g1 checked fs data inverse = Err.
Proof.
  intros E NA. unfold zkw_fft_g1. destruct (fs_inv k fs E) as (K32 & HS). destruct (not_acceptable fs k _ HS NA) as [L|NP].
  - rewrite (proj1 HS). destruct (Nat.ltb_spec (2 ^ k) (length data)); [reflexivity|lia].
  - destruct (_ <? _); [reflexivity|]. unfold zk_is_pow2. destruct (is_pow2 (length data)) eqn:P2; [|reflexivity].
    apply is_pow2_spec in P2 as (m & P2). elim (NP m P2).
Qed.

(** ** when a multiplication panics *)
Definition related (w : g1_projective) : Prop := exists a, R1 w a.
Lemma mul_panics w (c : Fr) : rounding_carries (val c) -> zkw_g1_mul true w (fr_limbs c) = Panic.
Proof. intros H. exact (g1_scalar_mul_panics _ _ _ (fr_limbs_rep c) H). Qed.
Lemma mul_total w (c : Fr) : related w -> zkw_g1_mul true w (fr_limbs c) = Panic \/ exists v, zkw_g1_mul true w (fr_limbs c) = Ok v /\ related v.
Proof.
  intros (a & H). destruct (mul_any w a c H I) as [[_ E]|E]; [left; exact E|right]. apply rrel_ok in E as (v & E & RV). exists v. split; [exact E|]. exists (smul c a). exact RV.
Qed.
Lemma idx_total {A} (l : list A) i : idx l i = Panic \/ exists a, idx l i = Ok a /\ In a l.
Proof. unfold idx. destruct (nth_error l i) as [a|] eqn:E; [right; exists a; split; [reflexivity|eapply nth_error_In; exact E]|left; reflexivity]. Qed.
Lemma set_Forall {A} (Q : A -> Prop) (l : list A) a : Q a -> Forall Q l -> forall i, Forall Q (set l i a).
Proof. intros HA H. induction H as [|x l HX HL IH]; intros i; [destruct i; constructor|]. destruct i as [|i]; cbn [set]; constructor; auto. Qed.
Lemma upd_total {A} (Q : A -> Prop) (l : list A) i a : Forall Q l -> Q a -> upd l i a = Panic \/ exists o, upd l i a = Ok o /\ length o = length l /\ Forall Q o.
Proof.
  intros H HA. unfold upd. destruct (i <? length l) eqn:E; [right|left; reflexivity]. eexists. split; [reflexivity|].
  split; [apply (upd_len l i a); unfold upd; rewrite E; reflexivity|apply set_Forall; assumption].
Qed.
Lemma rel_related l (L : list (PG1 B)) : Forall2 R1 l L -> Forall related l.
Proof. intros H. induction H as [|w a l L HW _ IH]; constructor; [exists a; exact HW|exact IH]. Qed.
Lemma sub_related a b : related a -> related b -> related (zkw_g1_sub a b).
Proof. intros (x & H) (y & H'). exists (gsub x y). apply R1_subb; assumption. Qed.
Lemma add_related a b : related a -> related b -> related (zkw_g1_add_or_dbl a b).
Proof. intros (x & H) (y & H'). exists (gadd x y). apply R1_addd; assumption. Qed.
Definition butterfly_body (roots : list Fr) (rs split : nat) (i : nat) (ret : list g1_projective) : res (list g1_projective) :=
  let* y := idx ret (i + split) in
  let* r := idx roots (i * rs) in
  let* y_times_root := zkw_g1_mul true y (fr_limbs r) in
  let* x := idx ret i in
  let* ret := upd ret (i + split) (zkw_g1_sub x y_times_root) in
  let* x := idx ret i in
  upd ret i (zkw_g1_add_or_dbl x y_times_root).
Lemma butterfly_total roots rs split i ret : Forall related ret ->
  butterfly_body roots rs split i ret = Panic \/ exists o, butterfly_body roots rs split i ret = Ok o /\ Forall related o.
Proof.
  intros H. unfold butterfly_body. rewrite Forall_forall in H.
  destruct (idx_total ret (i + split)) as [->|(y & -> & Iy)]; cbn [bind]; [left; reflexivity|].
  destruct (idx_total roots (i * rs)) as [->|(c & -> & _)]; cbn [bind]; [left; reflexivity|].
  destruct (mul_total y c (H y Iy)) as [->|(v & -> & RV)]; cbn [bind]; [left; reflexivity|].
  destruct (idx_total ret i) as [->|(x & -> & Ix)]; cbn [bind]; [left; reflexivity|].
  assert (HF : Forall related ret) by (apply Forall_forall; exact H).
  destruct (upd_total related ret (i + split) (zkw_g1_sub x v) HF (sub_related _ _ (H x Ix) RV)) as [->|(o & -> & _ & HO)]; cbn [bind]; [left; reflexivity|].
  destruct (idx_total o i) as [->|(x2 & -> & Ix2)]; cbn [bind]; [left; reflexivity|]. rewrite Forall_forall in HO. pose proof (HO x2 Ix2) as R2x.
  assert (HF2 : Forall related o) by (apply Forall_forall; exact HO).
  destruct (upd_total related o i (zkw_g1_add_or_dbl x2 v) HF2 (add_related _ _ R2x RV)) as [->|(o2 & -> & _ & HO2)]; [left; reflexivity|]. right. exists o2. split; [reflexivity|exact HO2].
Qed.
Lemma butterfly_panics (roots : list Fr) rs split i ret (c : Fr) : nth_error roots (i * rs) = Some c -> rounding_carries (val c) -> butterfly_body roots rs split i ret = Panic.
Proof.
  intros N C. unfold butterfly_body. destruct (idx_total ret (i + split)) as [->|(y & -> & _)]; cbn [bind]; [reflexivity|].
  replace (idx roots (i * rs)) with (Ok c) by (unfold idx; rewrite N; reflexivity). cbn [bind]. rewrite (mul_panics y c C). reflexivity.
Qed.
Lemma fast_panics fuel ret data stride (roots : list Fr) rs (ret' data' o : list (PG1 B)) i (c : Fr) : Forall2 R1 ret ret' -> Forall2 R1 data data' ->
  fft_g1_fast_ (S fuel) ret' data' stride roots rs = Ok o -> i < length ret / 2 -> nth_error roots (i * rs) = Some c -> rounding_carries (val c) ->
  zkw_fft_g1_fast_ true (S fuel) ret data stride roots rs = Panic.
Proof.
  intros HR HD E Hi N C. cbn [zkw_fft_g1_fast_]. cbn [fft_g1_fast_] in E. rewrite <- (Forall2_length _ _ _ HR) in E.
  set (sp := length ret / 2) in *. destruct (Nat.ltb_spec 0 sp) as [_|L]; [|lia].
  apply bind_ok in E as (lo & E1 & E). apply bind_ok in E as (d & E2 & E). apply bind_ok in E as (hi & E3 & _).
  assert (RL : orp True (Forall2 R1) (zkw_fft_g1_fast_ true fuel (firstn sp ret) data (stride * 2) roots (rs * 2)) (Ok lo)).
  { rewrite <- E1. apply (@fast_rel _ R1 true True any R1_addd R1_subb mul_any); [apply firstn_rel; exact HR|exact HD|intros; exact I]. }
  destruct RL as [[_ RL]|RL]; [rewrite RL; reflexivity|]. apply rrel_ok in RL as (wlo & EL & RLO). rewrite EL. cbn [bind].
  assert (RD : rrel (Forall2 R1) (slice_from data stride) (Ok d)) by (rewrite <- E2; apply slice_from_rel; exact HD).
  apply rrel_ok in RD as (wd & ED & RDD). rewrite ED. cbn [bind].
  assert (RH : orp True (Forall2 R1) (zkw_fft_g1_fast_ true fuel (skipn sp ret) wd (stride * 2) roots (rs * 2)) (Ok hi)).
  { rewrite <- E3. apply (@fast_rel _ R1 true True any R1_addd R1_subb mul_any); [apply skipn_rel; exact HR|exact RDD|intros; exact I]. }
  destruct RH as [[_ RH]|RH]; [rewrite RH; reflexivity|]. apply rrel_ok in RH as (whi & EH & RHI). rewrite EH. cbn [bind].
  unfold for_range. rewrite Nat.sub_0_r. apply (for_panics (Forall related) (butterfly_body roots rs sp) sp 0 i).
  - intros j s' _. apply butterfly_total.
  - intros s' _. apply (butterfly_panics roots rs sp i s' c N C).
  - lia.
  - apply Forall_app. split; eapply rel_related; eassumption.
Qed.
Theorem words_transform_panics k fs m data Ps inverse i : zk_fft_settings_new zk_table k = Ok fs -> m <= k -> length data = 2 ^ m ->
  Forall2 g1_stands data Ps -> Forall g1_subgroup Ps -> 1 <= m -> 2 * i < 2 ^ m -> rounding_carries (val (fpow (transform_root inverse m) i)) ->
  zkw_fft_g1 true fs data inverse = Panic.
Proof.
  intros E Hm LD HD HS M1 Hi C. destruct (lift_points data Ps HD HS) as (L & HL & EL).
  assert (LL : length L = 2 ^ m) by (rewrite <- (Forall2_length _ _ _ HL); exact LD).
  destruct (fft_points k fs m L inverse E Hm LL) as (o & Eo & _ & _). rewrite zfftg in Eo. unfold fft_g1 in Eo. unfold zkw_fft_g1, zk_is_pow2. rewrite LD. rewrite LL in Eo.
  destruct (max_width fs <? 2 ^ m); [discriminate|]. destruct (negb (is_pow2 (2 ^ m))); [discriminate|]. cbv zeta in *.
  apply bind_ok in Eo as (ret & Er & _). unfold fft_g1_fast in Er. unfold zkw_fft_g1_fast.
  rewrite repeat_length in *.
  rewrite (fast_panics (2 ^ m) (repeat zkw_g1_identity (2 ^ m)) data 1 (if inverse then reverse_roots fs else expanded_roots fs) (max_width fs / 2 ^ m) (repeat g0 (2 ^ m)) L ret i (fpow (transform_root inverse m) i)); [reflexivity|..].
  - apply repeat_rel. exact R1_id.
  - exact HL.
  - exact Er.
  - rewrite repeat_length. destruct m as [|m]; [lia|]. rewrite Nat.pow_succ_r' in *. rewrite Nat.mul_comm, Nat.div_mul by lia. lia.
  - apply (root_entry k fs m inverse i E Hm). lia.
  - exact C.
Qed.

(** the quadratic transform *)
Theorem words_slow checked k fs m ret data Ps inverse : zk_fft_settings_new zk_table k = Ok fs -> m <= k -> length data = 2 ^ m -> length ret = 2 ^ m ->
  Forall2 g1_stands data Ps -> Forall g1_subgroup Ps -> Forall (fun w => exists Q, g1_subgroup Q /\ g1_stands w Q) ret ->
  (forall i, i < 2 ^ m -> ~ rounding_carries (val (fpow (transform_root inverse m) i))) ->
  exists out, zkw_fft_g1_slow checked ret data 1 (if inverse then reverse_roots fs else expanded_roots fs) (max_width fs / 2 ^ m) = Ok out /\
    holds out (2 ^ m) (fun i => point_sum (2 ^ m) (fun j => point_zmul (val (fpow (transform_root inverse m) (i * j))) (nth j Ps Infinity))).
Proof.
  intros E Hm LD LR HD HS HR SF. destruct (lift_points data Ps HD HS) as (L & HL & EL).
  assert (LL : length L = 2 ^ m) by (rewrite <- (Forall2_length _ _ _ HL); exact LD).
  assert (RR : exists L' : list (PG1 B), Forall2 R1 ret L').
  { clear - HR. induction HR as [|w ret (Q & SQ & HQ) _ (L' & IH)]; [exists []; constructor|]. destruct (in1 Q SQ) as (a & Ea). exists (a :: L'). constructor; [unfold R1; rewrite Ea; exact HQ|exact IH]. }
  destruct RR as (L' & HR'). assert (LR' : length L' = 2 ^ m) by (rewrite <- (Forall2_length _ _ _ HR'); exact LR).
  destruct (fs_inv k fs E) as (K32 & _). assert (P2 := pow2_pos m).
  assert (W : fpow (transform_root inverse m) (2 ^ m) = f1).
  { unfold transform_root. pose proof (proj1 (root_primitive m ltac:(lia))) as P1. destruct inverse; [|exact P1].
    rewrite <- (inv_pow_sub (K:=Fr) (root m) (2 ^ m) (2 ^ m)); [rewrite Nat.sub_diag; reflexivity|exact P1|lia]. }
  pose proof (@slow_rel _ R1 checked False safe R1_addd (mul_safe checked) ret L' data L 1 (if inverse then reverse_roots fs else expanded_roots fs) (max_width fs / 2 ^ m) HR' HL) as F.
  assert (RE : forall i c, i < 2 ^ m -> nth_error (if inverse then reverse_roots fs else expanded_roots fs) (i * (max_width fs / 2 ^ m)) = Some c -> safe c).
  { intros i c Hi N. rewrite (root_entry k fs m inverse i E Hm ltac:(lia)) in N.
    assert (EC : c = fpow (transform_root inverse m) i) by (exact (f_equal (fun o => match o with Some t => t | None => c end) (eq_sym N))). rewrite EC. apply SF. exact Hi. }
  specialize (F ltac:(intros c N; apply (RE 0); [lia|exact N]) ltac:(rewrite LD; intros i j c Hi Hj N; apply (RE _ c ltac:(apply Nat.mod_upper_bound; lia) N))).
  apply orp_false in F. rewrite (fft_g1_slow_spec (transform_root inverse m) (2 ^ m) L' L 1) in F; [|exact LR'|exact LL|exact P2|lia|intros i Hi; unfold idx; rewrite (root_entry k fs m inverse i E Hm ltac:(lia)); reflexivity|exact W].
  apply rrel_ok in F as (out & EO & RO). exists out. split; [exact EO|]. eapply holds_of; [exact RO|rewrite map_length, seq_length; reflexivity|].
  intros i Hi. rewrite nth_pow by exact Hi. eexists. split; [reflexivity|]. rewrite pt1_sum. apply point_sum_ext. intros j _. rewrite Nat.mul_1_r, <- EL, nth_pt1. reflexivity.
Qed.

(** ** batch proofs *)
Lemma krel_ksr ks KS : krel ks KS -> ksr R1 ks KS.
Proof. intros (HF & H1 & _). split; assumption. Qed.
Lemma coeffs_cs k fs p e len off tc : zk_fft_settings_new zk_table k = Ok fs -> S e <= k -> off < len -> length p = 2 ^ e * len ->
  zk_toeplitz_coeffs_stride off len p = Ok tc ->
  length tc = 2 ^ S e /\ exists cs, zk_fft_fr fs tc false = Ok cs /\ length cs = 2 ^ S e /\ forall i, i < 2 ^ S e -> nth_error cs i = Some (multiplier p e len off i).
Proof.
  intros E He Ho LP ET. assert (P2 := pow2_pos e). rewrite zk_stride_eq in ET by nia. rewrite (stride_spec p (2 ^ e) len off P2 Ho LP) in ET.
  assert (EC : tc = circulant p (2 ^ e) len off) by (exact (f_equal (fun o => match o with Ok t => t | _ => tc end) (eq_sym ET))).
  assert (LT : length tc = 2 ^ S e) by (rewrite EC; unfold circulant; rewrite map_length, seq_length, Nat.pow_succ_r'; lia).
  split; [exact LT|]. destruct (proj1 (C65_fr_proof k fs tc E) (S e) He LT) as (cs & Ec & Lc & Hc). exists cs. split; [exact Ec|]. split; [exact Lc|].
  intros i Hi. rewrite (Hc i Hi), EC. reflexivity.
Qed.
Lemma coeffs_safe k fs p e len off tc : zk_fft_settings_new zk_table k = Ok fs -> S e <= k -> off < len -> length p = 2 ^ e * len ->
  safe_multipliers p e len -> zk_toeplitz_coeffs_stride off len p = Ok tc -> coeffs_ok safe fs tc.
Proof.
  intros E He Ho LP SM ET cs c Ec IC. destruct (coeffs_cs k fs p e len off tc E He Ho LP ET) as (LT & cs' & Ec' & Lc & Hc).
  assert (EQ : cs = cs') by (rewrite Ec' in Ec; exact (f_equal (fun o => match o with Ok t => t | _ => cs end) (eq_sym Ec))).
  rewrite EQ in IC. apply In_nth_error in IC as (i & Hi). assert (LI : i < 2 ^ S e) by (rewrite <- Lc; apply nth_error_Some; rewrite Hi; discriminate).
  rewrite (Hc i LI) in Hi. assert (EV : c = multiplier p e len off i) by (exact (f_equal (fun o => match o with Some t => t | None => c end) (eq_sym Hi))).
  rewrite EV. apply SM; assumption.
Qed.
Lemma single_new_inv (KS : kzg_settings B) n FK : zk_fk20_single_new KS n = Ok FK -> fks_kzg FK = KS.
Proof.
  unfold zk_fk20_single_new. cbv zeta. destruct (_ <? _); [discriminate|]. destruct (negb _); [discriminate|]. destruct (_ <? _); [discriminate|]. intros E.
  apply bind_ok in E as (a & _ & E). apply bind_ok in E as (x & _ & E). apply bind_ok in E as (f & _ & E).
  assert (EQ : FK = {| fks_kzg := KS; fks_x_ext_fft := f |}) by (exact (f_equal (fun o => match o with Ok t => t | _ => FK end) (eq_sym E))). rewrite EQ. reflexivity.
Qed.
Lemma multi_new_inv (KS : kzg_settings B) n c FK : zk_fk20_multi_new KS n c = Ok FK -> fkm_kzg FK = KS /\ fkm_chunk_len FK = c.
Proof.
  unfold zk_fk20_multi_new. cbv zeta. destruct (_ <? _); [discriminate|]. destruct (negb _); [discriminate|]. destruct (_ <? _); [discriminate|]. destruct (_ <? _); [discriminate|]. destruct (negb _); [discriminate|]. intros E.
  apply bind_ok in E as (f & _ & E). match type of E with Ok ?tt0 = _ => assert (EQ : FK = tt0) by (exact (f_equal (fun o => match o with Ok t => t | _ => FK end) (eq_sym E))) end. rewrite EQ. split; reflexivity.
Qed.
Lemma single_batch ks KS k n s m p out O : krel ks KS -> zk_setup KS k n s -> Forall2 R1 out O -> length O = 2 ^ S m ->
  ((exists i, coef p i <> f0) -> forall i, i < 2 ^ S m -> exists pf, zk_compute_proof_single zk_table KS p (fpow (root (S m)) i) = Ok pf /\ nth_error O i = Some pf) ->
  ((forall i, coef p i = f0) -> O = repeat g0 (2 ^ S m)) -> right_batch ks p m m 1 out.
Proof.
  intros HK HS HO LO HN HZ. split; [rewrite (Forall2_length _ _ _ HO); exact LO|]. split.
  - intros NZ i Hi. destruct (HN NZ i Hi) as (a & Ea & Na). destruct (rel_entry out O i a HO Na) as (w & Ew & Sw).
    pose proof (compute_rel ks KS p (fpow (root (S m)) i) 1 HK) as RC. unfold zk_compute_proof_single in Ea. rewrite Ea in RC. apply rrel_ok in RC as (pf & EP & RP).
    exists w, pf, (pt1 a). split; [exact Ew|]. split; [exact EP|]. split; [exact (pt1_sub a)|]. split; [exact RP|exact Sw].
  - intros Z i Hi. specialize (HZ Z). destruct (rel_entry out O i g0 HO) as (w & Ew & Sw); [rewrite HZ; apply nth_error_repeat; exact Hi|]. exists w. split; [exact Ew|exact Sw].
Qed.
Lemma multi_batch ks KS k n s m e len p out O : krel ks KS -> zk_setup KS k n s -> Forall2 R1 out O -> length O = 2 ^ S e ->
  ((exists i, coef p i <> f0) -> forall i, i < 2 ^ S e -> exists pf, zk_compute_proof_multi zk_table KS p (fpow (root (S m)) i) len = Ok pf /\ nth_error O i = Some pf) ->
  ((forall i, coef p i = f0) -> O = repeat g0 (2 ^ S e)) -> right_batch ks p m e len out.
Proof.
  intros HK HS HO LO HN HZ. split; [rewrite (Forall2_length _ _ _ HO); exact LO|]. split.
  - intros NZ i Hi. destruct (HN NZ i Hi) as (a & Ea & Na). destruct (rel_entry out O i a HO Na) as (w & Ew & Sw).
    pose proof (compute_rel ks KS p (fpow (root (S m)) i) len HK) as RC. rewrite Ea in RC. apply rrel_ok in RC as (pf & EP & RP).
    exists w, pf, (pt1 a). split; [exact Ew|]. split; [exact EP|]. split; [exact (pt1_sub a)|]. split; [exact RP|exact Sw].
  - intros Z i Hi. specialize (HZ Z). destruct (rel_entry out O i g0 HO) as (w & Ew & Sw); [rewrite HZ; apply nth_error_repeat; exact Hi|]. exists w. split; [exact Ew|exact Sw].
Qed.
Lemma single_da_of checked fk p e out : e < 63 -> length out = 2 ^ S e -> zkw_fk20_single_da_opt checked fk p = Ok out ->
  exists rev, zkw_fk20_single_da checked fk p = Ok rev /\ reversed e out rev.
Proof.
  intros He LO E. destruct (reverse_bit_order_correct (S e) out ltac:(lia) LO) as (l & El & Ll & I & _). exists l. split; [|split; [exact Ll|exact I]].
  pose proof E as E'. unfold zkw_fk20_single_da_opt in E'. unfold zkw_fk20_single_da. cbv zeta in *. destruct (_ <? _); [discriminate|]. destruct (negb _); [discriminate|]. rewrite E. exact El.
Qed.
Lemma single_da_panic checked fk p : zkw_fk20_single_da_opt checked fk p = Panic -> zkw_fk20_single_da checked fk p = Panic.
Proof.
  intros E. pose proof E as E'. unfold zkw_fk20_single_da_opt in E'. unfold zkw_fk20_single_da. cbv zeta in *. destruct (_ <? _); [discriminate|]. destruct (negb _); [discriminate|]. rewrite E. reflexivity.
Qed.
Lemma multi_da_of checked fk p e out : e < 63 -> length out = 2 ^ S e -> zkw_fk20_multi_da_opt checked fk p = Ok out ->
  exists rev, zkw_fk20_multi_da checked fk p = Ok rev /\ reversed e out rev.
Proof.
  intros He LO E. destruct (reverse_bit_order_correct (S e) out ltac:(lia) LO) as (l & El & Ll & I & _). exists l. split; [|split; [exact Ll|exact I]].
  pose proof E as E'. unfold zkw_fk20_multi_da_opt in E'. unfold zkw_fk20_multi_da. cbv zeta in *. destruct (_ <? _); [discriminate|]. destruct (negb _); [discriminate|]. rewrite E. exact El.
Qed.
Lemma multi_da_panic checked fk p : zkw_fk20_multi_da_opt checked fk p = Panic -> zkw_fk20_multi_da checked fk p = Panic.
Proof.
  intros E. pose proof E as E'. unfold zkw_fk20_multi_da_opt in E'. unfold zkw_fk20_multi_da. cbv zeta in *. destruct (_ <? _); [discriminate|]. destruct (negb _); [discriminate|]. rewrite E. reflexivity.
Qed.
Lemma setup_fs (KS : kzg_settings B) k n s : zk_setup KS k n s -> zk_fft_settings_new zk_table k = Ok (kzg_fs KS) /\ k < 32.
Proof. intros H. destruct (zk_setup_inv _ _ _ _ H) as (K32 & _ & _ & HN). rewrite zk_new_blst. split; assumption. Qed.
Section Mode.
Variables (checked : bool) (may : Prop) (ok : Fr -> Prop).
Hypothesis Rmul : forall a a' c, R1 a a' -> ok c -> orp may R1 (zkw_g1_mul checked a (fr_limbs c)) (Ok (smul c a')).
(** the constructor and the two methods, against the instance *)
Lemma single_mode ks KS k n s m p : krel ks KS -> zk_setup KS k n s -> S m <= k -> 2 ^ m <= 1 + n -> length p = 2 ^ m ->
  da_ok ok (kzg_fs KS) (2 ^ S m) -> (forall tc, zk_toeplitz_coeffs_stride 0 1 p = Ok tc -> coeffs_ok ok (kzg_fs KS) tc) ->
  exists FK O, orp may (sgr R1) (zkw_fk20_single_new checked ks (2 ^ S m)) (Ok FK) /\
    (forall fk, sgr R1 fk FK -> orp may (Forall2 R1) (zkw_fk20_single_da_opt checked fk p) (Ok O)) /\
    (forall out, Forall2 R1 out O -> right_batch ks p m m 1 out).
Proof.
  intros HK HS Hm Hn LP DO CO. destruct (C72_single_proof KS k n s m p HS Hm Hn LP) as (FK & O & EF & EO & LO & NZ & Z & _).
  destruct (setup_fs KS k n s HS) as (E & K32). pose proof (single_new_inv KS (2 ^ S m) FK EF) as EK.
  exists FK, O. split; [|split].
  - rewrite <- EF. apply (@single_new_rel _ R1 checked may ok R1_id R1_addd R1_subb Rmul); [exact (krel_ksr _ _ HK)|]. intros _ _. exact (proj1 DO).
  - intros fk HF. rewrite <- EO. apply (@single_da_opt_rel _ R1 checked may ok R1_id R1_addd R1_subb Rmul); [exact HF|]. intros tc ET. rewrite EK. split; [apply CO; exact ET|].
    destruct (coeffs_cs k (kzg_fs KS) p m 1 0 tc E Hm ltac:(lia) ltac:(lia) ET) as (LT & _). rewrite LT. exact DO.
  - intros out HO. exact (single_batch ks KS k n s m p out O HK HS HO LO NZ Z).
Qed.
Lemma multi_mode ks KS k n s m a p : krel ks KS -> zk_setup KS k n s -> S m <= k -> a <= m -> 2 ^ m <= 2 ^ a + n -> length p = 2 ^ m ->
  da_ok ok (kzg_fs KS) (2 ^ S (m - a)) -> (forall i tc, i < 2 ^ a -> zk_toeplitz_coeffs_stride i (2 ^ a) p = Ok tc -> coeffs_ok ok (kzg_fs KS) tc) ->
  exists FK O, orp may (mlr R1) (zkw_fk20_multi_new checked ks (2 ^ S m) (2 ^ a)) (Ok FK) /\
    (forall fk, mlr R1 fk FK -> orp may (Forall2 R1) (zkw_fk20_multi_da_opt checked fk p) (Ok O)) /\
    (forall out, Forall2 R1 out O -> right_batch ks p m (m - a) (2 ^ a) out).
Proof.
  intros HK HS Hm Ha Hn LP DO CO. destruct (C72_multi_proof KS k n s m a p HS Hm Ha Hn LP) as (FK & O & EF & EO & LO & NZ & Z & _).
  destruct (setup_fs KS k n s HS) as (E & K32). destruct (multi_new_inv KS (2 ^ S m) (2 ^ a) FK EF) as [EK EC].
  assert (Pa := pow2_pos a). assert (EM : 2 ^ m = 2 ^ (m - a) * 2 ^ a) by (rewrite <- Nat.pow_add_r; f_equal; lia).
  assert (D : 2 ^ m / 2 ^ a * 2 = 2 ^ S (m - a)) by (rewrite EM, Nat.div_mul by lia; rewrite Nat.pow_succ_r'; lia).
  assert (D2 : 2 ^ m * 2 / 2 = 2 ^ m) by (apply Nat.div_mul; lia).
  exists FK, O. split; [|split].
  - rewrite <- EF. apply (@multi_new_rel _ R1 checked may ok R1_id R1_addd R1_subb Rmul); [exact (krel_ksr _ _ HK)|]. intros _.
    replace (2 ^ S m) with (2 ^ m * 2) by (rewrite Nat.pow_succ_r'; lia). rewrite D2, D. exact (proj1 DO).
  - intros fk HF. rewrite <- EO. apply (@multi_da_opt_rel _ R1 checked may ok R1_id R1_addd R1_subb Rmul); [exact HF|..].
    + rewrite EK, EC. exact CO.
    + intros _. rewrite EK, EC, LP, D2, D. exact DO.
  - intros out HO. exact (multi_batch ks KS k n s m (m - a) (2 ^ a) p out O HK HS HO LO NZ Z).
Qed.
End Mode.

Theorem words_fk20_single checked ks k n s m p : zkw_setup checked ks k n s -> S m <= k -> 2 ^ m <= 1 + n -> length p = 2 ^ m ->
  safe_transforms (S m) -> safe_multipliers p m 1 ->
  exists fk out rev, zkw_fk20_single_new checked ks (2 ^ S m) = Ok fk /\
    zkw_fk20_single_da_opt checked fk p = Ok out /\ right_batch ks p m m 1 out /\
    zkw_fk20_single_da checked fk p = Ok rev /\ reversed m out rev.
Proof.
  intros H Hm Hn LP [SF SI] SM. destruct (setup_rel _ _ _ _ _ H) as (KS & HK & HS). destruct (setup_fs KS k n s HS) as (E & K32).
  destruct (single_mode checked False safe (mul_safe checked) ks KS k n s m p HK HS Hm Hn LP) as (FK & O & NW & DA & RB).
  - split; apply (roots_safe k); assumption.
  - intros tc ET. apply (coeffs_safe k (kzg_fs KS) p m 1 0 tc E Hm ltac:(lia) ltac:(lia) SM ET).
  - apply orp_false in NW. apply rrel_ok in NW as (fk & EF & SG). specialize (DA fk SG). apply orp_false in DA. apply rrel_ok in DA as (out & EO & RO).
    specialize (RB out RO). destruct (single_da_of checked fk p m out ltac:(lia) (proj1 RB) EO) as (rev & ER & RV).
    exists fk, out, rev. repeat split; try assumption; try apply RB; apply RV.
Qed.
Theorem words_fk20_multi checked ks k n s m a p : zkw_setup checked ks k n s -> S m <= k -> a <= m -> 2 ^ m <= 2 ^ a + n -> length p = 2 ^ m ->
  safe_transforms (S (m - a)) -> safe_multipliers p (m - a) (2 ^ a) ->
  exists fk out rev, zkw_fk20_multi_new checked ks (2 ^ S m) (2 ^ a) = Ok fk /\
    zkw_fk20_multi_da_opt checked fk p = Ok out /\ right_batch ks p m (m - a) (2 ^ a) out /\
    zkw_fk20_multi_da checked fk p = Ok rev /\ reversed (m - a) out rev.
Proof.
  intros H Hm Ha Hn LP [SF SI] SM. destruct (setup_rel _ _ _ _ _ H) as (KS & HK & HS). destruct (setup_fs KS k n s HS) as (E & K32).
  assert (EM : 2 ^ m = 2 ^ (m - a) * 2 ^ a) by (rewrite <- Nat.pow_add_r; f_equal; lia).
  destruct (multi_mode checked False safe (mul_safe checked) ks KS k n s m a p HK HS Hm Ha Hn LP) as (FK & O & NW & DA & RB).
  - split; apply (roots_safe k); auto; lia.
  - intros i tc Hi ET. apply (coeffs_safe k (kzg_fs KS) p (m - a) (2 ^ a) i tc E ltac:(lia) Hi ltac:(lia) SM ET).
  - apply orp_false in NW. apply rrel_ok in NW as (fk & EF & SG). specialize (DA fk SG). apply orp_false in DA. apply rrel_ok in DA as (out & EO & RO).
    specialize (RB out RO). destruct (multi_da_of checked fk p (m - a) out ltac:(lia) (proj1 RB) EO) as (rev & ER & RV).
    exists fk, out, rev. repeat split; try assumption; try apply RB; apply RV.
Qed.
(** with overflow checks, whatever the roots and the multipliers *)
Theorem words_fk20_single_checked ks k n s m p : zkw_setup true ks k n s -> S m <= k -> 2 ^ m <= 1 + n -> length p = 2 ^ m ->
  zkw_fk20_single_new true ks (2 ^ S m) = Panic \/
  exists fk, zkw_fk20_single_new true ks (2 ^ S m) = Ok fk /\
    ((zkw_fk20_single_da_opt true fk p = Panic /\ zkw_fk20_single_da true fk p = Panic) \/
     exists out rev, zkw_fk20_single_da_opt true fk p = Ok out /\ right_batch ks p m m 1 out /\
       zkw_fk20_single_da true fk p = Ok rev /\ reversed m out rev).
Proof.
  intros H Hm Hn LP. destruct (setup_rel _ _ _ _ _ H) as (KS & HK & HS). destruct (setup_fs KS k n s HS) as (E & K32).
  destruct (single_mode true True any mul_any ks KS k n s m p HK HS Hm Hn LP) as (FK & O & NW & DA & RB).
  - split; apply roots_any.
  - intros tc _ cs c _ _. exact I.
  - destruct NW as [[_ NW]|NW]; [left; exact NW|right]. apply rrel_ok in NW as (fk & EF & SG). exists fk. split; [exact EF|].
    destruct (DA fk SG) as [[_ DP]|DO]; [left; split; [exact DP|apply single_da_panic; exact DP]|right]. apply rrel_ok in DO as (out & EO & RO).
    specialize (RB out RO). destruct (single_da_of true fk p m out ltac:(lia) (proj1 RB) EO) as (rev & ER & RV).
    exists out, rev. repeat split; try assumption; try apply RB; apply RV.
Qed.
Theorem words_fk20_multi_checked ks k n s m a p : zkw_setup true ks k n s -> S m <= k -> a <= m -> 2 ^ m <= 2 ^ a + n -> length p = 2 ^ m ->
  zkw_fk20_multi_new true ks (2 ^ S m) (2 ^ a) = Panic \/
  exists fk, zkw_fk20_multi_new true ks (2 ^ S m) (2 ^ a) = Ok fk /\
    ((zkw_fk20_multi_da_opt true fk p = Panic /\ zkw_fk20_multi_da true fk p = Panic) \/
     exists out rev, zkw_fk20_multi_da_opt true fk p = Ok out /\ right_batch ks p m (m - a) (2 ^ a) out /\
       zkw_fk20_multi_da true fk p = Ok rev /\ reversed (m - a) out rev).
Proof.
  intros H Hm Ha Hn LP. destruct (setup_rel _ _ _ _ _ H) as (KS & HK & HS). destruct (setup_fs KS k n s HS) as (E & K32).
  destruct (multi_mode true True any mul_any ks KS k n s m a p HK HS Hm Ha Hn LP) as (FK & O & NW & DA & RB).
  - split; apply roots_any.
  - intros i tc _ _ cs c _ _. exact I.
  - destruct NW as [[_ NW]|NW]; [left; exact NW|right]. apply rrel_ok in NW as (fk & EF & SG). exists fk. split; [exact EF|].
    destruct (DA fk SG) as [[_ DP]|DO]; [left; split; [exact DP|apply multi_da_panic; exact DP]|right]. apply rrel_ok in DO as (out & EO & RO).
    specialize (RB out RO). destruct (multi_da_of true fk p (m - a) out ltac:(lia) (proj1 RB) EO) as (rev & ER & RV).
    exists out, rev. repeat split; try assumption; try apply RB; apply RV.
Qed.

(** ** the proofs of a batch are accepted *)
Lemma same_single checked ks k n s com pf w A C xs ys x y : zkw_setup checked ks k n s -> 2 <= n -> g1_stands com C -> g1_stands pf A -> g1_stands w A ->
  represents xs x -> represents ys y -> ~ rounding_carries (val y) -> zkw_check_proof_single checked ks com w xs ys = zkw_check_proof_single checked ks com pf xs ys.
Proof.
  intros H Hn HC HP HW SX SY SF.
  destruct (proj1 (words_single_acceptance _ _ _ _ _ _ _ _ _ _ _ _ _ H HC HP SX SY SF) Hn) as (b & Eb & Vb & _).
  destruct (proj1 (words_single_acceptance _ _ _ _ _ _ _ _ _ _ _ _ _ H HC HW SX SY SF) Hn) as (c & Ec & Vc & _).
  rewrite Eb, Ec. f_equal. apply same_bool. rewrite Vb, Vc. reflexivity.
Qed.
Lemma root_nz m i : m < 32 -> fpow (root m) i <> (f0 : Fr).
Proof. intros Hm. exact (unit_pow_nz (root m) (2 ^ m) i (proj1 (root_primitive m Hm)) (Nat.pow_nonzero 2 m ltac:(discriminate))). Qed.
Theorem words_fk20_single_accepted checked ks k n s m ps p out i : zkw_setup checked ks k n s -> Forall2 represents ps p -> S m <= k -> length p = 2 ^ m -> 2 ^ m <= n -> 2 <= n ->
  (exists j, coef p j <> f0) -> right_batch ks p m m 1 out -> i < 2 ^ S m ->
  exists com w, zkw_commit_to_poly ks ps = Ok com /\ nth_error out i = Some w /\
    forall xs ys y, represents xs (fpow (root (S m)) i) -> represents ys y -> ~ rounding_carries (val y) ->
      zkw_check_proof_single checked ks com w xs ys = Ok (feqb y (peval p (fpow (root (S m)) i))).
Proof.
  intros H HP Hm LP Hn H2 NZ (_ & RB & _) Hi. destruct (RB NZ i Hi) as (w & pf & A & Ew & EP & SA & SP & SW).
  destruct (setup_rel _ _ _ _ _ H) as (KS & HK & HS). destruct (setup_fs KS k n s HS) as (_ & K32).
  assert (FT : fits (2 * length p)) by (rewrite LP; apply fits_pow; lia).
  destruct (words_single_proofs checked ks k n s ps p (fpow (root (S m)) i) H HP FT ltac:(lia) H2 NZ) as (com & pf' & EC & EP' & V).
  unfold zkw_compute_proof_single in EP'. assert (EQ : pf' = pf) by (rewrite EP in EP'; exact (f_equal (fun o => match o with Ok t => t | _ => pf' end) (eq_sym EP'))).
  rewrite EQ in V. exists com, w. split; [exact EC|]. split; [exact Ew|]. intros xs ys y SX SY SF. rewrite <- (V xs ys y SX SY SF).
  destruct (proj1 (words_commit checked ks k n s ps p H HP) ltac:(lia)) as (c & Ec & Sc).
  assert (EQc : com = c) by (rewrite Ec in EC; exact (f_equal (fun o => match o with Ok t => t | _ => com end) (eq_sym EC))). rewrite EQc.
  exact (same_single _ _ _ _ _ _ _ _ _ _ _ _ _ _ H H2 Sc SP SW SX SY SF).
Qed.
Theorem words_fk20_multi_accepted checked ks k n s m a ps p out i : zkw_setup checked ks k n s -> Forall2 represents ps p -> S m <= k -> a <= m -> length p = 2 ^ m -> 2 ^ m <= n -> 2 ^ a < n ->
  (exists j, coef p j <> f0) -> right_batch ks p m (m - a) (2 ^ a) out -> i < 2 ^ S (m - a) ->
  exists com w, zkw_commit_to_poly ks ps = Ok com /\ nth_error out i = Some w /\
    zkw_check_proof_multi ks com w (fpow (root (S m)) i)
      (map (fun j => peval p (fmul (fpow (root (S m)) i) (fpow (root a) j))) (seq 0 (2 ^ a))) (2 ^ a) = Ok true.
Proof.
  intros H HP Hm Ha LP Hn H2 NZ (_ & RB & _) Hi. destruct (RB NZ i Hi) as (w & pf & A & Ew & EP & SA & SP & SW).
  destruct (setup_rel _ _ _ _ _ H) as (KS & HK & HS). destruct (setup_fs KS k n s HS) as (_ & K32).
  assert (FT : fits (2 * length p)) by (rewrite LP; apply fits_pow; lia).
  destruct (words_multi_proofs checked ks k n s a ps p (fpow (root (S m)) i) H HP ltac:(lia) H2 FT ltac:(lia) (root_nz (S m) i ltac:(lia)) NZ) as (com & pf' & EC & EP' & V).
  assert (EQ : pf' = pf) by (rewrite EP in EP'; exact (f_equal (fun o => match o with Ok t => t | _ => pf' end) (eq_sym EP'))).
  rewrite EQ in V. exists com, w. split; [exact EC|]. split; [exact Ew|]. rewrite <- V.
  destruct (in1 A SA) as (q & Eq). destruct (proj1 (words_commit checked ks k n s ps p H HP) ltac:(lia)) as (c & Ec & Sc).
  assert (EQc : com = c) by (rewrite Ec in EC; exact (f_equal (fun o => match o with Ok t => t | _ => com end) (eq_sym EC))). rewrite EQc.
  assert (RC : R1 c (smul (peval p s) gen1)) by exact Sc.
  assert (RW : R1 w q) by (unfold R1; rewrite Eq; exact SW). assert (RP : R1 pf q) by (unfold R1; rewrite Eq; exact SP).
  rewrite (check_multi_rel ks KS c w _ q _ _ _ HK RC RW). symmetry. exact (check_multi_rel ks KS c pf _ q _ _ _ HK RC RP).
Qed.

(** ** multipliers that panic *)
Definition part2_body (cs : list Fr) (x : list g1_projective) (i : nat) (out : list g1_projective) : res (list g1_projective) :=
  let* x := idx x i in
  let* c := idx cs i in
  let* v := zkw_g1_mul true x (fr_limbs c) in
  Ok (out ++ [v]).
Lemma part2_body_total cs x i out : Forall related x -> part2_body cs x i out = Panic \/ exists o, part2_body cs x i out = Ok o.
Proof.
  intros H. unfold part2_body. rewrite Forall_forall in H. destruct (idx_total x i) as [->|(y & -> & Iy)]; cbn [bind]; [left; reflexivity|].
  destruct (idx_total cs i) as [->|(c & -> & _)]; cbn [bind]; [left; reflexivity|].
  destruct (mul_total y c (H y Iy)) as [->|(v & -> & _)]; cbn [bind]; [left; reflexivity|right; eexists; reflexivity].
Qed.
Lemma part2_body_panics (cs : list Fr) x i out (c : Fr) : nth_error cs i = Some c -> rounding_carries (val c) -> part2_body cs x i out = Panic.
Proof.
  intros N C. unfold part2_body. destruct (idx_total x i) as [->|(y & -> & _)]; cbn [bind]; [reflexivity|].
  replace (idx cs i) with (Ok c) by (unfold idx; rewrite N; reflexivity). cbn [bind]. rewrite (mul_panics y c C). reflexivity.
Qed.
Lemma for_total {S} (body : nat -> S -> res S) n : (forall j s, body j s = Panic \/ exists t, body j s = Ok t) ->
  forall i s, for_ n i body s = Panic \/ exists t, for_ n i body s = Ok t.
Proof.
  intros HB. induction n as [|n IH]; intros i s; cbn [for_]; [right; eexists; reflexivity|].
  destruct (HB i s) as [->|(t & ->)]; cbn [bind]; [left; reflexivity|apply IH].
Qed.
Lemma part2_total (tc : list Fr) x fs cs : Forall related x -> zk_fft_fr fs tc false = Ok cs ->
  zkw_toeplitz_part_2 true tc x fs = Panic \/ exists h, zkw_toeplitz_part_2 true tc x fs = Ok h.
Proof.
  intros H E. unfold zkw_toeplitz_part_2. rewrite E. cbn [unwrap bind]. unfold for_range.
  apply (for_total (part2_body cs x)). intros j s. apply part2_body_total. exact H.
Qed.
Lemma part2_panics (tc : list Fr) x fs cs i (c : Fr) : Forall related x -> zk_fft_fr fs tc false = Ok cs -> i < length tc -> nth_error cs i = Some c -> rounding_carries (val c) ->
  zkw_toeplitz_part_2 true tc x fs = Panic.
Proof.
  intros H E Hi N C. unfold zkw_toeplitz_part_2. rewrite E. cbn [unwrap bind]. unfold for_range. rewrite Nat.sub_0_r.
  apply (for_panics (fun _ => True) (part2_body cs x) (length tc) 0 i).
  - intros j s _ _. destruct (part2_body_total cs x j s H) as [E1|(o & E1)]; [left; exact E1|right; exists o; split; [exact E1|exact I]].
  - intros s _. exact (part2_body_panics cs x i s c N C).
  - lia.
  - exact I.
Qed.
Lemma single_sizes (ks : zkw_settings) (KS : kzg_settings B) k n s m (p : list Fr) : krel ks KS -> zk_setup KS k n s -> S m <= k -> length p = 2 ^ m ->
  max_width (zkw_fs ks) <? length p * 2 = false /\ negb (is_pow2 (length p * 2)) = false.
Proof.
  intros (HF & _) HS Hm LP. destruct (zk_setup_inv _ _ _ _ HS) as (K32 & _ & (W & _) & _). rewrite HF, W, LP.
  replace (2 ^ m * 2) with (2 ^ S m) by (rewrite Nat.pow_succ_r'; lia). assert (2 ^ S m <= 2 ^ k) by (apply Nat.pow_le_mono_r; lia).
  split; [apply Nat.ltb_ge; lia|]. rewrite is_pow2_pow. reflexivity.
Qed.
Lemma stride_ok (p : list Fr) e len off : off < len -> length p = 2 ^ e * len -> exists tc, zk_toeplitz_coeffs_stride off len p = Ok tc.
Proof. intros Ho LP. assert (P2 := pow2_pos e). rewrite zk_stride_eq by nia. rewrite (stride_spec p (2 ^ e) len off P2 Ho LP). eexists. reflexivity. Qed.
Theorem words_fk20_single_panics ks k n s m p fk i : zkw_setup true ks k n s -> S m <= k -> 2 ^ m <= 1 + n -> length p = 2 ^ m ->
  zkw_fk20_single_new true ks (2 ^ S m) = Ok fk -> i < 2 ^ S m -> rounding_carries (val (multiplier p m 1 0 i)) ->
  zkw_fk20_single_da_opt true fk p = Panic /\ zkw_fk20_single_da true fk p = Panic.
Proof.
  intros H Hm Hn LP EN Hi C. destruct (setup_rel _ _ _ _ _ H) as (KS & HK & HS). destruct (setup_fs KS k n s HS) as (E & K32).
  destruct (single_mode true True any mul_any ks KS k n s m p HK HS Hm Hn LP) as (FK & O & NW & _ & _).
  - split; apply roots_any.
  - intros tc _ cs c _ _. exact I.
  - destruct NW as [[_ NW]|NW]; [rewrite NW in EN; discriminate|]. rewrite EN in NW. destruct NW as [[KF KG] KX].
    assert (EF : zkw_fs (zkws_kzg fk) = zkw_fs ks).
    { revert EN. unfold zkw_fk20_single_new. cbv zeta. destruct (_ <? _); [discriminate|]. destruct (negb _); [discriminate|]. destruct (_ <? _); [discriminate|]. intros EN.
      apply bind_ok in EN as (u & _ & EN). apply bind_ok in EN as (x & _ & EN). apply bind_ok in EN as (f & _ & EN). injection EN as <-. reflexivity. }
    assert (DP : zkw_fk20_single_da_opt true fk p = Panic); [|split; [exact DP|apply single_da_panic; exact DP]].
    unfold zkw_fk20_single_da_opt. cbv zeta. rewrite EF. destruct (single_sizes ks KS k n s m p HK HS Hm LP) as [S1 S2]. rewrite S1, S2.
    destruct (stride_ok p m 1 0 ltac:(lia) ltac:(lia)) as (tc & ET). unfold zk_toeplitz_coeffs_step. rewrite ET. cbn [bind].
    rewrite (proj1 HK). destruct (coeffs_cs k (kzg_fs KS) p m 1 0 tc E Hm ltac:(lia) ltac:(lia) ET) as (LT & cs & Ec & _ & Hc).
    rewrite (part2_panics tc (zkws_x_ext_fft fk) (kzg_fs KS) cs i (multiplier p m 1 0 i)); [reflexivity|eapply rel_related; exact KX|exact Ec|rewrite LT; exact Hi|exact (Hc i Hi)|exact C].
Qed.
Lemma Forall2_related files (FF : list (list (PG1 B))) : Forall2 (Forall2 R1) files FF -> Forall (Forall related) files.
Proof. intros H. induction H as [|l L files FF HL _ IH]; constructor; [eapply rel_related; exact HL|exact IH]. Qed.
Definition sum_body (hf : list g1_projective) (j : nat) (h : list g1_projective) : res (list g1_projective) :=
  let* a := idx h j in
  let* b := idx hf j in
  upd h j (zkw_g1_add_or_dbl a b).
Lemma sum_body_total hf j h : sum_body hf j h = Panic \/ exists o, sum_body hf j h = Ok o.
Proof.
  unfold sum_body. destruct (idx_total h j) as [->|(a & -> & _)]; cbn [bind]; [left; reflexivity|]. destruct (idx_total hf j) as [->|(b & -> & _)]; cbn [bind]; [left; reflexivity|].
  unfold upd. destruct (_ <? _); [right; eexists; reflexivity|left; reflexivity].
Qed.
Theorem words_fk20_multi_panics ks k n s m a p fk off i : zkw_setup true ks k n s -> S m <= k -> a <= m -> 2 ^ m <= 2 ^ a + n -> length p = 2 ^ m ->
  zkw_fk20_multi_new true ks (2 ^ S m) (2 ^ a) = Ok fk -> off < 2 ^ a -> i < 2 ^ S (m - a) -> rounding_carries (val (multiplier p (m - a) (2 ^ a) off i)) ->
  zkw_fk20_multi_da_opt true fk p = Panic /\ zkw_fk20_multi_da true fk p = Panic.
Proof.
  intros H Hm Ha Hn LP EN Ho Hi C. destruct (setup_rel _ _ _ _ _ H) as (KS & HK & HS). destruct (setup_fs KS k n s HS) as (E & K32).
  assert (EM : 2 ^ m = 2 ^ (m - a) * 2 ^ a) by (rewrite <- Nat.pow_add_r; f_equal; lia). assert (Pa := pow2_pos a).
  destruct (multi_mode true True any mul_any ks KS k n s m a p HK HS Hm Ha Hn LP) as (FK & O & NW & _ & _).
  - split; apply roots_any.
  - intros j tc _ _ cs c _ _. exact I.
  - destruct NW as [[_ NW]|NW]; [rewrite NW in EN; discriminate|]. rewrite EN in NW. destruct NW as (_ & _ & KX).
    assert (EF : zkw_fs (zkwm_kzg fk) = zkw_fs ks /\ zkwm_chunk_len fk = 2 ^ a).
    { revert EN. unfold zkw_fk20_multi_new. cbv zeta. destruct (_ <? _); [discriminate|]. destruct (negb _); [discriminate|]. destruct (_ <? _); [discriminate|]. destruct (_ <? _); [discriminate|]. destruct (negb _); [discriminate|]. intros EN.
      apply bind_ok in EN as (u & _ & EN). injection EN as <-. split; reflexivity. }
    destruct EF as [EF EC].
    assert (DP : zkw_fk20_multi_da_opt true fk p = Panic); [|split; [exact DP|apply multi_da_panic; exact DP]].
    unfold zkw_fk20_multi_da_opt. cbv zeta. rewrite EF, EC. destruct (single_sizes ks KS k n s m p HK HS Hm LP) as [S1 S2]. rewrite S1, S2.
    destruct (Nat.eqb_spec (2 ^ a) 0); [lia|]. cbn [bind]. rewrite (proj1 HK).
    set (body := fun (i : nat) (h : list g1_projective) => _). set (k2 := _ / _ * 2).
    assert (FP : for_range 0 (2 ^ a) body (repeat zkw_g1_identity k2) = Panic); [|rewrite FP; reflexivity].
    unfold for_range. rewrite Nat.sub_0_r. apply (for_panics (fun _ => True) body (2 ^ a) 0 off); [| |lia|exact I].
    + intros j h Hj _. unfold body. destruct (stride_ok p (m - a) (2 ^ a) j ltac:(lia) ltac:(lia)) as (tc & ET). rewrite ET. cbn [bind].
      destruct (idx_total (zkwm_files fk) j) as [->|(f & -> & If)]; cbn [bind]; [left; reflexivity|].
      pose proof (Forall2_related _ _ KX) as FR. rewrite Forall_forall in FR.
      destruct (coeffs_cs k (kzg_fs KS) p (m - a) (2 ^ a) j tc E ltac:(lia) ltac:(lia) ltac:(lia) ET) as (LT & cs & Ec & _ & Hc).
      destruct (part2_total tc f (kzg_fs KS) cs (FR f If) Ec) as [->|(hf & ->)]; cbn [bind]; [left; reflexivity|].
      destruct (for_total (sum_body hf) (k2 - 0) (sum_body_total hf) 0 h) as [F|(t & F)]; [left; exact F|right; exists t; split; [exact F|exact I]].
    + intros h _. unfold body. destruct (stride_ok p (m - a) (2 ^ a) off Ho ltac:(lia)) as (tc & ET). rewrite ET. cbn [bind].
      destruct (idx_total (zkwm_files fk) off) as [->|(f & -> & If)]; cbn [bind]; [reflexivity|].
      pose proof (Forall2_related _ _ KX) as FR. rewrite Forall_forall in FR.
      destruct (coeffs_cs k (kzg_fs KS) p (m - a) (2 ^ a) off tc E ltac:(lia) Ho ltac:(lia) ET) as (LT & cs & Ec & _ & Hc).
      rewrite (part2_panics tc f (kzg_fs KS) cs i (multiplier p (m - a) (2 ^ a) off i)); [reflexivity|exact (FR f If)|exact Ec|rewrite LT; exact Hi|exact (Hc i Hi)|exact C].
Qed.

(** ** a polynomial whose batch goes wrong *)
Section Mono.
Context {K : fld}.
Add Field Kmono : (fld_field K).
Lemma coef_mono N (c : K) j : coef (repeat f0 N ++ [c]) j = if j =? N then c else f0.
Proof.
  rewrite coef_app, repeat_length. destruct (Nat.ltb_spec j N), (Nat.eqb_spec j N); try lia; [apply coef_repeat0|subst; rewrite Nat.sub_diag; reflexivity|apply coef_over; cbn [length]; lia].
Qed.
Lemma peval_mono N (c x : K) : peval (repeat f0 N ++ [c]) x = fmul c (fpow x N).
Proof. induction N as [|N IH]; [cbn; ring|]. change (repeat f0 (S N) ++ [c]) with (f0 :: (repeat f0 N ++ [c])). cbn [peval]. rewrite IH, fpow_S. ring. Qed.
Lemma peval_const (c x : K) : peval [c] x = c.
Proof. cbn. ring. Qed.
(** two monomials with the same quotient at s *)
Lemma mono_quotients N (c d x s : K) q q' : euclid (repeat f0 N ++ [c]) (binomial 1 x) q -> euclid (repeat f0 N ++ [d]) (binomial 1 x) q' ->
  peval q s = peval q' s -> c <> d -> fpow s N = fpow x N.
Proof.
  intros Q Q' E NE. apply euclid_eval in Q as (t & Lt & Q). apply euclid_eval in Q' as (t' & Lt' & Q').
  assert (BV : forall z, peval (binomial 1 x) z = fsub z x) by (intros z; unfold binomial; cbn; ring).
  rewrite binomial_length in Lt, Lt' by lia.
  assert (CT : forall u : list K, length u < 2 -> peval u s = peval u x).
  { intros u Lu. destruct u as [|u0 [|u1 u]]; cbn [length] in Lu; [reflexivity|cbn; ring|lia]. }
  pose proof (Q s) as Qs. pose proof (Q x) as Qx. pose proof (Q' s) as Qs'. pose proof (Q' x) as Qx'.
  rewrite !BV, !peval_mono in *. rewrite (CT t Lt) in Qs. rewrite (CT t' Lt') in Qs'. rewrite E in Qs.
  assert (D : fmul (fsub c d) (fsub (fpow s N) (fpow x N)) = f0).
  { transitivity (fsub (fsub (fmul c (fpow s N)) (fmul c (fpow x N))) (fsub (fmul d (fpow s N)) (fmul d (fpow x N)))); [ring|]. rewrite Qs, Qx, Qs', Qx'. ring. }
  apply fmul_eq_0 in D as [D|D].
  - elim NE. transitivity (fadd (fsub c d) d); [ring|]. rewrite D. ring.
  - transitivity (fadd (fsub (fpow s N) (fpow x N)) (fpow x N)); [ring|]. rewrite D. ring.
Qed.
End Mono.
Lemma monomial_length m c : length (monomial m c) = 2 ^ m.
Proof. unfold monomial. rewrite app_length, repeat_length. cbn [length]. assert (P2 := pow2_pos m). lia. Qed.
Lemma monomial_multiplier m c i : multiplier (monomial m c) m 1 0 i = c.
Proof.
  unfold multiplier. assert (P2 := pow2_pos m). transitivity (peval [c] (fpow (root (S m)) i)).
  - apply (peval_ext (K:=Fr)). intros j. unfold circulant, monomial. rewrite coef_map_seq. destruct (Nat.ltb_spec j (2 ^ m * 2)) as [L|L].
    + destruct (Nat.eqb_spec j 0) as [->|NJ].
      * rewrite coef_mono. destruct (Nat.eqb_spec (2 ^ m * 1 - 1 - 0) (2 ^ m - 1)); [reflexivity|lia].
      * rewrite (coef_over [c]) by (cbn [length]; lia). destruct (Nat.ltb_spec j (2 ^ m + 2)); [reflexivity|]. rewrite coef_mono. destruct (Nat.eqb_spec ((j - 2 ^ m) * 1 - 0 - 1) (2 ^ m - 1)); [lia|reflexivity].
    + rewrite (coef_over [c]) by (cbn [length]; lia). reflexivity.
  - apply (peval_const (K:=Fr)).
Qed.

Lemma bad_exists : exists bad : Fr, rounding_carries (val bad).
Proof.
  destruct (bad_scalar bad_k) as (s & x & _ & V); [split; vm_compute; congruence|]. exists x. rewrite V. apply carries_iff. exact bad_carry.
Qed.
Theorem words_fk20_panic_polynomial : exists bad : Fr, forall ks k n s m fk, zkw_setup true ks k n s -> S m <= k -> 2 ^ m <= 1 + n ->
  zkw_fk20_single_new true ks (2 ^ S m) = Ok fk ->
  zkw_fk20_single_da_opt true fk (monomial m bad) = Panic /\ zkw_fk20_single_da true fk (monomial m bad) = Panic.
Proof.
  destruct bad_exists as (bad & C). exists bad. intros ks k n s m fk H Hm Hn EN. assert (P2 := pow2_pos (S m)).
  apply (words_fk20_single_panics ks k n s m _ fk 0 H Hm Hn (monomial_length m bad) EN P2). rewrite monomial_multiplier. exact C.
Qed.
(** without overflow checks: the product with that scalar is the product with another one *)
Lemma multiply_bad_any p P by_ : pstands p P -> is_bytes 32 by_ -> bytes_val by_ = bad_k ->
  exists q, g1_multiply false p by_ = Ok q /\ pstands q (point_zmul (half_mul bad_k) P).
Proof.
  intros H BY V. assert (H0 : glv_h' bad_k = 0%Z) by (vm_compute; reflexivity).
  pose proof (glv_recoding_ok false by_ bad_k BY V ltac:(reflexivity)) as G.
  rewrite H0 in G. rewrite andb_false_r in G. destruct G as (s1 & k1 & k2 & G & B1 & B2 & V2 & SG); [lia|reflexivity|].
  replace (bad_k - 0 * glv_lambda)%Z with bad_k in SG by ring. destruct SG as [(-> & V1) | (_ & V1)].
  - destruct (g1_multiply_gen false p P by_ 0 k1 k2 H G B1 B2 (or_introl eq_refl)) as (q & E & S).
    rewrite V1, V2 in S. exists q. split; [exact E|].
    change (sgn 0 * half_mul bad_k)%Z with (1 * half_mul bad_k)%Z in S. rewrite Z.mul_1_l in S.
    replace (half_mul 0) with 0%Z in S by (vm_compute; reflexivity). rewrite comb_P in S. exact S.
  - exfalso. assert (0 <= bytes_val k1)%Z by (apply bytes_val_nonneg; apply B1). assert (0 < bad_k)%Z by reflexivity. lia.
Qed.
Lemma mul_bad (bad : Fr) a a' : val bad = bad_k -> R1 a a' -> exists q, zkw_g1_mul false a (fr_limbs bad) = Ok q /\ R1 q (smul (fr_of (half_mul bad_k) : Fr) a').
Proof.
  intros V H. destruct (scalar_bytes (fr_limbs bad) bad (fr_limbs_rep bad)) as [BY VB]. rewrite V in VB.
  assert (HP : pstands a (pt1 a')) by (apply pst; exact H).
  destruct (multiply_bad_any a (pt1 a') _ HP BY VB) as (q & E & S). exists q. split; [exact E|]. apply pst in S.
  unfold R1. assert (EQ : pt1 (smul (fr_of (half_mul bad_k) : Fr) a') = point_zmul (half_mul bad_k) (pt1 a')); [|rewrite EQ; exact S].
  transitivity (point_zmul (half_mul bad_k mod r) (pt1 a')); [|apply (Proof_CurveMul.pt_zmul_mod (b:=b4) Fp_two Fp_NoTwo); [exact (proj1 (pt1_sub a'))|discriminate|exact (proj2 (pt1_sub a'))]].
  change (pt1 (smul (fr_of (half_mul bad_k) : Fr) a')) with (point_zmul (val (fr_of (half_mul bad_k))) (pt1 a')). f_equal.
Qed.

Lemma part2_bad (bad : Fr) tc tc' cs cs' x x' fs : val bad = bad_k -> Forall2 R1 x x' -> zk_fft_fr fs tc false = Ok cs -> zk_fft_fr fs tc' false = Ok cs' ->
  length tc = length tc' -> (forall i, i < length tc -> nth_error cs i = Some bad) -> (forall i, i < length tc -> nth_error cs' i = Some (fr_of (half_mul bad_k) : Fr)) ->
  rrel (Forall2 R1) (zkw_toeplitz_part_2 false tc x fs) (zk_toeplitz_part_2 tc' x' fs).
Proof.
  intros V H E E' L HC HC'. unfold zkw_toeplitz_part_2, zk_toeplitz_part_2. rewrite E, E'. cbn [unwrap bind]. rewrite <- L.
  apply for_range_rel; [|constructor]. intros j s t Hj HS. eapply bind_rel; [apply (idx_rel R1); exact H|]. intros y y' Ry.
  replace (idx cs j) with (Ok bad) by (unfold idx; rewrite (HC j) by lia; reflexivity).
  replace (idx cs' j) with (Ok (fr_of (half_mul bad_k) : Fr)) by (unfold idx; rewrite (HC' j) by lia; reflexivity).
  cbn [bind]. destruct (mul_bad bad y y' V Ry) as (q & Eq & Rq). rewrite Eq. cbn [bind rrel]. apply Forall2_app; [exact HS|]. constructor; [exact Rq|constructor].
Qed.
Lemma single_bad (bad : Fr) ks KS k n s m fk FK O : val bad = bad_k -> krel ks KS -> zk_setup KS k n s -> S m <= k -> safe_transforms (S m) ->
  sgr R1 fk FK -> fks_kzg FK = KS -> zk_fk20_single_da_opt FK (monomial m (fr_of (half_mul bad_k))) = Ok O ->
  exists out, zkw_fk20_single_da_opt false fk (monomial m bad) = Ok out /\ Forall2 R1 out O.
Proof.
  intros V HK HS Hm [SF SI] [[HF _] HX] EK EO. destruct (setup_fs KS k n s HS) as (E & K32).
  apply (rrel_ok (Forall2 R1)). rewrite <- EO. unfold zkw_fk20_single_da_opt, zk_fk20_single_da_opt. rewrite HF, !monomial_length. cbv zeta. rewrite EK.
  destruct (_ <? _); [exact I|]. destruct (negb _); [exact I|].
  set (e := fr_of (half_mul bad_k) : Fr) in *.
  unfold zk_toeplitz_coeffs_step.
  destruct (stride_ok (monomial m bad) m 1 0 ltac:(lia) ltac:(rewrite monomial_length; lia)) as (tc & ET).
  destruct (stride_ok (monomial m e) m 1 0 ltac:(lia) ltac:(rewrite monomial_length; lia)) as (tc' & ET'). rewrite ET, ET'. cbn [bind].
  destruct (coeffs_cs k (kzg_fs KS) (monomial m bad) m 1 0 tc E Hm ltac:(lia) ltac:(rewrite monomial_length; lia) ET) as (LT & cs & Ec & _ & Hc).
  destruct (coeffs_cs k (kzg_fs KS) (monomial m e) m 1 0 tc' E Hm ltac:(lia) ltac:(rewrite monomial_length; lia) ET') as (LT' & cs' & Ec' & _ & Hc').
  eapply (bind_rel (fun h h' => Forall2 R1 h h' /\ length h = 2 ^ S m)).
  { apply rrel_and; [|intros h Eh; rewrite (part2_len false _ _ _ _ Eh); exact LT].
    apply (part2_bad bad tc tc' cs cs' _ _ _ V HX Ec Ec'); rewrite ?LT, ?LT'; [reflexivity|..]; intros i Hi; [rewrite (Hc i Hi)|rewrite (Hc' i Hi)]; rewrite monomial_multiplier; reflexivity. }
  intros h h' [Hh Lh]. eapply (bind_rel (fun g g' => Forall2 R1 g g' /\ length g = 2 ^ S m)).
  { apply rrel_and; [|intros g Eg; rewrite (part3_len false _ _ _ Eg); exact Lh].
    apply orp_false. apply (@part3_rel _ R1 false False safe R1_id R1_addd R1_subb (mul_safe false)); [exact Hh|]. rewrite Lh. apply (roots_safe k); assumption. }
  intros g g' [Hg Lg]. apply orp_false, orp_unwrap, (@fft_rel _ R1 false False safe R1_id R1_addd R1_subb (mul_safe false)); [exact Hg|]. rewrite Lg. apply (roots_safe k); assumption.
Qed.
Theorem words_fk20_unchecked_refuted : exists bad e : Fr, bad <> e /\ forall ks k n s m, zkw_setup false ks k n s -> 1 <= m -> S m <= k -> 2 ^ m <= 1 + n -> safe_transforms (S m) ->
  exists fk out, zkw_fk20_single_new false ks (2 ^ S m) = Ok fk /\ zkw_fk20_single_da_opt false fk (monomial m bad) = Ok out /\
    right_batch ks (monomial m e) m m 1 out /\
    forall i, i < 2 ^ S m -> fpow s (2 ^ m - 1) <> fpow (fpow (root (S m)) i) (2 ^ m - 1) ->
      exists w pf A, nth_error out i = Some w /\ zkw_compute_proof_single zk_table ks (monomial m bad) (fpow (root (S m)) i) = Ok pf /\ g1_stands pf A /\ ~ g1_stands w A.
Proof.
  destruct (bad_scalar bad_k) as (bs & bad & _ & V); [split; vm_compute; congruence|]. exists bad, (fr_of (half_mul bad_k) : Fr).
  assert (NE : bad <> (fr_of (half_mul bad_k) : Fr)).
  { intros Q. apply (f_equal val) in Q. rewrite V in Q. revert Q. vm_compute. discriminate. }
  split; [exact NE|]. intros ks k n s m H M1 Hm Hn ST. pose proof ST as [SF SI].
  destruct (setup_rel _ _ _ _ _ H) as (KS & HK & HS). destruct (setup_fs KS k n s HS) as (E & K32). set (e := fr_of (half_mul bad_k) : Fr) in *.
  destruct (C72_single_proof KS k n s m (monomial m e) HS Hm Hn (monomial_length m e)) as (FK & O & EF & EO & LO & NZ & Z & _).
  pose proof (single_new_inv KS (2 ^ S m) FK EF) as EK.
  assert (NW : orp False (sgr R1) (zkw_fk20_single_new false ks (2 ^ S m)) (Ok FK)).
  { rewrite <- EF. apply (@single_new_rel _ R1 false False safe R1_id R1_addd R1_subb (mul_safe false)); [exact (krel_ksr _ _ HK)|]. intros _ _. apply (roots_safe k); assumption. }
  apply orp_false in NW. apply rrel_ok in NW as (fk & ENW & SG).
  destruct (single_bad bad ks KS k n s m fk FK O V HK HS Hm ST SG EK EO) as (out & EOUT & RO).
  exists fk, out. split; [exact ENW|]. split; [exact EOUT|]. split; [exact (single_batch ks KS k n s m (monomial m e) out O HK HS RO LO NZ Z)|].
  intros i Hi NQ.
  assert (CN : forall c : Fr, c <> f0 -> exists j, coef (monomial m c) j <> f0).
  { intros c NC. exists (2 ^ m - 1). unfold monomial. rewrite (coef_mono (K:=Fr)), Nat.eqb_refl. exact NC. }
  assert (NB : bad <> f0) by (intros Q; apply (f_equal val) in Q; rewrite V in Q; revert Q; vm_compute; discriminate).
  assert (NEE : e <> f0) by (intros Q; apply (f_equal val) in Q; revert Q; vm_compute; discriminate).
  destruct (NZ (CN e NEE) i Hi) as (a & Ea & Na). destruct (rel_entry out O i a RO Na) as (w & Ew & Sw).
  set (x := fpow (root (S m)) i) in *.
  assert (CV : forall c : Fr, c <> f0 -> exists q, euclid (monomial m c) (binomial 1 x) q /\ zk_compute_proof_multi zk_table KS (monomial m c) x 1 = Ok (smul (peval q s) gen1)).
  { intros c NC. destruct (zk_compute_value KS k n s (monomial m c) x 0 HS) as (q & Hq & Eq); [rewrite monomial_length; apply fits_pow; lia|rewrite monomial_length; change (2 ^ 0) with 1; lia|exact (CN c NC)|].
    exists q. change (2 ^ 0) with 1 in *. rewrite (fpow_1 (K:=Fr)) in Hq. split; [exact Hq|exact Eq]. }
  destruct (CV bad NB) as (qb & HQb & Eb). destruct (CV e NEE) as (qe & HQe & Ee).
  pose proof (compute_rel ks KS (monomial m bad) x 1 HK) as RC. rewrite Eb in RC. apply rrel_ok in RC as (pf & EP & RP).
  exists w, pf, (pt1 (smul (peval qb s) gen1 : PG1 B)). split; [exact Ew|]. split; [exact EP|]. split; [exact RP|]. intros SW.
  assert (QA : a = smul (peval qe s) gen1).
  { unfold zk_compute_proof_single in Ea. rewrite Ee in Ea. exact (f_equal (fun o => match o with Ok t => t | _ => a end) (eq_sym Ea)). }
  rewrite QA in Sw. apply pst in SW. apply pst in Sw. pose proof (proj_stands_unique fp_ops_ok w _ _ SW Sw) as EQ. apply pt1_inj in EQ.
  apply smul_gen_inj in EQ; [|exact c_gen1_nz].
  exact (NQ (mono_quotients (K:=Fr) (2 ^ m - 1) bad e x s qb qe HQb HQe EQ NE)).
Qed.

(** ** refusals *)
Lemma word_sizes checked ks k n s : zkw_setup checked ks k n s -> max_width (zkw_fs ks) = 2 ^ k /\ length (zkw_secret_g1 ks) = n.
Proof.
  intros H. destruct (setup_rel _ _ _ _ _ H) as (KS & (HF & H1 & _) & HS). destruct (zk_setup_inv _ _ _ _ HS) as (_ & (S1 & _) & (W & _) & _).
  split; [rewrite HF; exact W|]. rewrite (Forall2_length _ _ _ H1), S1. apply length_map_seq.
Qed.
Theorem words_fk20_single_new checked ks k n s n2 : zkw_setup checked ks k n s ->
  (~ (n2 <= 2 ^ k /\ exists m, n2 = 2 ^ S m) -> zkw_fk20_single_new checked ks n2 = Err) /\
  (forall m, n2 = 2 ^ S m -> S m <= k -> 1 + n < 2 ^ m -> zkw_fk20_single_new checked ks n2 = Panic).
Proof.
  intros H. destruct (word_sizes _ _ _ _ _ H) as [W S1]. unfold zkw_fk20_single_new. cbv zeta. rewrite W. split.
  - intros Hn. destruct (Nat.ltb_spec (2 ^ k) n2) as [|L]; [reflexivity|]. destruct (is_pow2 n2) eqn:E; [|reflexivity]. cbn [negb].
    apply is_pow2_spec in E as ([|m] & ->); [reflexivity|]. elim Hn. eauto.
  - intros m -> Hm L. assert (P2 := pow2_pos m). assert (2 ^ S m <= 2 ^ k)%nat by (apply Nat.pow_le_mono_r; lia).
    assert (E2 : (2 ^ S m = 2 ^ m * 2)%nat) by (rewrite Nat.pow_succ_r'; lia).
    destruct (Nat.ltb_spec (2 ^ k) (2 ^ S m)); [lia|]. rewrite is_pow2_pow. cbn [negb]. destruct (Nat.ltb_spec (2 ^ S m) 2); [lia|].
    assert (D : (2 ^ S m / 2 = 2 ^ m)%nat) by (rewrite E2; apply Nat.div_mul; lia). rewrite D.
    rewrite usub_ok by lia. cbn [bind]. set (N := 2 ^ m) in *. clearbody N. unfold for_range. rewrite Nat.sub_0_r.
    replace (N - 1) with (Datatypes.S (N - 2)) by lia. cbn [for_]. rewrite usub_ok by lia. cbn [bind]. rewrite usub_ok by lia. cbn [bind].
    rewrite idx_panic by (rewrite S1; lia). reflexivity.
Qed.
Theorem words_fk20_multi_new checked ks k n s n2 cl : zkw_setup checked ks k n s ->
  (~ (n2 <= 2 ^ k /\ exists m a, n2 = 2 ^ S m /\ cl = 2 ^ a /\ a <= m) -> zkw_fk20_multi_new checked ks n2 cl = Err) /\
  (forall m a, n2 = 2 ^ S m -> cl = 2 ^ a -> a <= m -> S m <= k -> 2 ^ a + n < 2 ^ m -> zkw_fk20_multi_new checked ks n2 cl = Panic).
Proof.
  intros H. destruct (word_sizes _ _ _ _ _ H) as [W S1]. unfold zkw_fk20_multi_new. cbv zeta. rewrite W. split.
  - intros Hn. destruct (Nat.ltb_spec (2 ^ k) n2) as [|L]; [reflexivity|]. destruct (is_pow2 n2) eqn:E; [|reflexivity]. cbn [negb].
    apply is_pow2_spec in E as ([|m] & ->); [reflexivity|].
    assert (P2 := pow2_pos m). assert (E2 : 2 ^ S m = 2 ^ m * 2) by (rewrite Nat.pow_succ_r'; lia).
    destruct (Nat.ltb_spec (2 ^ S m) 2); [reflexivity|].
    assert (D : 2 ^ S m / 2 = 2 ^ m) by (rewrite E2; apply Nat.div_mul; lia). rewrite D.
    destruct (Nat.ltb_spec (2 ^ m) cl) as [|C]; [reflexivity|]. destruct (is_pow2 cl) eqn:E; [|reflexivity].
    apply is_pow2_spec in E as (a & ->). elim Hn. split; [exact L|]. exists m, a. split; [reflexivity|]. split; [reflexivity|]. apply pow2_le_inv. exact C.
  - intros m a -> -> Ha Hm L. assert (P2 := pow2_pos m). assert (Pa := pow2_pos a). assert (Pk := pow2_pos (m - a)).
    assert (2 ^ S m <= 2 ^ k)%nat by (apply Nat.pow_le_mono_r; lia).
    assert (E2 : (2 ^ S m = 2 ^ m * 2)%nat) by (rewrite Nat.pow_succ_r'; lia).
    assert (EM : (2 ^ m = 2 ^ (m - a) * 2 ^ a)%nat) by (rewrite <- Nat.pow_add_r; f_equal; lia).
    destruct (Nat.ltb_spec (2 ^ k) (2 ^ S m)); [lia|]. rewrite is_pow2_pow. cbn [negb].
    destruct (Nat.ltb_spec (2 ^ S m) 2); [lia|].
    assert (D : (2 ^ S m / 2 = 2 ^ m)%nat) by (rewrite E2; apply Nat.div_mul; lia). rewrite D.
    destruct (Nat.ltb_spec (2 ^ m) (2 ^ a)); [nia|]. rewrite is_pow2_pow. cbn [negb].
    assert (Dk : (2 ^ m / 2 ^ a = 2 ^ (m - a))%nat) by (rewrite EM; apply Nat.div_mul; lia). rewrite Dk.
    assert (K2 : 2 <= 2 ^ (m - a)) by nia.
    set (kk := 2 ^ (m - a)) in *. set (l := 2 ^ a) in *. unfold for_range. rewrite Nat.sub_0_r.
    destruct l as [|l'] eqn:El; [lia|]. cbn [for_]. rewrite <- El in *.
    cbn [while_]. destruct (Nat.ltb_spec (0 + 1) kk); [|lia].
    destruct (Nat.leb_spec (l + 1 + 0) (2 ^ m)); [|lia].
    rewrite idx_panic by (rewrite S1; lia). reflexivity.
Qed.
Theorem words_fk20_errors checked ks k n s (fks : zkw_single) (fkm : zkw_multi) (p : list Fr) : zkw_setup checked ks k n s ->
  zkws_kzg fks = ks -> zkwm_kzg fkm = ks -> ~ (length p * 2 <= 2 ^ k /\ exists m, length p = 2 ^ m) ->
  (zkw_fk20_single_da_opt checked fks p = Err /\ zkw_fk20_single_da checked fks p = Err) /\
  (zkw_fk20_multi_da_opt checked fkm p = Err /\ zkw_fk20_multi_da checked fkm p = Err).
Proof.
  intros H KS KM Hn. destruct (word_sizes _ _ _ _ _ H) as [W _].
  assert (C : (2 ^ k <? length p * 2) = true \/ negb (is_pow2 (length p * 2)) = true).
  { destruct (Nat.ltb_spec (2 ^ k) (length p * 2)); [left; reflexivity|]. right. destruct (is_pow2 (length p * 2)) eqn:E; [|reflexivity].
    apply is_pow2_spec in E as ([|m] & E); [change (2 ^ 0) with 1 in E; lia|]. elim Hn. split; [assumption|]. exists m. rewrite Nat.pow_succ_r' in E. lia. }
  unfold zkw_fk20_single_da_opt, zkw_fk20_single_da, zkw_fk20_multi_da_opt, zkw_fk20_multi_da. cbv zeta. rewrite KS, KM, W.
  destruct (2 ^ k <? length p * 2); [repeat split|]. destruct C as [C|C]; [discriminate|]. rewrite C. repeat split.
Qed.

(** ** cases *)
Lemma bool_safe p e len : forallb (fun off => forallb (fun i => negb (carry_b (val (multiplier p e len off i)))) (seq 0 (2 ^ S e))) (seq 0 len) = true ->
  safe_multipliers p e len.
Proof.
  intros H off i Ho Hi. rewrite forallb_forall in H. specialize (H off ltac:(apply in_seq; lia)). rewrite forallb_forall in H.
  specialize (H i ltac:(apply in_seq; lia)). apply carry_b_ok. apply negb_true_iff in H. exact H.
Qed.
Definition case_poly : list Fr := [fr_of 5; fr_of 7; fr_of 0; fr_of 11].
Lemma case_safe : safe_multipliers case_poly 2 1 /\ safe_multipliers case_poly 1 2.
Proof. split; apply bool_safe; vm_compute; reflexivity. Qed.
Lemma case_nonzero : exists i, coef case_poly i <> f0.
Proof. exists 0. intros E. apply (f_equal val) in E. revert E. vm_compute. discriminate. Qed.
Lemma case_points : exists data Ps, length data = 4 /\ Forall2 g1_stands data Ps /\ Forall g1_subgroup Ps /\ nth 0 Ps Infinity = g1_gen /\ nth 1 Ps Infinity <> g1_gen.
Proof.
  exists [zkw_g1_generator; zkw_g1_identity; zkw_g1_negative_generator; zkw_g1_generator], [g1_gen; Infinity; point_neg g1_gen; g1_gen].
  destruct words_g1_methods as (M0 & M1 & M2 & _). split; [reflexivity|]. split; [apply Forall2_cons; [exact M1|]; apply Forall2_cons; [exact M0|]; apply Forall2_cons; [exact M2|]; apply Forall2_cons; [exact M1|apply Forall2_nil]|]. split; [|split; [reflexivity|discriminate]].
  assert (S1 : g1_subgroup g1_gen) by exact (pt1_sub c_gen1). assert (S0 : g1_subgroup Infinity) by exact (pt1_sub (g0 : PG1 B)).
  assert (SN : g1_subgroup (point_neg g1_gen)) by exact (pt1_sub (gneg (gen1 : PG1 B))).
  apply Forall_cons; [exact S1|]. apply Forall_cons; [exact S0|]. apply Forall_cons; [exact SN|]. apply Forall_cons; [exact S1|apply Forall_nil].
Qed.
Lemma settings_exist k : k < 32 -> exists fs, zk_fft_settings_new zk_table k = Ok fs.
Proof. intros H. rewrite zk_new_blst. destruct (new_ok k H) as (fs & E & _). exists fs. exact E. Qed.
Lemma case_settings : exists fs, zk_fft_settings_new zk_table 3 = Ok fs.
Proof. apply settings_exist. lia. Qed.
