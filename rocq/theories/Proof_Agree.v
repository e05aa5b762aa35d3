(** * Proof_Agree: the four backends written in Rust give the same results *)
From Coq Require Import List Arith Lia Bool ZArith NArith Field.
From Verif Require Import Base Fld Poly Loops Model_Utils Proof_Utils Model_FFT Spec Spec_More Proof_FFT Zr ZrTables Proof_FFTFr.
From Verif Require Import Model_Das Proof_DasFr Model_Poly Proof_Poly1 Proof_Poly2 Proof_PolyFr Model_ZeroPoly Proof_Zero4 Model_Recovery Proof_Recovery Proof_RecoveryFr.
From Verif Require Import Model_Zk Model_ZkZero Proof_Zk Proof_ZkFr Model_Ark Model_ArkZero Spec_Ark Proof_Ark Proof_ArkFr.
From Verif Require Import Model_Mcl Spec_Mcl Proof_MclFr Model_MclPoly Proof_MclPolyFr Model_MclZero Proof_MclZeroFr.
From Verif Require Import Model_KZG Spec_KZG Proof_KZG Proof_KZGFr Spec_ZkKZG Proof_ZkKZG Model_ArkKZG Spec_ArkKZG Proof_ArkKZG Model_MclKZG Spec_MclKZG Spec_Agree.
Import ListNotations.

Lemma all4 {A} (v : A) a b c d : a = Ok v -> b = Ok v -> c = Ok v -> d = Ok v -> all_give v [a; b; c; d].
Proof. intros. repeat constructor; assumption. Qed.
Lemma agree4 {A} (v : A) a b c d : a = Ok v -> b = Ok v -> c = Ok v -> d = Ok v -> agree [a; b; c; d].
Proof. intros. exists v. apply all4; assumption. Qed.
Lemma all3 {A} (v : A) a b c : a = Ok v -> b = Ok v -> c = Ok v -> all_give v [a; b; c].
Proof. intros. repeat constructor; assumption. Qed.
Lemma agree31 {A} (v : A) a b c (Q : Prop) d : a = Ok v -> b = Ok v -> c = Ok v -> (Q -> d = Ok v) -> agree_when [a; b; c] Q d.
Proof. intros. exists v. split; [apply all3|]; assumption. Qed.
Lemma ok_inj {A} (a b : A) : Ok a = Ok b -> a = b.
Proof. now intros [= ->]. Qed.
Lemma nth_same {A} (a b : list A) n (f : nat -> A) : length a = n -> length b = n ->
  (forall i, i < n -> nth_error a i = Some (f i)) -> (forall i, i < n -> nth_error b i = Some (f i)) -> a = b.
Proof.
  intros La Lb Ha Hb. apply nth_error_ext. intros i. destruct (lt_dec i n); [now rewrite Ha, Hb|].
  rewrite (proj2 (nth_error_None a i)), (proj2 (nth_error_None b i)) by lia. reflexivity.
Qed.

Section Transforms.
Variable W : Fr.
Hypothesis HW : lib_root W.

(** ** settings *)
Lemma settings_fun (s t : fft_settings Fr) k w : settings_ok s k w -> settings_ok t k w -> s = t.
Proof.
  destruct s as [a b c d], t as [a' b' c' d']. intros (A1 & _ & A2 & A3 & A4) (B1 & _ & B2 & B3 & B4). cbn [max_width root_of_unity expanded_roots reverse_roots] in *.
  rewrite A1, A2, A3, A4, B1, B2, B3, B4. reflexivity.
Qed.
Lemma agree_settings k :
  (k < 32 -> exists s, fft_settings_new blst_table k = Ok s /\ zk_fft_settings_new zk_table k = Ok s /\ ark_settings_new W k = Ok s /\
     (k < 7 -> forall fuel g, 2 ^ k <= fuel -> fst (mcl_trait_new fuel mcl_pr7_table (N.of_nat k) g) = Ok s)) /\
  (32 <= k -> fft_settings_new blst_table k = Err /\ zk_fft_settings_new zk_table k = Err /\ ark_settings_new W k = Err /\
     (k < 256 -> forall fuel g, fst (mcl_trait_new fuel mcl_pr7_table (N.of_nat k) g) = Err)).
Proof.
  pose proof (zk_new_blst k) as EZ. pose proof (anew W HW k) as EA. split; intros H.
  - destruct (new_ok k H) as (s & E & _). exists s. split; [exact E|]. split; [congruence|]. split; [congruence|]. intros Hk fuel g Hf. now rewrite C56_agree_proof.
  - pose proof (proj2 (C05_proof k) H) as E. split; [exact E|]. split; [congruence|]. split; [congruence|]. intros Hb fuel g.
    assert (U : as_u8 (N.of_nat k) = k). { unfold as_u8. rewrite N.mod_small by lia. apply Nat2N.id. }
    apply (C50_proof fuel (N.of_nat k) g). rewrite U. exact H.
Qed.
Lemma transforms_same k w sb sz sa sm : transforms W k w sb sz sa sm -> sz = sb /\ sa = sb /\ (w = root k -> sm = sb).
Proof.
  intros (B & Z & A & M). rewrite zk_new_blst in Z. rewrite (anew W HW) in A. split; [congruence|]. split; [congruence|]. intros ->.
  destruct (new_inv _ _ B) as (_ & SB). destruct (mcl_made_ok _ _ _ M) as (_ & SM). exact (settings_fun _ _ _ _ SM SB).
Qed.
Ltac same T := destruct (transforms_same _ _ _ _ _ _ T) as (-> & -> & SM); destruct T as (B & _ & _ & MM).

(** ** transforms *)
Lemma agree_fft k w sb sz sa sm m (data : list Fr) inverse : transforms W k w sb sz sa sm -> m <= k -> length data = 2 ^ m ->
  agree_when [fft_fr sb data inverse; zk_fft_fr sz data inverse; ark_fft_fr W sa data inverse] (w = root k /\ m < 31) (mcl_fft sm data inverse).
Proof.
  intros T Hm HL. same T. destruct (new_inv _ _ B) as (K32 & SB).
  assert (AC : acceptable sb (length data)). { split; [|eauto]. rewrite (proj1 SB), HL. apply Nat.pow_le_mono_r; [discriminate|exact Hm]. }
  destruct (proj1 (fft_fr_total k sb data inverse B) AC) as (out & E & _).
  apply (agree31 out); auto; [now rewrite zfft|now rewrite (afft W HW k)|]. intros (Hw & H31). rewrite (SM Hw). now rewrite (C56_transforms_proof k sb m).
Qed.
Lemma agree_fft_value k w sb sz sa sm m (data : list Fr) : transforms W k w sb sz sa sm -> m <= k -> length data = 2 ^ m ->
  all_give (map (fun i => peval data (fpow (root m) i)) (seq 0 (2 ^ m))) [fft_fr sb data false; zk_fft_fr sz data false; ark_fft_fr W sa data false].
Proof.
  intros T Hm HL. destruct (agree_fft k w sb sz sa sm m data false T Hm HL) as (v & H & _).
  destruct (C07_proof k sb m data (proj1 T) Hm HL) as (out & E & LO & HO).
  replace (map _ _) with v; auto. apply Forall_inv in H as E'. rewrite E in E'. apply ok_inj in E' as <-.
  apply (nth_same _ _ (2 ^ m) (fun i => peval data (fpow (root m) i))); auto; [apply length_map_seq|].
  intros i Hi. now rewrite nth_error_map_seq by auto.
Qed.
Lemma mcl_fft_g1_inverse (M : gmod Fr) k s m (data : list M) inverse : fft_settings_new blst_table k = Ok s -> mcl_made s k (root k) ->
  m <= k -> m < 31 -> length data = 2 ^ m -> mcl_fft_g1 s data inverse = fft_g1 s data inverse.
Proof.
  intros B MM Hm H31 HL.
  assert (FW : forall d : list M, length d = 2 ^ m -> exists o, mcl_fft_g1 s d false = Ok o /\ fft_g1 s d false = Ok o /\ mcl_fft_g1 s o true = Ok d).
  { intros d Hd. destruct (proj1 (C52_proof M s k (root k) d MM) m Hm Hd) as (o & E & LO & HO & HI). destruct (C10_proof M k s m d B Hm Hd) as (o' & E' & LO' & HO' & _).
    assert (o' = o) as ->. { apply (nth_same _ _ (2 ^ m) (fun i => gsum (2 ^ m) (fun j => smul (fpow (root m) (i * j)) (nth j d g0)))); auto.
      intros i Hi. rewrite HO by auto. rewrite root_pow; auto. apply (new_inv _ _ B). }
    eauto. }
  destruct inverse.
  - destruct (C10_proof M k s m data B Hm HL) as (_ & _ & _ & _ & _ & inv & E & E').
    assert (Li : length inv = 2 ^ m). { destruct (fft_g1_total M k s data true B) as (T & _). destruct T as (o & Eo & Lo); [|congruence].
      destruct (new_inv _ _ B) as (_ & SB). split; [|eauto]. rewrite (proj1 SB), HL. apply Nat.pow_le_mono_r; [discriminate|exact Hm]. }
    destruct (FW inv Li) as (o & E1 & E2 & E3). rewrite E' in E2. apply ok_inj in E2 as <-. rewrite E3, E. reflexivity.
  - destruct (FW data HL) as (o & E1 & E2 & _). now rewrite E1, E2.
Qed.
Lemma agree_fft_g1 (M : gmod Fr) k w sb sz sa sm m (data : list M) inverse : transforms W k w sb sz sa sm -> m <= k -> length data = 2 ^ m ->
  agree_when [fft_g1 sb data inverse; zk_fft_g1 sz data inverse; ark_fft_g1 sa data inverse] (w = root k /\ m < 31) (mcl_fft_g1 sm data inverse).
Proof.
  intros T Hm HL. same T. destruct (new_inv _ _ B) as (K32 & SB).
  assert (AC : acceptable sb (length data)). { split; [|eauto]. rewrite (proj1 SB), HL. apply Nat.pow_le_mono_r; [discriminate|exact Hm]. }
  destruct (proj1 (fft_g1_total M k sb data inverse B) AC) as (out & E & _).
  apply (agree31 out); auto; [now rewrite zfftg|rewrite afftg; auto|].
  - intros ->. pose proof (pow2_pos m). cbn in HL. lia.
  - intros (-> & H31). rewrite (SM eq_refl) in *. now rewrite (mcl_fft_g1_inverse M k sb m).
Qed.
Lemma agree_das k w sb sz sa sm m (evens : list Fr) : transforms W k w sb sz sa sm -> m < k -> length evens = 2 ^ m ->
  agree_when [das_fft_extension sb evens; zk_das_fft_extension sz evens; ark_das_fft_extension sa evens] (w = root k) (mcl_trait_das sm evens).
Proof.
  intros T Hm HL. same T. destruct (new_inv _ _ B) as (K32 & _).
  destruct (C11_proof k sb m evens B Hm HL) as (odds & p & E & LO & LP & HV & _).
  apply (agree31 odds); auto; [now rewrite zdas|now rewrite adas|]. intros ->. rewrite (SM eq_refl) in *.
  destruct (proj1 (C54_proof sb k (root k) evens MM) m Hm HL) as (odds' & p' & E' & LO' & LP' & PR & HV').
  rewrite root_pow in HV', PR by lia.
  rewrite E'. f_equal.
  assert (C : forall i, coef p i = coef p' i).
  { apply (interp_unique (map (fpow (fpow (root (S m)) 2)) (seq 0 (2 ^ m)))).
    - apply primitive_NoDup. apply primitive_pow; [now rewrite Nat.mul_comm|lia].
    - rewrite length_map_seq. lia.
    - rewrite length_map_seq. lia.
    - intros x Hx. apply in_map_iff in Hx as (i & <- & Hi). apply in_seq in Hi. rewrite <- fpow_mul.
      destruct (HV i) as (A1 & _); [lia|]. destruct (HV' i) as (A2 & _); [lia|]. rewrite A1 in A2. now injection A2. }
  apply (nth_same _ _ (2 ^ m) (fun i => peval p' (fpow (root (S m)) (2 * i + 1)))); auto.
  - intros i Hi. apply (HV' i Hi).
  - intros i Hi. rewrite (proj2 (HV i Hi)). now rewrite (peval_ext p p') by exact C.
Qed.
End Transforms.

(** ** polynomials *)
Section Cancel.
Context {K : fld}.
Add Field KfAg : (fld_field K).
Lemma fadd_cancel (x y z : K) : (x + z = y + z -> x = y)%F.
Proof. intros H. replace x with (x + z - z)%F by ring. rewrite H. ring. Qed.
End Cancel.
Lemma series_fun (p c d : list Fr) n : coef p 0 <> f0 -> length c = n -> length d = n ->
  (forall k, k < n -> convol p c k = convol p d k) -> c = d.
Proof.
  intros P0 Lc Ld H. apply coef_ext; [congruence|]. rewrite Lc. intros i. induction i as [i IH] using lt_wf_ind. intros Hi.
  specialize (H i Hi). unfold convol in H. rewrite !sum_S_l in H. rewrite Nat.sub_0_r in H.
  rewrite (sum_ext i _ (fun j => fmul (coef p (S j)) (coef d (i - S j)))) in H by (intros j Hj; rewrite IH by lia; reflexivity).
  apply (fmul_cancel_l (coef p 0)); auto. eapply fadd_cancel. exact H.
Qed.
Lemma product_fun (a b c d : list Fr) n : length c = n -> length d = n -> (forall k, k < n -> nth_error c k = Some (convol a b k)) ->
  (forall k, k < n -> nth_error d k = Some (convol a b k)) -> c = d.
Proof. intros. eapply nth_same; eauto. Qed.
Lemma nonzero_nil (p : list Fr) : nonzero p -> p <> [].
Proof. intros (i & H) ->. apply H. unfold coef. now destruct i. Qed.
Lemma top_nonzero' (p : list Fr) : coef p (length p - 1) <> f0 -> nonzero p.
Proof. intros H. exists (length p - 1). exact H. Qed.
Lemma top_trim (p p' : list Fr) : coef p (length p - 1) <> f0 -> (exists z, p = p' ++ repeat f0 z) -> last p' f0 <> f0 -> p' = p.
Proof.
  intros H Z T. apply (trimmed_unique p p' p); [split; auto|]. split; [exists 0; now rewrite app_nil_r|]. now rewrite last_coef.
Qed.
Section Poly.
Variable W : Fr.
Hypothesis HW : lib_root W.
Lemma agree_mul (a b : list Fr) len : nonzero a -> nonzero b -> (N.of_nat (length a + length b - 1) <= 2 ^ 30)%N ->
  exists c, all_give c [poly_mul blst_table a b len; zk_poly_mul zk_table a b len; ark_poly_mul W a b None len; mcl_mul mcl_pr5_table a b len] /\
    all_give c [mul_direct a b len; zk_mul_direct a b len; ark_mul_direct a b len; mcl_mul_direct a b len] /\
    (0 < len -> all_give c [mul_fft blst_table a b len; zk_poly_mul_fft zk_table len a b; ark_mul_fft W a b None len; mcl_mul_fft mcl_pr5_table a b None len]) /\
    length c = len /\ forall k, k < len -> nth_error c k = Some (convol a b k).
Proof.
  intros Na Nb HF. pose proof (nonzero_nil _ Na) as Ea. pose proof (nonzero_nil _ Nb) as Eb.
  assert (F : fits (length a + length b - 1)) by (unfold fits; lia).
  destruct (proj1 (C14_proof a b len) Ea Eb) as (c & E & Lc & Hc).
  destruct (C15_proof a b len Ea Eb F) as (c1 & E1 & L1 & H1). rewrite (product_fun a b c1 c len) in E1 by auto. clear c1 L1 H1.
  pose proof (C15_threshold_proof a b len F) as E2. rewrite E in E2.
  destruct (C66_mul_proof a b len Ea Eb F) as (c1 & Z1 & Z2 & Z3 & L1 & H1). rewrite (product_fun a b c1 c len) in Z1, Z2, Z3 by auto. clear c1 L1 H1.
  destruct (C74_mul_proof W HW a b len Na Nb F) as (c1 & A1 & A2 & A3 & L1 & H1). rewrite (product_fun a b c1 c len) in A1, A2, A3 by auto. clear c1 L1 H1.
  destruct (C57_direct_proof a b len) as (c1 & M1 & L1 & H1). rewrite (product_fun a b c1 c len) in M1 by auto. clear c1 L1 H1.
  assert (F' : (N.of_nat (Nat.min (length a) len + Nat.min (length b) len - 1) <= 2 ^ 30)%N) by lia.
  pose proof (C57_mul_proof a b None len F' I) as M2. rewrite M1 in M2.
  exists c. split; [apply all4; auto|]. split; [apply all4; auto|]. split; [|auto]. intros L0. apply all4; auto.
  rewrite C57_fft_proof; auto. exact I.
Qed.
Lemma agree_inverse (p : list Fr) n : 0 < n -> coef p 0 <> f0 -> fits (length p + n - 1) -> (N.of_nat (2 * n) <= 2 ^ 30)%N ->
  agree [poly_inverse blst_table p n; zk_poly_inverse zk_table p n; ark_poly_inverse W p n; mcl_inverse mcl_pr5_table p n].
Proof.
  intros N0 C0 F1 F2. assert (Np : p <> []) by (intros ->; apply C0; reflexivity).
  assert (F3 : fits (2 * n)) by (unfold fits; lia).
  destruct (proj1 (C16_proof p n) N0 Np C0 F1 F3) as (c & E & Lc & H0 & H1).
  destruct (proj1 (C66_inverse_proof p n) N0 Np C0 F1 F3) as (cz & Ez & Lz & Hz0 & Hz1).
  destruct (proj1 (C74_inverse_proof W HW p n) N0 C0) as (ca & Ea & La & Ha0 & Ha1); [right; unfold fits; lia|].
  destruct (proj1 (C58_proof p n) N0 Np C0) as (cm & Em & Lm & Hm0 & Hm1); [lia|].
  assert (U : forall d, length d = n -> convol p d 0 = f1 -> (forall k, 0 < k < n -> convol p d k = f0) -> d = c).
  { intros d Ld D0 D1. apply (series_fun p d c n); auto. intros [|k] Hk; [now rewrite D0, H0|]. rewrite D1, H1 by lia. reflexivity. }
  apply (agree4 c); auto; [rewrite Ez, (U cz) by auto|rewrite Ea, (U ca) by auto|rewrite Em, (U cm) by auto]; reflexivity.
Qed.
Lemma agree_div (a b : list Fr) : coef a (length a - 1) <> f0 -> coef b (length b - 1) <> f0 -> (N.of_nat (2 * length a) <= 2 ^ 30)%N ->
  exists q, all_give q [poly_div blst_table a b; zk_poly_div zk_table a b; ark_poly_div W a b; mcl_poly_div mcl_pr5_table a b] /\
    all_give q [long_div a b; zk_long_div a b; ark_long_div a b; mcl_long_division a b] /\
    all_give q [fast_div blst_table a b; zk_fast_div zk_table a b; ark_fast_div W a b; mcl_fast_div mcl_pr5_table a b] /\
    euclid a b q /\ forall q', euclid a b q' -> q' = q.
Proof.
  intros Ta Tb HF. pose proof (top_nonzero' _ Ta) as Na. pose proof (top_nonzero' _ Tb) as Nb.
  pose proof (nonzero_nil _ Na) as Ea. pose proof (nonzero_nil _ Nb) as Eb.
  assert (F : fits (2 * length a)) by (unfold fits; lia).
  destruct (proj1 (C17_proof a b) Eb Tb) as (q & E & Q & U). exists q.
  pose proof (C18_fast_proof a b Ea F) as E1. pose proof (C18_div_proof a b F) as E2. rewrite E in E1, E2.
  destruct (C66_long_proof a b Ea Tb) as (qz & Z1 & Qz & _). apply U in Qz. subst qz.
  pose proof (C66_fast_proof a b Ea Tb F) as Z2. rewrite Z1 in Z2.
  destruct (C66_div_proof a b F Na Nb) as (a' & b' & qz & Z3 & Da & Db & La & Lb & Qz).
  pose proof (top_trim a a' Ta Da La). pose proof (top_trim b b' Tb Db Lb). subst a' b'. apply U in Qz. subst qz.
  destruct (proj1 (C74_long_proof a b) Na Nb) as (a' & b' & qa & A1 & Da' & Db' & La' & Lb' & Qa & _).
  pose proof (top_trim a a' Ta Da' La'). pose proof (top_trim b b' Tb Db' Lb'). subst a' b'. apply U in Qa. subst qa.
  destruct (C74_fast_proof W HW a b Ea Tb F) as (qa & A2 & Qa & _); [auto|]. apply U in Qa. subst qa.
  destruct (C74_div_proof W HW a b Tb Na F) as (qa & r & A3 & Lq & Lr & Hr).
  assert (qa = q) as ->.
  { assert (X : euclid a b (qa ++ repeat f0 (length a + 1 - length b - length qa))).
    { split; [rewrite app_length, repeat_length; lia|]. exists r. split; auto. intros k. rewrite Hr. f_equal. unfold convol. apply sum_ext. intros i _. f_equal.
      rewrite coef_app. destruct (Nat.ltb_spec i (length qa)); [reflexivity|]. now rewrite coef_repeat0, coef_over by lia. }
    pose proof (U _ X) as Y. destruct (le_lt_dec (length b) (length a)) as [H|H].
    - destruct (Nat.eq_dec (length qa) (length a + 1 - length b)) as [G|G].
      + rewrite G, Nat.sub_diag in Y. cbn [repeat] in Y. now rewrite app_nil_r in Y.
      + exfalso. assert (B0 : 0 < length b) by (destruct b; [congruence|cbn; lia]).
        apply (top_nonzero a b q Q); [now rewrite last_coef|lia|]. rewrite <- Y, last_coef, app_length, repeat_length, coef_app.
        destruct (Nat.ltb_spec (length qa + (length a + 1 - length b - length qa) - 1) (length qa)); [lia|]. apply coef_repeat0.
    - replace (length a + 1 - length b - length qa) with 0 in Y by lia. cbn [repeat] in Y. now rewrite app_nil_r in Y. }
  pose proof (C59_long_blst_proof a b) as M1. rewrite E in M1.
  pose proof (C59_fast_proof a b HF) as M2. rewrite M1 in M2.
  destruct (proj2 (C59_div_proof a b HF) Nb) as (b' & qm & M3 & Db'' & Lb'' & Qm).
  rewrite <- last_coef in Lb''. pose proof (top_trim b b' Tb Db'' Lb''). subst b'. apply U in Qm. subst qm.
  split; [apply all4; auto|]. split; [apply all4; auto|]. split; [apply all4; auto|]. split; auto.
Qed.

(** ** erasure coding *)
Lemma agree_zero_poly k w sb sz sa sm m (missing : list nat) : transforms W k w sb sz sa sm -> m <= k ->
  0 < length missing < 2 ^ m -> length missing <= 63 * (2 ^ m / 64 + 1) -> Forall (fun i => i < 2 ^ m) missing ->
  agree_when [zero_poly_via_multiplication sb (2 ^ m) missing; zk_zero_poly sz (2 ^ m) missing; ark_zero_poly W sa (2 ^ m) missing]
    (w = root k /\ m <= 30) (mcl_zero_poly sm (2 ^ m) missing).
Proof.
  intros T Hm H1 H2 H3. pose proof T as (B & Z & A & M). destruct (new_inv _ _ B) as (K32 & _).
  destruct (C22_proof k sb m missing B Hm H1 H2 H3) as (ev & zp & E & Le & Lz & Hz & _ & _ & He & _).
  destruct (C68_zero_poly_proof k sz m missing Z Hm H1 H2 H3) as (ev1 & zp1 & E1 & Le1 & Lz1 & Hz1 & _ & _ & He1 & _).
  destruct (C76_zero_poly_proof W HW k sa m missing A Hm H1 H2 H3) as (ev2 & zp2 & E2 & Le2 & Lz2 & Hz2 & _ & _ & He2 & _).
  assert (U : forall ev' zp', length ev' = 2 ^ m -> length zp' = 2 ^ m -> (forall j, coef zp' j = coef (vanish_poly (map (fpow (root m)) missing)) j) ->
    (forall i, i < 2 ^ m -> nth_error ev' i = Some (peval zp' (fpow (root m) i))) -> (ev', zp') = (ev, zp)).
  { intros ev' zp' L' L'' Hv' He'. assert (zp' = zp) as ->. { apply coef_ext; [congruence|]. intros i _. now rewrite Hv', Hz. }
    f_equal. exact (nth_same _ _ (2 ^ m) _ L' Le He' He). }
  apply (agree31 (ev, zp)); [exact E|rewrite E1|rewrite E2|]; [f_equal; apply U; assumption..|]. intros (-> & H30).
  destruct (C60_proof sm k (root k) m missing M Hm H30 H1 H2 H3) as (ev3 & zp3 & E3 & Le3 & Lz3 & Hz3 & _ & _ & He3 & _).
  rewrite root_pow in Hz3, He3 by auto. rewrite E3. f_equal. apply U; assumption.
Qed.
Lemma agree_recover k w sb sz sa sm m (samples : list (option Fr)) : transforms W k w sb sz sa sm -> m <= k -> m <= 16 -> length samples = 2 ^ m ->
  0 < missing_count samples < 2 ^ m -> missing_count samples <= 63 * (2 ^ m / 64 + 1) ->
  agree_when [recover_opt factor_table_len sb samples; zk_recover sz samples; ark_recover W sa samples] (w = root k) (mcl_recover sm samples).
Proof.
  intros T Hm H16 HL H1 H2. pose proof T as (B & Z & A & M). destruct (new_inv _ _ B) as (K32 & _).
  destruct (C24_gen_proof k sb m samples B Hm H16 HL H1 H2) as (p & d & Lp & E & Ld & Hd & Hp & U).
  destruct (C69_gen_proof k sz m samples Z Hm HL H1 H2) as (p1 & d1 & Lp1 & E1 & Ld1 & Hd1 & Hp1 & _).
  destruct (C77_gen_proof W HW k sa m samples A Hm HL H1 H2) as (p2 & d2 & Lp2 & E2 & Ld2 & Hd2 & Hp2 & _).
  assert (V : forall q e, length q = 2 ^ m - missing_count samples -> length e = 2 ^ m -> (forall i, i < 2 ^ m -> nth_error e i = Some (peval q (fpow (root m) i))) ->
    (forall i v, nth_error samples i = Some (Some v) -> peval q (fpow (root m) i) = v) -> e = d).
  { intros q e Lq Le He Hq. apply (nth_same _ _ (2 ^ m) (fun i => peval p (fpow (root m) i))); auto.
    intros i Hi. rewrite He by auto. f_equal. apply peval_ext. apply U; [lia|exact Hq]. }
  apply (agree31 d); [exact E|rewrite E1, (V p1 d1) by assumption; reflexivity|rewrite E2, (V p2 d2) by assumption; reflexivity|]. intros ->.
  destruct (C61_unique_proof sm k (root k) m samples M Hm ltac:(lia) HL H1 H2) as (p3 & d3 & Lp3 & E3 & Ld3 & Hd3 & Hp3 & _).
  rewrite root_pow in Hd3, Hp3 by auto. rewrite E3, (V p3 d3) by assumption. reflexivity.
Qed.
End Poly.
