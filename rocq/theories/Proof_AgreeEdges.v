(** * Proof_AgreeEdges: inputs on which the four backends written in Rust do not agree *)
From Coq Require Import List Arith Lia Bool ZArith NArith Field.
From Verif Require Import Base Fld Poly Loops Model_Utils Proof_Utils Model_FFT Spec Spec_More Proof_FFT Zr ZrTables Proof_FFTFr.
From Verif Require Import Model_Poly Proof_Poly1 Proof_Poly2 Proof_PolyFr Model_ZeroPoly Proof_Zero4 Model_Recovery Proof_Recovery Proof_RecoveryFr.
From Verif Require Import Model_Zk Model_ZkZero Proof_Zk Proof_ZkFr Model_Ark Model_ArkZero Spec_Ark Proof_Ark Proof_ArkFr.
From Verif Require Import Model_Mcl Spec_Mcl Proof_MclFr Model_MclPoly Proof_MclPolyFr Model_MclZero Proof_MclZeroFr.
From Verif Require Import Model_KZG Spec_KZG Proof_KZG Proof_KZGFr Model_ZkKZG Spec_ZkKZG Proof_ZkKZG Model_ArkKZG Spec_ArkKZG Proof_ArkKZG.
From Verif Require Import Model_MclKZG Spec_MclKZG Proof_MclKZGFr Spec_Agree Proof_Agree Proof_AgreeKZG.
Import ListNotations.

Section Zeros.
Context {K : fld}.
Add Field KfAe : (fld_field K).
Lemma convol_zero (a b : list K) k : (forall i, coef a i = f0) -> convol a b k = f0.
Proof.
  intros Z. unfold convol. generalize (S k). intros n. induction n as [|n IH]; [reflexivity|]. cbn [sum]. rewrite IH, Z. ring.
Qed.
End Zeros.

Section Edges.
Variable W : Fr.
Hypothesis HW : lib_root W.

Lemma edge_inverse (p : list Fr) : coef p 0 <> f0 ->
  poly_inverse blst_table p 0 = Err /\ zk_poly_inverse zk_table p 0 = Panic /\ ark_poly_inverse W p 0 = Panic /\ mcl_inverse mcl_pr5_table p 0 = Ok [].
Proof.
  intros H. split; [apply C16_proof; auto|]. split; [now apply C66_inverse_empty_proof|]. split; [apply C74_inverse_panics_proof; auto|].
  apply (C58_proof p 0). auto.
Qed.
Lemma zero_nil : forall i, coef (@nil Fr) i = f0.
Proof. intros i. apply coef_nil. Qed.
Lemma all_zero (c : list Fr) n : length c = n -> (forall k, k < n -> nth_error c k = Some f0) -> c = repeat f0 n.
Proof. intros Lc H. apply (nth_same _ _ n (fun _ => f0)); auto; [apply repeat_length|]. intros i Hi. now apply nth_error_repeat. Qed.
Lemma edge_mul_empty (b : list Fr) len :
  mul_direct [] b len = Ok [] /\ zk_mul_direct [] b len = Ok [] /\ ark_mul_direct [] b len = Ok [] /\ mcl_mul_direct [] b len = Ok (repeat f0 len).
Proof.
  split; [apply C14_proof; auto|]. split; [apply C66_mul_empty_proof; auto|]. split; [apply (C74_mul_zero_proof W HW); left; apply zero_nil|].
  destruct (C57_direct_proof [] b len) as (c & -> & Lc & Hc). f_equal. apply all_zero; auto. intros k Hk. rewrite Hc by auto. f_equal. apply convol_zero, zero_nil.
Qed.
Lemma edge_mul_zero (a b : list Fr) len : a <> [] -> b <> [] -> (forall i, coef a i = f0) -> fits (length a + length b - 1) ->
  mul_direct a b len = Ok (repeat f0 len) /\ zk_mul_direct a b len = Ok (repeat f0 len) /\ ark_mul_direct a b len = Ok [] /\ mcl_mul_direct a b len = Ok (repeat f0 len).
Proof.
  intros Ha Hb Z F. assert (V : forall c, length c = len -> (forall k, k < len -> nth_error c k = Some (convol a b k)) -> c = repeat f0 len).
  { intros c Lc Hc. apply all_zero; auto. intros k Hk. rewrite Hc by auto. f_equal. now apply convol_zero. }
  split. { destruct (proj1 (C14_proof a b len) Ha Hb) as (c & -> & Lc & Hc). f_equal. now apply V. }
  split. { destruct (C66_mul_proof a b len Ha Hb F) as (c & _ & -> & _ & Lc & Hc). f_equal. now apply V. }
  split; [apply (C74_mul_zero_proof W HW); auto|].
  destruct (C57_direct_proof a b len) as (c & -> & Lc & Hc). f_equal. now apply V.
Qed.
Lemma edge_div_zero (a b : list Fr) : (forall i, coef a i = f0) -> coef b (length b - 1) <> f0 -> length b < 128 -> (N.of_nat (2 * length a) <= 2 ^ 30)%N ->
  exists q, poly_div blst_table a b = Ok q /\ zk_poly_div zk_table a b = Panic /\ ark_poly_div W a b = Ok [] /\ mcl_poly_div mcl_pr5_table a b = Ok q /\
    length q = length a + 1 - length b.
Proof.
  intros Z Tb H128 HF. assert (F : fits (2 * length a)) by (unfold fits; lia). pose proof (top_nonzero' _ Tb) as Nb. pose proof (nonzero_nil _ Nb) as Eb.
  destruct (proj1 (C17_proof a b) Eb Tb) as (q & E & Q & U). exists q. split; [rewrite C18_div_proof; auto|].
  split; [apply C66_div_fail_proof; auto|]. split; [apply (C74_div_edges_proof W HW); auto|].
  destruct (proj2 (C59_div_proof a b HF) Nb) as (b' & qm & M3 & Db & Lb & Qm). rewrite <- last_coef in Lb.
  pose proof (top_trim b b' Tb Db Lb). subst b'. apply U in Qm. subst qm. split; [exact M3|]. apply Q.
Qed.
Lemma edge_missing k w sb sz sa sm d : transforms W k w sb sz sa sm ->
  zero_poly_via_multiplication sb d [] = Ok ([], []) /\ zk_zero_poly sz d [] = Ok ([], []) /\ ark_zero_poly W sa d [] = Ok ([], []) /\
  mcl_zero_poly sm d [] = Ok (repeat f0 d, repeat f0 d).
Proof.
  intros (B & Z & A & M). split; [now apply (C22_args_proof k)|]. split; [now apply C68_args_proof|]. split; [now apply C76_args_proof|]. now apply C60_args_proof.
Qed.
Lemma edge_complete k w sb sz sa sm m (vs : list Fr) : transforms W k w sb sz sa sm -> m <= k -> m <= 30 -> length vs = 2 ^ m ->
  recover_opt factor_table_len sb (map Some vs) = Panic /\ zk_recover sz (map Some vs) = Panic /\ ark_recover W sa (map Some vs) = Panic /\
  mcl_recover sm (map Some vs) = Ok (repeat f0 (2 ^ m)).
Proof.
  intros (B & Z & A & M) Hm H30 Lv. split; [now apply (recover_opt_complete _ _ _ m)|]. split; [now apply (C69_complete_proof k _ m)|].
  split; [now apply (C77_complete_proof W HW k _ m)|]. now apply (C61_complete_proof sm k w m).
Qed.
End Edges.

Section KzgEdges.
Context {P : pairing Fr}.
Variable L : ark_lib P.
Hypothesis HW : lib_root (lib_W L).
Lemma edge_zero_proof k w N s kb kz ka km (p : list Fr) x : setups L k w N s kb kz ka km -> (forall i, coef p i = f0) -> length p <= N -> 0 < N -> fits (2 * length p) ->
  compute_proof_single blst_table kb p x = Ok g0 /\ zk_compute_proof_single zk_table kz p x = Panic /\
  ark_compute_proof_single ka p x = Ok g0 /\ mcl_compute_proof_single km p x = Ok g0.
Proof.
  intros ((nb & lb & B & Hb) & (nz & Z & Hz) & (u & A & Ha) & (nm & lm & M & Hm)) H0 Lp N0 F.
  assert (U0 : 0 < u) by (destruct u; [change (N <= 0) in Ha|]; lia). assert (V := opening_zero (P := P) p x 1 s Nat.lt_0_1 H0).
  split. { destruct (C35_compute_proof kb k nb lb s p x 1 B F) as (_ & Q & _). destruct (Q 0 eq_refl ltac:(lia)) as (q & Eq & Rq). unfold compute_proof_single. rewrite Rq. f_equal.
    apply (opening_fun p x 1 s); [lia| |exact V]. exists q. split; [exact Eq|reflexivity]. }
  split. { destruct (C71_compute_proof kz k nz s p x 1 Z F) as (_ & Q & _). exact (Q 0 eq_refl H0). }
  split. { apply (C79_compute_proof L HW ka k u s p x A); auto. }
  destruct (C63_truncated_proof km k w nm lm s p x M) as (q & Eq & Lq & ->). rewrite firstn_all2 by lia. f_equal.
  apply (opening_fun p x 1 s); [lia| |exact V]. now apply opening_1.
Qed.
Lemma edge_commit_long k w n nz u nm len lm s t t' (kb kz : kzg_settings P) (ka : ark_kzg P) (km : kzg_settings P) (p : list Fr) : api_setup kb k n len s -> zk_setup kz k nz s -> ark_made L ka k u t -> mcl_setup km k w nm lm t' ->
  (N.of_nat (length p) < 2 ^ 64)%N -> len < length p -> nz < length p -> u + 1 < length p -> lm < length p ->
  commit_to_poly kb p = Err /\ zk_commit_to_poly kz p = Panic /\ ark_commit_to_poly ka p = Panic /\ mcl_commit km p = Err.
Proof.
  intros B Z A M H64 H1 H2 H3 H4. split; [now apply (C28_proof kb k n len s p B)|]. split; [now apply (C71_commit_proof kz k nz s p Z H64)|].
  split; [now apply (C79_commit_proof L HW ka k u t p A)|]. now apply (C63_commit_proof km k w nm lm t' p M).
Qed.
Lemma pow2_acceptable (fs : fft_settings Fr) k w m : settings_ok fs k w -> m <= k -> acceptable fs (2 ^ m).
Proof. intros S Hm. split; [|now exists m]. rewrite (proj1 S). apply Nat.pow_le_mono_r; [discriminate|exact Hm]. Qed.
Lemma edge_origin k w N s kb kz ka km fexp m com proof (ys : list Fr) : setups L k w N s kb kz ka km -> fexp <> f0 -> m <= k -> m < 31 ->
  length ys = 2 ^ m -> 2 ^ m < N ->
  (exists b, check_proof_multi kb com proof f0 ys (2 ^ m) = Ok b) /\ zk_check_proof_multi kz com proof f0 ys (2 ^ m) = Panic /\
  ark_check_proof_multi L ka com proof f0 ys (2 ^ m) = Panic /\ (exists b, mcl_check_proof_multi fexp km com proof f0 ys (2 ^ m) = Ok b).
Proof.
  intros ((nb & lb & B & Hb) & (nz & Z & Hz) & (u & A & Ha) & (nm & lm & M & Hm)) Hf Mk M31 Ly HN.
  split. { destruct (C35_check_proof kb k nb lb s com proof f0 ys (2 ^ m) B) as (_ & Q). destruct (api_inv _ _ _ _ _ B) as (_ & _ & S & _).
    apply (proj1 (Q m eq_refl ltac:(rewrite Ly; exact (pow2_acceptable _ k (root k) m S Mk)))); lia. }
  split. { destruct (C71_multi_check_proof kz k nz s com proof f0 ys (2 ^ m) Z) as (_ & Q). destruct (zk_setup_inv _ _ _ _ Z) as (_ & _ & S & _).
    apply (proj2 (Q m eq_refl ltac:(rewrite Ly; exact (pow2_acceptable _ k (root k) m S Mk)))). left. reflexivity. }
  split. { apply (C80_check_proof L HW ka k u s com proof f0 ys (2 ^ m) A). auto. }
  destruct (C63_multi_check_proof km k w nm lm s fexp com proof f0 ys (2 ^ m) M Hf) as (_ & _ & Q). apply (proj1 (proj2 (Q m eq_refl) m Ly Mk M31)); lia.
Qed.
End KzgEdges.

Lemma edge_secret b : (0 < b < 256)%Z -> let secret := (b :: repeat 0 31)%Z in
  exists x, mcl_from_scalar secret = Ok x /\ val x = (b * 2 ^ 56)%Z /\ val (fr_from_scalar secret) = b /\ val (fr_of (le_value secret)) = b.
Proof.
  intros H secret. destruct (C62_scalar_differs_proof b H) as (x & E & Hx & Hs). exists x. split; [exact E|]. split; [exact Hx|]. split; [exact Hs|]. exact Hs.
Qed.
