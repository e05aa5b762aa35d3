(** * Proof_FFTFr: the FFT results instantiated at the concrete scalar field and the
    embedded root table; backing lemmas for [Properties_FFT]. *)
From Coq Require Import List Arith Lia Bool NArith ZArith.
From Verif Require Import Base Fld Poly Model_Utils Proof_Utils Model_FFT Spec Proof_FFT Zr ZrTables.
Import ListNotations.

(** the embedded [2^m]-th root of unity *)
Definition root (m : nat) : Fr := nth m blst_table f0.

Lemma root_primitive m : m < 32 -> primitive (root m) (2 ^ m).
Proof. intros H. apply blst_table_ok. rewrite blst_table_length. exact H. Qed.

Lemma root_pow k m : m <= k -> k < 32 -> fpow (root k) (2 ^ (k - m)) = root m.
Proof. apply blst_table_pow. Qed.

Lemma new_inv k s : fft_settings_new blst_table k = Ok s -> k < 32 /\ settings_ok s k (root k).
Proof.
  intros H. destruct (Nat.lt_ge_cases k 32) as [L|L].
  - split; auto. destruct (fft_settings_new_ok blst_table k blst_table_ok) as (s' & E & S).
    + now rewrite blst_table_length.
    + rewrite E in H. now injection H as <-.
  - rewrite fft_settings_new_err in H by (rewrite blst_table_length; auto). discriminate.
Qed.

Lemma new_ok k : k < 32 -> exists s, fft_settings_new blst_table k = Ok s /\ settings_ok s k (root k).
Proof.
  intros L. apply (fft_settings_new_ok blst_table k blst_table_ok). now rewrite blst_table_length.
Qed.

Lemma C05_proof (scale : nat) :
  (scale < 32 ->
   exists s w, fft_settings_new blst_table scale = Ok s /\
     max_width s = 2 ^ scale /\ primitive w (2 ^ scale) /\ root_of_unity s = w /\
     length (expanded_roots s) = 2 ^ scale + 1 /\ length (reverse_roots s) = 2 ^ scale + 1 /\
     forall i, i <= 2 ^ scale ->
       nth_error (expanded_roots s) i = Some (fpow w i) /\
       nth_error (reverse_roots s) i = Some (fpow w (2 ^ scale - i)) /\
       fmul (fpow w i) (fpow w (2 ^ scale - i)) = f1) /\
  (32 <= scale -> fft_settings_new blst_table scale = Err).
Proof.
  split.
  - intros H. destruct (new_ok scale H) as (s & E & (A & B & C & D & F)).
    exists s, (root scale). rewrite D, F, !length_map_seq.
    repeat split; auto; try apply B; try lia; try apply C.
    + rewrite (nth_error_nth' _ f0) by (rewrite length_map_seq; lia). now rewrite nth_map_seq by lia.
    + rewrite (nth_error_nth' _ f0) by (rewrite length_map_seq; lia). now rewrite nth_map_seq by lia.
    + rewrite <- fpow_add. replace (i + (2 ^ scale - i)) with (2 ^ scale) by lia. apply B.
  - intros H. apply fft_settings_new_err. now rewrite blst_table_length.
Qed.

Definition acceptable (s : fft_settings Fr) (n : nat) : Prop :=
  n <= max_width s /\ exists m, n = 2 ^ m.

Lemma acceptable_m k s n : fft_settings_new blst_table k = Ok s -> acceptable s n ->
  exists m, n = 2 ^ m /\ m <= k.
Proof.
  intros H (A & m & ->). exists m. split; auto.
  destruct (new_inv k s H) as (_ & B & _). rewrite B in A. now apply pow2_le_inv.
Qed.

Lemma not_acceptable s k n : settings_ok s k (root k) -> ~ acceptable s n ->
  2 ^ k < n \/ (forall m, n <> 2 ^ m).
Proof.
  intros HS HN. destruct (Nat.lt_ge_cases (2 ^ k) n) as [|L]; auto. right. intros m E.
  apply HN. split; [|eauto]. destruct HS as (-> & _). exact L.
Qed.

Lemma fft_g1_total (M : gmod Fr) k s (data : list M) inv :
  fft_settings_new blst_table k = Ok s ->
  (acceptable s (length data) -> exists out, fft_g1 s data inv = Ok out /\ length out = length data) /\
  (~ acceptable s (length data) -> fft_g1 s data inv = Err).
Proof.
  intros HN. destruct (new_inv k s HN) as (Hk & HS). split.
  - intros HA. destruct (acceptable_m k s _ HN HA) as (m & E & Hm).
    destruct inv.
    + rewrite (ifft_g1_spec s k (root k) m) by auto. eexists. split; [reflexivity|].
      rewrite map_length, dft_length. auto.
    + rewrite (fft_g1_spec s k (root k) m) by auto. eexists. split; [reflexivity|].
      rewrite dft_length. auto.
  - intros HA. apply (fft_g1_errors s k (root k)); auto. eapply not_acceptable; eauto.
Qed.

Lemma fft_fr_total k s (data : list Fr) inv :
  fft_settings_new blst_table k = Ok s ->
  (acceptable s (length data) -> exists out, fft_fr s data inv = Ok out /\ length out = length data) /\
  (~ acceptable s (length data) -> fft_fr s data inv = Err).
Proof. rewrite fft_fr_self. exact (fft_g1_total (self_mod Fr) k s data inv). Qed.

Lemma fft_fr_eval k s m (data : list Fr) :
  fft_settings_new blst_table k = Ok s -> m <= k -> length data = 2 ^ m ->
  fft_fr s data false = Ok (map (fun i => peval data (fpow (root m) i)) (seq 0 (2 ^ m))).
Proof.
  intros HN Hm HL. destruct (new_inv k s HN) as (Hk & HS).
  rewrite (fft_fr_spec s k (root k) m) by auto. now rewrite root_pow.
Qed.

Lemma C07_proof k s m (data : list Fr) :
  fft_settings_new blst_table k = Ok s -> m <= k -> length data = 2 ^ m ->
  exists out, fft_fr s data false = Ok out /\ length out = 2 ^ m /\
    forall i, i < 2 ^ m -> nth_error out i = Some (peval data (fpow (root m) i)).
Proof.
  intros HN Hm HL. rewrite (fft_fr_eval k s m) by auto.
  eexists. split; [reflexivity|]. rewrite length_map_seq. split; auto.
  intros i Hi. rewrite (nth_error_nth' _ f0) by (rewrite length_map_seq; auto).
  now rewrite nth_map_seq.
Qed.

Lemma C08_proof k s (data : list Fr) :
  fft_settings_new blst_table k = Ok s -> acceptable s (length data) ->
  (let* f := fft_fr s data false in fft_fr s f true) = Ok data /\
  (let* f := fft_fr s data true in fft_fr s f false) = Ok data.
Proof.
  intros HN HA. destruct (new_inv k s HN) as (Hk & HS).
  destruct (acceptable_m k s _ HN HA) as (m & E & Hm).
  exact (fft_fr_roundtrip s k (root k) m data HS Hm E).
Qed.

(** any table of successive powers will do for the two low-level transforms *)
Lemma C09_proof (K : fld) (w : K) m (ret1 ret2 data roots : list K) rs :
  primitive w (2 ^ m) -> length data = 2 ^ m -> length ret1 = 2 ^ m -> length ret2 = 2 ^ m ->
  (forall i, i < 2 ^ m -> nth_error roots (i * rs) = Some (fpow w i)) ->
  exists out, fft_fr_fast ret1 data 1 roots rs = Ok out /\ fft_fr_slow ret2 data 1 roots rs = Ok out /\
    length out = 2 ^ m /\ forall i, i < 2 ^ m -> nth_error out i = Some (peval data (fpow w i)).
Proof.
  intros Hw HL H1 H2 HR. assert (P := pow2_pos m).
  assert (HR' : forall i, i < 2 ^ m -> idx roots (i * rs) = Ok (fpow w i)).
  { intros i Hi. unfold idx. now rewrite HR. }
  exists (map (fun i => peval data (fpow w i)) (seq 0 (2 ^ m))).
  split; [|split; [|split]].
  - unfold fft_fr_fast. rewrite fft_fr_fast_self.
    rewrite (fft_g1_fast_spec (M := self_mod K) m) with (w := w).
    + f_equal. change (gcar K (self_mod K)) with (car K). rewrite <- (dft_self w (2 ^ m)) by auto.
      apply map_ext. intros i. apply gsum_ext. intros j Hj. now rewrite Nat.mul_1_r.
    + rewrite H1. assert (m < 2 ^ m) by (apply Nat.pow_gt_lin_r; lia). lia.
    + auto.
    + rewrite Nat.mul_1_r. change (gcar K (self_mod K)) with (car K). lia.
    + intros i Hi. apply HR'. lia.
    + intros Hm. apply primitive_half; auto using pow2_pos.
      replace (2 * 2 ^ (m - 1)) with (2 ^ m); auto.
      replace m with (S (m - 1)) at 1 by lia. reflexivity.
  - rewrite (fft_fr_slow_spec w (2 ^ m)); auto; try apply Hw; try lia.
    f_equal. rewrite <- (dft_self w (2 ^ m)) by auto. unfold dft. apply map_ext. intros i.
    rewrite gsum_self. apply sum_ext. intros j Hj. now rewrite Nat.mul_1_r.
  - apply length_map_seq.
  - intros i Hi. rewrite (nth_error_nth' _ f0) by (rewrite length_map_seq; auto). now rewrite nth_map_seq.
Qed.

Lemma C10_proof (M : gmod Fr) k s m (data : list M) :
  fft_settings_new blst_table k = Ok s -> m <= k -> length data = 2 ^ m ->
  exists out, fft_g1 s data false = Ok out /\ length out = 2 ^ m /\
    (forall i, i < 2 ^ m ->
       nth_error out i = Some (gsum (2 ^ m) (fun j => smul (fpow (root m) (i * j)) (nth j data g0)))) /\
    fft_g1 s out true = Ok data /\
    (exists inv, fft_g1 s data true = Ok inv /\ fft_g1 s inv false = Ok data).
Proof.
  intros HN Hm HL. destruct (new_inv k s HN) as (Hk & HS).
  destruct (fft_g1_roundtrip s k (root k) m data HS Hm HL) as [R1 R2].
  rewrite (fft_g1_spec s k (root k) m) in * by auto. rewrite root_pow in * by auto.
  eexists. split; [reflexivity|]. rewrite dft_length. split; auto. split; [|split].
  - intros i Hi. unfold dft. rewrite (nth_error_nth' _ g0) by (rewrite length_map_seq; auto).
    now rewrite nth_map_seq.
  - exact R1.
  - apply bind_inv in R2. exact R2.
Qed.

Lemma C10_exponent_proof (M : gmod Fr) (G : M) k s m (a : list Fr) inv :
  fft_settings_new blst_table k = Ok s -> m <= k -> length a = 2 ^ m ->
  exists b, fft_fr s a inv = Ok b /\ fft_g1 s (map (fun x => smul x G) a) inv = Ok (map (fun x => smul x G) b).
Proof.
  intros HN Hm HL. destruct (new_inv k s HN) as (Hk & HS).
  assert (D : forall w, dft w (2 ^ m) (map (fun x => smul x G) a) =
            map (fun x => smul x G) (dft (M := self_mod Fr) w (2 ^ m) a)).
  { intros w. unfold dft. rewrite map_map. apply map_ext. intros i. rewrite gsum_self.
    rewrite <- gsum_scal. apply gsum_ext. intros j Hj.
    rewrite (nth_indep _ g0 (smul f0 G)) by (rewrite map_length; lia).
    rewrite (map_nth (fun x => smul x G)). cbn [smul self_mod].
    exact (smul_smul _ M _ _ _). }
  destruct inv.
  - rewrite fft_fr_self. rewrite (ifft_g1_spec (M := self_mod Fr) s k (root k) m) by auto.
    eexists. split; [reflexivity|]. rewrite (ifft_g1_spec s k (root k) m) by (auto; now rewrite map_length).
    f_equal. rewrite D, !map_map. apply map_ext. intros x. exact (smul_smul _ M _ _ _).
  - rewrite fft_fr_self. rewrite (fft_g1_spec (M := self_mod Fr) s k (root k) m) by auto.
    eexists. split; [reflexivity|]. rewrite (fft_g1_spec s k (root k) m) by (auto; now rewrite map_length).
    f_equal. apply D.
Qed.

Lemma C10_slow_proof (K : fld) (M : gmod K) (w : K) m (ret1 ret2 data : list M) (roots : list K) rs :
  primitive w (2 ^ m) -> length data = 2 ^ m -> length ret1 = 2 ^ m -> length ret2 = 2 ^ m ->
  (forall i, i < 2 ^ m -> nth_error roots (i * rs) = Some (fpow w i)) ->
  exists out, fft_g1_fast ret1 data 1 roots rs = Ok out /\ fft_g1_slow ret2 data 1 roots rs = Ok out.
Proof.
  intros Hw HL H1 H2 HR. assert (P := pow2_pos m).
  assert (HR' : forall i, i < 2 ^ m -> idx roots (i * rs) = Ok (fpow w i)).
  { intros i Hi. unfold idx. now rewrite HR. }
  eexists. split.
  - unfold fft_g1_fast. apply (fft_g1_fast_spec m) with (w := w); auto.
    + rewrite H1. assert (m < 2 ^ m) by (apply Nat.pow_gt_lin_r; lia). lia.
    + lia.
    + intros i Hi. apply HR'. lia.
    + intros Hm. apply primitive_half; auto using pow2_pos.
      replace (2 * 2 ^ (m - 1)) with (2 ^ m); auto.
      replace m with (S (m - 1)) at 1 by lia. reflexivity.
  - apply (fft_g1_slow_spec w (2 ^ m)); auto; try apply Hw; lia.
Qed.

(** 2-adicity of the modulus *)
Lemma r_two_adicity : (r mod 2 ^ 32 = 1 /\ r mod 2 ^ 33 <> 1)%Z.
Proof. split; [reflexivity|discriminate]. Qed.
