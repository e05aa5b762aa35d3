(** * Properties_Agree: one input, four backends (C116)

    The four backends written in Rust are given the same input, in the order blst, zkcrypto, Arkworks, mcl.
    [all_give v rs] says that every result is the value [v]; [agree_when rs same r] that the results [rs] are
    one value and that [r] is it too when [same] holds (Spec_Agree.v).  [transforms] and [setups] say that the
    settings were made by the constructors of each backend; [w] is the root mcl works with, and [w = root k] holds
    for the scales below 7 (C116_settings).  Polynomials are lists of coefficients, lowest first. *)
From Coq Require Import List Arith Bool ZArith NArith Lia.
From Verif Require Import Base Fld Poly Model_FFT Spec Spec_More Zr ZrTables Model_Das Model_Poly Model_ZeroPoly Model_Recovery Proof_FFTFr.
From Verif Require Import Model_Zk Model_ZkZero Proof_Zk Proof_ZkFr Model_Ark Model_ArkZero Spec_Ark Proof_ArkFr Model_Mcl Spec_Mcl Model_MclPoly Model_MclZero.
From Verif Require Import Model_KZG Spec_KZG Model_FK20 Model_ZkKZG Spec_ZkKZG Model_ZkFK20 Model_ArkKZG Spec_ArkKZG Model_ArkFK20 Model_MclKZG Spec_MclKZG.
From Verif Require Import Properties_ArkKZG Spec_Agree Proof_Agree Proof_AgreeKZG Proof_AgreeEdges Proof_AgreeEx.
Import ListNotations.

(** ** settings and transforms *)
Theorem C116_settings : forall (W : Fr), lib_root W -> forall k,
  (k < 32 -> exists s, fft_settings_new blst_table k = Ok s /\ zk_fft_settings_new zk_table k = Ok s /\ ark_settings_new W k = Ok s /\
     (k < 7 -> forall fuel g, 2 ^ k <= fuel -> fst (mcl_trait_new fuel mcl_pr7_table (N.of_nat k) g) = Ok s)) /\
  (32 <= k -> fft_settings_new blst_table k = Err /\ zk_fft_settings_new zk_table k = Err /\ ark_settings_new W k = Err /\
     (k < 256 -> forall fuel g, fst (mcl_trait_new fuel mcl_pr7_table (N.of_nat k) g) = Err)).
Proof. exact @agree_settings. Qed.
Print Assumptions C116_settings.
Example C116_transforms_ex : exists sb sz sa sm, transforms ark_W 5 (root 5) sb sz sa sm.
Proof. exact (ex_transforms ark_W 5 ark_W_root ltac:(lia)). Qed.
Theorem C116_fft : forall (W : Fr), lib_root W -> forall k w sb sz sa sm m (data : list Fr) inverse,
  transforms W k w sb sz sa sm -> m <= k -> length data = 2 ^ m ->
  agree_when [fft_fr sb data inverse; zk_fft_fr sz data inverse; ark_fft_fr W sa data inverse] (w = root k /\ m < 31) (mcl_fft sm data inverse).
Proof. exact @agree_fft. Qed.
Print Assumptions C116_fft.
Theorem C116_fft_values : forall (W : Fr), lib_root W -> forall k w sb sz sa sm m (data : list Fr),
  transforms W k w sb sz sa sm -> m <= k -> length data = 2 ^ m ->
  all_give (map (fun i => peval data (fpow (root m) i)) (seq 0 (2 ^ m))) [fft_fr sb data false; zk_fft_fr sz data false; ark_fft_fr W sa data false].
Proof. exact @agree_fft_value. Qed.
Print Assumptions C116_fft_values.
Theorem C116_fft_g1 : forall (W : Fr), lib_root W -> forall (M : gmod Fr) k w sb sz sa sm m (data : list M) inverse,
  transforms W k w sb sz sa sm -> m <= k -> length data = 2 ^ m ->
  agree_when [fft_g1 sb data inverse; zk_fft_g1 sz data inverse; ark_fft_g1 sa data inverse] (w = root k /\ m < 31) (mcl_fft_g1 sm data inverse).
Proof. exact @agree_fft_g1. Qed.
Print Assumptions C116_fft_g1.
Theorem C116_das : forall (W : Fr), lib_root W -> forall k w sb sz sa sm m (evens : list Fr),
  transforms W k w sb sz sa sm -> m < k -> length evens = 2 ^ m ->
  agree_when [das_fft_extension sb evens; zk_das_fft_extension sz evens; ark_das_fft_extension sa evens] (w = root k) (mcl_trait_das sm evens).
Proof. exact @agree_das. Qed.
Print Assumptions C116_das.

(** ** polynomials *)
Theorem C116_mul : forall (W : Fr), lib_root W -> forall (a b : list Fr) len,
  nonzero a -> nonzero b -> (N.of_nat (length a + length b - 1) <= 2 ^ 30)%N ->
  exists c, all_give c [poly_mul blst_table a b len; zk_poly_mul zk_table a b len; ark_poly_mul W a b None len; mcl_mul mcl_pr5_table a b len] /\
    all_give c [mul_direct a b len; zk_mul_direct a b len; ark_mul_direct a b len; mcl_mul_direct a b len] /\
    (0 < len -> all_give c [mul_fft blst_table a b len; zk_poly_mul_fft zk_table len a b; ark_mul_fft W a b None len; mcl_mul_fft mcl_pr5_table a b None len]) /\
    length c = len /\ forall k, k < len -> nth_error c k = Some (convol a b k).
Proof. exact @agree_mul. Qed.
Print Assumptions C116_mul.
Theorem C116_inverse : forall (W : Fr), lib_root W -> forall (p : list Fr) n,
  0 < n -> coef p 0 <> f0 -> fits (length p + n - 1) -> (N.of_nat (2 * n) <= 2 ^ 30)%N ->
  agree [poly_inverse blst_table p n; zk_poly_inverse zk_table p n; ark_poly_inverse W p n; mcl_inverse mcl_pr5_table p n].
Proof. exact @agree_inverse. Qed.
Print Assumptions C116_inverse.
Theorem C116_div : forall (W : Fr), lib_root W -> forall (a b : list Fr),
  coef a (length a - 1) <> f0 -> coef b (length b - 1) <> f0 -> (N.of_nat (2 * length a) <= 2 ^ 30)%N ->
  exists q, all_give q [poly_div blst_table a b; zk_poly_div zk_table a b; ark_poly_div W a b; mcl_poly_div mcl_pr5_table a b] /\
    all_give q [long_div a b; zk_long_div a b; ark_long_div a b; mcl_long_division a b] /\
    all_give q [fast_div blst_table a b; zk_fast_div zk_table a b; ark_fast_div W a b; mcl_fast_div mcl_pr5_table a b] /\
    euclid a b q /\ forall q', euclid a b q' -> q' = q.
Proof. exact @agree_div. Qed.
Print Assumptions C116_div.
Example C116_poly_ex : nonzero [fr_of 1; fr_of 2] /\ coef [fr_of 1; fr_of 2] 1 <> f0 /\ coef [fr_of 1; fr_of 2] 0 <> f0 /\ (N.of_nat (2 * 2) <= 2 ^ 30)%N.
Proof.
  assert (A : fr_of 1 <> f0) by (intros H; apply (f_equal val) in H; discriminate H). assert (B : fr_of 2 <> f0) by (intros H; apply (f_equal val) in H; discriminate H).
  split; [exists 1; exact B|]. split; [exact B|]. split; [exact A|]. discriminate.
Qed.

(** ** erasure coding *)
Theorem C116_zero_poly : forall (W : Fr), lib_root W -> forall k w sb sz sa sm m (missing : list nat),
  transforms W k w sb sz sa sm -> m <= k ->
  0 < length missing < 2 ^ m -> length missing <= 63 * (2 ^ m / 64 + 1) -> Forall (fun i => i < 2 ^ m) missing ->
  agree_when [zero_poly_via_multiplication sb (2 ^ m) missing; zk_zero_poly sz (2 ^ m) missing; ark_zero_poly W sa (2 ^ m) missing]
    (w = root k /\ m <= 30) (mcl_zero_poly sm (2 ^ m) missing).
Proof. exact @agree_zero_poly. Qed.
Print Assumptions C116_zero_poly.
Theorem C116_recover : forall (W : Fr), lib_root W -> forall k w sb sz sa sm m (samples : list (option Fr)),
  transforms W k w sb sz sa sm -> m <= k -> m <= 16 -> length samples = 2 ^ m ->
  0 < missing_count samples < 2 ^ m -> missing_count samples <= 63 * (2 ^ m / 64 + 1) ->
  agree_when [recover_opt factor_table_len sb samples; zk_recover sz samples; ark_recover W sa samples] (w = root k) (mcl_recover sm samples).
Proof. exact @agree_recover. Qed.
Print Assumptions C116_recover.
Example C116_recover_ex : let samples := [Some (fr_of 1); None; Some (fr_of 5); None] in
  length samples = 2 ^ 2 /\ 0 < missing_count samples < 2 ^ 2 /\ missing_count samples <= 63 * (2 ^ 2 / 64 + 1).
Proof. cbn. lia. Qed.

(** ** commitments and proofs *)
Theorem C116_commit : forall (P : pairing Fr) (L : ark_lib P), lib_root (lib_W L) -> forall k w N s kb kz ka km (p : list Fr),
  setups L k w N s kb kz ka km -> length p <= N -> (N.of_nat (length p) < 2 ^ 64)%N ->
  all_give (smul (peval p s) gen1) [commit_to_poly kb p; zk_commit_to_poly kz p; ark_commit_to_poly ka p; mcl_commit km p].
Proof. exact @agree_commit. Qed.
Print Assumptions C116_commit.
Theorem C116_single_proof : forall (P : pairing Fr) (L : ark_lib P), lib_root (lib_W L) -> forall k w N s kb kz ka km (p : list Fr) x,
  setups L k w N s kb kz ka km -> nonzero p -> length p <= N -> (N.of_nat (2 * length p) <= 2 ^ 30)%N ->
  exists g, opening p x 1 s g /\
    all_give g [compute_proof_single blst_table kb p x; zk_compute_proof_single zk_table kz p x; ark_compute_proof_single ka p x; mcl_compute_proof_single km p x].
Proof. exact @agree_single. Qed.
Print Assumptions C116_single_proof.
Theorem C116_multi_proof : forall (P : pairing Fr) (L : ark_lib P), lib_root (lib_W L) -> forall k w N s kb kz ka km (p : list Fr) x m,
  setups L k w N s kb kz ka km -> nonzero p -> length p <= N -> (N.of_nat (2 * length p) <= 2 ^ 30)%N ->
  exists g, opening p x (2 ^ m) s g /\
    all_give g [compute_proof_multi blst_table kb p x (2 ^ m); zk_compute_proof_multi zk_table kz p x (2 ^ m);
                ark_compute_proof_multi L ka p x (2 ^ m); mcl_compute_proof_multi mcl_pr5_table km p x (2 ^ m)].
Proof. exact @agree_multi. Qed.
Print Assumptions C116_multi_proof.
Theorem C116_single_check : forall (P : pairing Fr) (L : ark_lib P), lib_root (lib_W L) -> forall k w N s kb kz ka km fexp com proof x y,
  setups L k w N s kb kz ka km -> fexp <> f0 -> 2 <= N ->
  exists b, all_give b [check_proof_single kb com proof x y; zk_check_proof_single kz com proof x y; ark_check_proof_single ka com proof x y;
                        mcl_check_proof_single fexp km com proof x y] /\
    (b = true <-> gsub com (smul y gen1) = smul (fsub s x) proof).
Proof. exact @agree_single_check. Qed.
Print Assumptions C116_single_check.
Theorem C116_multi_check : forall (P : pairing Fr) (L : ark_lib P), lib_root (lib_W L) -> forall k w N s kb kz ka km fexp m com proof x (ys : list Fr),
  setups L k w N s kb kz ka km -> fexp <> f0 -> m <= k ->
  length ys = 2 ^ m -> 2 ^ m < N -> x <> f0 ->
  exists b, all_give b [check_proof_multi kb com proof x ys (2 ^ m); zk_check_proof_multi kz com proof x ys (2 ^ m);
                        ark_check_proof_multi L ka com proof x ys (2 ^ m)] /\
    (w = root k /\ m < 31 -> mcl_check_proof_multi fexp km com proof x ys (2 ^ m) = Ok b) /\
    forall I, length I <= 2 ^ m -> (forall i, i < 2 ^ m -> peval I (fmul x (fpow (root m) i)) = nth i ys f0) ->
      (b = true <-> gsub com (smul (peval I s) gen1) = smul (fsub (fpow s (2 ^ m)) (fpow x (2 ^ m))) proof).
Proof. exact @agree_multi_check. Qed.
Print Assumptions C116_multi_check.
Theorem C116_fk20_single : forall (P : pairing Fr) (L : ark_lib P), lib_root (lib_W L) -> forall k w N s kb kz ka km m (p : list Fr),
  setups L k w N s kb kz ka km -> S m <= k -> length p = 2 ^ m -> 2 ^ m <= N ->
  exists fb fz fa out rev,
    fk20_single_new blst_table kb (2 ^ S m) = Ok fb /\ zk_fk20_single_new kz (2 ^ S m) = Ok fz /\
    ark_fk20_single_new (lib_W L) ka (2 ^ S m) = Ok fa /\
    all_give out [fk20_single_da_opt fb p; zk_fk20_single_da_opt fz p; ark_fk20_single_da_opt (lib_W L) fa p] /\
    all_give rev [fk20_single_da fb p; zk_fk20_single_da fz p; ark_fk20_single_da (lib_W L) fa p] /\
    (w = root k /\ S m < 31 -> exists fm, mcl_fk20_single_new km (2 ^ S m) = Ok fm /\ mcl_fk20_single_da_opt fm p = Ok out /\ mcl_fk20_single_da fm p = Ok rev) /\
    length out = 2 ^ S m /\ forall i, i < 2 ^ S m -> exists g, nth_error out i = Some g /\ opening p (fpow (root (S m)) i) 1 s g.
Proof. exact @agree_fk20_single. Qed.
Print Assumptions C116_fk20_single.
Theorem C116_fk20_multi : forall (P : pairing Fr) (L : ark_lib P), lib_root (lib_W L) -> forall k w N s kb kz ka km m a (p : list Fr),
  setups L k w N s kb kz ka km -> S m <= k -> a <= m -> length p = 2 ^ m -> 2 ^ m <= N ->
  exists fb fz fa out rev,
    fk20_multi_new blst_table kb (2 ^ S m) (2 ^ a) = Ok fb /\ zk_fk20_multi_new kz (2 ^ S m) (2 ^ a) = Ok fz /\
    ark_fk20_multi_new (lib_W L) ka (2 ^ S m) (2 ^ a) = Ok fa /\
    all_give out [fk20_multi_da_opt fb p; zk_fk20_multi_da_opt fz p; ark_fk20_multi_da_opt (lib_W L) fa p] /\
    all_give rev [fk20_multi_da fb p; zk_fk20_multi_da fz p; ark_fk20_multi_da (lib_W L) fa p] /\
    (w = root k /\ S m < 31 -> exists fm, mcl_fk20_multi_new km (2 ^ S m) (2 ^ a) = Ok fm /\ mcl_fk20_multi_da fm p = Ok rev /\
       forall tail, length tail = 2 ^ m -> mcl_fk20_multi_da_opt fm (p ++ tail) = Ok out) /\
    length out = 2 ^ S (m - a) /\ forall i, i < 2 ^ S (m - a) -> exists g, nth_error out i = Some g /\ opening p (fpow (root (S m)) i) (2 ^ a) s g.
Proof. exact @agree_fk20_multi. Qed.
Print Assumptions C116_fk20_multi.
Example C116_setups_ex : exists kb kz ka km, setups ark_toy 2 (root 2) 64 (fr_of 3) kb kz ka km /\
  all_give (fr_of 7) [commit_to_poly kb [fr_of 1; fr_of 2]; zk_commit_to_poly kz [fr_of 1; fr_of 2]; ark_commit_to_poly ka [fr_of 1; fr_of 2]; mcl_commit km [fr_of 1; fr_of 2]].
Proof.
  destruct (ex_setups 2) as (kb & kz & ka & km & S); [lia|cbn; lia|]. exists kb, kz, ka, km. split; [exact S|].
  pose proof (C116_commit _ ark_toy ark_W_root 2 (root 2) 64 (fr_of 3) kb kz ka km [fr_of 1; fr_of 2] S ltac:(cbn; lia) ltac:(reflexivity)) as H.
  replace (smul (peval [fr_of 1; fr_of 2] (fr_of 3)) gen1) with (fr_of 7 : PG1 (toy_pairing Fr)) in H; [exact H|]. apply val_inj. vm_compute. reflexivity.
Qed.

(** ** inputs on which they differ *)
(** no terms of the inverse: an error, two panics, an empty polynomial *)
Theorem C116_inverse_refuted : forall (W : Fr) (p : list Fr),
  coef p 0 <> f0 ->
  poly_inverse blst_table p 0 = Err /\ zk_poly_inverse zk_table p 0 = Panic /\ ark_poly_inverse W p 0 = Panic /\ mcl_inverse mcl_pr5_table p 0 = Ok [].
Proof. exact @edge_inverse. Qed.
Print Assumptions C116_inverse_refuted.
(** the product with an empty polynomial *)
Theorem C116_mul_empty_refuted : forall (W : Fr), lib_root W -> forall (b : list Fr) len,
  mul_direct [] b len = Ok [] /\ zk_mul_direct [] b len = Ok [] /\ ark_mul_direct [] b len = Ok [] /\ mcl_mul_direct [] b len = Ok (repeat f0 len).
Proof. exact @edge_mul_empty. Qed.
Print Assumptions C116_mul_empty_refuted.
(** the product with zero coefficients *)
Theorem C116_mul_zero_refuted : forall (W : Fr), lib_root W -> forall (a b : list Fr) len,
  a <> [] -> b <> [] -> (forall i, coef a i = f0) -> fits (length a + length b - 1) ->
  mul_direct a b len = Ok (repeat f0 len) /\ zk_mul_direct a b len = Ok (repeat f0 len) /\ ark_mul_direct a b len = Ok [] /\ mcl_mul_direct a b len = Ok (repeat f0 len).
Proof. exact @edge_mul_zero. Qed.
Print Assumptions C116_mul_zero_refuted.
(** zero divided by a polynomial *)
Theorem C116_div_zero_refuted : forall (W : Fr), lib_root W -> forall (a b : list Fr),
  (forall i, coef a i = f0) -> coef b (length b - 1) <> f0 -> length b < 128 -> (N.of_nat (2 * length a) <= 2 ^ 30)%N ->
  exists q, poly_div blst_table a b = Ok q /\ zk_poly_div zk_table a b = Panic /\ ark_poly_div W a b = Ok [] /\ mcl_poly_div mcl_pr5_table a b = Ok q /\
    length q = length a + 1 - length b.
Proof. exact @edge_div_zero. Qed.
Print Assumptions C116_div_zero_refuted.
(** nothing is missing *)
Theorem C116_missing_refuted : forall (W : Fr) k w sb sz sa sm d,
  transforms W k w sb sz sa sm ->
  zero_poly_via_multiplication sb d [] = Ok ([], []) /\ zk_zero_poly sz d [] = Ok ([], []) /\ ark_zero_poly W sa d [] = Ok ([], []) /\
  mcl_zero_poly sm d [] = Ok (repeat f0 d, repeat f0 d).
Proof. exact @edge_missing. Qed.
Print Assumptions C116_missing_refuted.
(** a complete codeword *)
Theorem C116_complete_refuted : forall (W : Fr), lib_root W -> forall k w sb sz sa sm m (vs : list Fr),
  transforms W k w sb sz sa sm -> m <= k -> m <= 30 -> length vs = 2 ^ m ->
  recover_opt factor_table_len sb (map Some vs) = Panic /\ zk_recover sz (map Some vs) = Panic /\ ark_recover W sa (map Some vs) = Panic /\
  mcl_recover sm (map Some vs) = Ok (repeat f0 (2 ^ m)).
Proof. exact @edge_complete. Qed.
Print Assumptions C116_complete_refuted.
(** a proof for the zero polynomial *)
Theorem C116_zero_proof_refuted : forall (P : pairing Fr) (L : ark_lib P), lib_root (lib_W L) -> forall k w N s kb kz ka km (p : list Fr) x,
  setups L k w N s kb kz ka km -> (forall i, coef p i = f0) -> length p <= N -> 0 < N -> fits (2 * length p) ->
  compute_proof_single blst_table kb p x = Ok g0 /\ zk_compute_proof_single zk_table kz p x = Panic /\
  ark_compute_proof_single ka p x = Ok g0 /\ mcl_compute_proof_single km p x = Ok g0.
Proof. exact @edge_zero_proof. Qed.
Print Assumptions C116_zero_proof_refuted.
(** a polynomial longer than the settings *)
Theorem C116_commit_long_refuted : forall (P : pairing Fr) (L : ark_lib P), lib_root (lib_W L) -> forall k w n nz u nm len lm s t t' (kb kz : kzg_settings P) (ka : ark_kzg P) (km : kzg_settings P) (p : list Fr),
  api_setup kb k n len s -> zk_setup kz k nz s -> ark_made L ka k u t -> mcl_setup km k w nm lm t' ->
  (N.of_nat (length p) < 2 ^ 64)%N -> len < length p -> nz < length p -> u + 1 < length p -> lm < length p ->
  commit_to_poly kb p = Err /\ zk_commit_to_poly kz p = Panic /\ ark_commit_to_poly ka p = Panic /\ mcl_commit km p = Err.
Proof. exact @edge_commit_long. Qed.
Print Assumptions C116_commit_long_refuted.
(** many openings at zero *)
Theorem C116_origin_refuted : forall (P : pairing Fr) (L : ark_lib P), lib_root (lib_W L) -> forall k w N s kb kz ka km fexp m com proof (ys : list Fr),
  setups L k w N s kb kz ka km -> fexp <> f0 -> m <= k -> m < 31 ->
  length ys = 2 ^ m -> 2 ^ m < N ->
  (exists b, check_proof_multi kb com proof f0 ys (2 ^ m) = Ok b) /\ zk_check_proof_multi kz com proof f0 ys (2 ^ m) = Panic /\
  ark_check_proof_multi L ka com proof f0 ys (2 ^ m) = Panic /\ (exists b, mcl_check_proof_multi fexp km com proof f0 ys (2 ^ m) = Ok b).
Proof. exact @edge_origin. Qed.
Print Assumptions C116_origin_refuted.
(** the same secret bytes *)
Theorem C116_secret_refuted : forall b,
  (0 < b < 256)%Z -> let secret := (b :: repeat 0 31)%Z in
  exists x, mcl_from_scalar secret = Ok x /\ val x = (b * 2 ^ 56)%Z /\ val (fr_from_scalar secret) = b /\ val (fr_of (le_value secret)) = b.
Proof. exact @edge_secret. Qed.
Print Assumptions C116_secret_refuted.
Example C116_edges_ex : coef [fr_of 1] 0 <> f0 /\ (forall i, coef [fr_of 0; fr_of 0] i = f0) /\ (0 < 3 < 256)%Z.
Proof.
  split; [intros H; apply (f_equal val) in H; discriminate H|]. split; [|lia]. intros [|[|[|i]]]; try reflexivity; apply val_inj; vm_compute; reflexivity.
Qed.
