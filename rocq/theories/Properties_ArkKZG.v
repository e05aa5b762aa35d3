(** * Properties C78-C80: trusted setup, commitments and opening proofs of the Arkworks backend

    [P] is an arbitrary pairing over the scalar field and [L : ark_lib P] what the crate
    takes from the external libraries (Model_ArkKZG.v): the root of unity, the scalar and the
    point drawn from a seed, and X coordinates.  [ark_made L ks k u beta] (Spec_ArkKZG.v) says
    that [ks] was made by the public constructors with transform scale [k] and length [u]
    from a non-empty list of points, and that [beta] is the scalar the library draws for the
    last of them.  [ark_powers u] is u, or 3 for u = 2; [trimmed p p'] says that [p'] is the
    non-zero polynomial [p] without its trailing zero coefficients. *)
From Coq Require Import List Arith Lia ZArith NArith.
From Verif Require Import Base Fld Poly Model_FFT Zr ZrTables Spec Spec_More Spec_Ark Proof_FFTFr Model_KZG Spec_KZG.
From Verif Require Import Model_Ark Proof_ArkFr Spec_ZkKZG Model_ArkKZG Spec_ArkKZG Proof_ArkKZG.
Import ListNotations.

(** the toy pairing with a library that draws 3 for the X coordinate 0 and 5 for any other *)
Definition ark_toy : ark_lib (toy_pairing Fr) :=
  mkLib (P := toy_pairing Fr) ark_W (fun seed => (if forallb (Z.eqb 0) seed then fr_of 3 else fr_of 5, fr_of 1))
    (mkLimbs 0 0 0 0 0 0) (fun s => mkLimbs (val s) 0 0 0 0 0).

(** ** C78 *)
(** secrets that are not a canonical scalar panic; all others give the same points, identities *)
Theorem C78_ark_trusted_setup : forall (P : pairing Fr) (L : ark_lib P) n secret,
  length secret = 32 ->
  ((r <= secret_value secret)%Z -> ark_generate_trusted_setup L n secret = Panic) /\
  ((secret_value secret < r)%Z -> exists g1s g2s,
     ark_generate_trusted_setup L n secret = Ok (g1s, g2s) /\ length g1s = n /\ length g2s = n /\
     forall i, i < n -> nth_error g1s i = Some (g0, lib_x_zero L) /\ nth_error g2s i = Some g0).
Proof. exact @C78_setup_proof. Qed.
Print Assumptions C78_ark_trusted_setup.
Example C78_ark_trusted_setup_ex :
  match ark_generate_trusted_setup ark_toy 3 (repeat 0 7 ++ [3] ++ repeat 0 24)%Z with
  | Ok (g1s, g2s) => map (fun p => val (fst p)) g1s = [0; 0; 0]%Z /\ map val g2s = [0; 0; 0]%Z | _ => False end /\
  match ark_generate_trusted_setup ark_toy 3 (repeat 255 32)%Z with Panic => True | _ => False end.
Proof. vm_compute. repeat split; reflexivity. Qed.
(** the settings contain the powers of the drawn scalar *)
Theorem C78_ark_settings : forall (P : pairing Fr) (L : ark_lib P), lib_root (lib_W L) ->
  forall (pre : list (ark_point P)) (p : ark_point P) sg2 u fs,
  let beta := fst (lib_draw L (point_seed (snd p))) in
  ark_kzg_new L [] sg2 u fs = Panic /\
  exists ks, ark_kzg_new L (pre ++ [p]) sg2 u fs = Ok ks /\ ak_fs ks = fs /\
    ak_length ks = u + 1 /\ length (ak_g1 ks) = u + 1 /\ length (ak_g2 ks) = u + 1 /\ length (ap_powers_of_g (ak_params ks)) = u + 1 /\
    ap_h (ak_params ks) = gen2 /\ ap_beta_h (ak_params ks) = smul beta gen2 /\
    forall i, i <= u ->
      nth_error (ak_g1 ks) i = Some (smul (fpow beta i) gen1, lib_x_mul L (fpow beta i)) /\
      nth_error (ak_g2 ks) i = Some (smul (fpow beta i) gen2) /\
      nth_error (ap_powers_of_g (ak_params ks)) i = Some (smul (fpow beta i) gen1).
Proof. exact @C78_new_proof. Qed.
Print Assumptions C78_ark_settings.
(** they depend on the given points only through four limbs of one X coordinate *)
Theorem C78_ark_seed : forall (P : pairing Fr) (L : ark_lib P) (pre pre' : list (ark_point P)) (p p' : ark_point P) sg2 sg2' u fs,
  limb0 (snd p) = limb0 (snd p') -> limb1 (snd p) = limb1 (snd p') ->
  limb2 (snd p) = limb2 (snd p') -> limb3 (snd p) = limb3 (snd p') ->
  ark_kzg_new L (pre ++ [p]) sg2 u fs = ark_kzg_new L (pre' ++ [p']) sg2' u fs.
Proof. exact @C78_seed_proof. Qed.
Print Assumptions C78_ark_seed.
(** and not at all on the secret of the trusted setup they are made from *)
Theorem C78_ark_secret_used_refuted : forall (P : pairing Fr) (L : ark_lib P), lib_root (lib_W L) ->
  forall n secret sg1 sg2 u k fs,
  ark_settings_new (lib_W L) k = Ok fs -> length secret = 32 ->
  ark_generate_trusted_setup L n secret = Ok (sg1, sg2) ->
  (n = 0 -> ark_kzg_new L sg1 sg2 u fs = Panic) /\
  (0 < n -> exists ks, ark_kzg_new L sg1 sg2 u fs = Ok ks /\ ark_made L ks k u (fst (lib_draw L (point_seed (lib_x_zero L)))) /\
     forall n' secret' sg1' sg2', 0 < n' -> length secret' = 32 -> ark_generate_trusted_setup L n' secret' = Ok (sg1', sg2') ->
       ark_kzg_new L sg1' sg2' u fs = Ok ks).
Proof. exact @C78_public_proof. Qed.
Print Assumptions C78_ark_secret_used_refuted.
(** cloning draws a new scalar from the last power and makes the settings one longer *)
Theorem C78_ark_clone_refuted : forall (P : pairing Fr) (L : ark_lib P), lib_root (lib_W L) ->
  forall (ks : ark_kzg P) k u beta,
  ark_made L ks k u beta ->
  exists ks', ark_kzg_clone L ks = Ok ks' /\ ak_fs ks' = ak_fs ks /\ ak_length ks = u + 1 /\ ak_length ks' = u + 2 /\
    ark_made L ks' k (u + 1) (fst (lib_draw L (point_seed (lib_x_mul L (fpow beta u))))).
Proof. exact @C78_clone_proof. Qed.
Print Assumptions C78_ark_clone_refuted.
Example C78_ark_clone_refuted_ex :
  exists ks ks', ark_made ark_toy ks 1 4 (fr_of 3) /\ ark_kzg_clone ark_toy ks = Ok ks' /\ ark_made ark_toy ks' 1 5 (fr_of 5) /\
    exists c c', ark_commit_to_poly ks [fr_of 0; fr_of 1] = Ok c /\ ark_commit_to_poly ks' [fr_of 0; fr_of 1] = Ok c' /\ val c = 3%Z /\ val c' = 5%Z.
Proof.
  destruct (made_exists ark_toy ark_W_root 1 4 [] (g0, mkLimbs 0 0 0 0 0 0) [] ltac:(lia)) as (fs & ks & _ & _ & M & _).
  destruct (C78_ark_clone_refuted _ ark_toy ark_W_root ks _ _ _ M) as (ks' & C & _ & _ & _ & M').
  exists ks, ks'. split; [exact M|]. split; [exact C|]. split; [exact M'|].
  destruct (C79_commit_proof ark_toy ark_W_root ks _ _ _ [fr_of 0; fr_of 1] M) as (E & _).
  destruct (C79_commit_proof ark_toy ark_W_root ks' _ _ _ [fr_of 0; fr_of 1] M') as (E' & _).
  do 2 eexists. split; [apply E|split; [apply E'|split; vm_compute; reflexivity]];
    try (cbn [length]; lia); intros [|[|[|]]] Hi; cbn in Hi; try lia; reflexivity.
Qed.

(** ** C79 *)
Theorem C79_ark_commitment : forall (P : pairing Fr) (L : ark_lib P), lib_root (lib_W L) ->
  forall (ks : ark_kzg P) k u beta (p : list Fr),
  ark_made L ks k u beta ->
  (length p <= u + 1 -> (forall i, ark_powers u <= i -> coef p i = f0) -> ark_commit_to_poly ks p = Ok (smul (peval p beta) gen1)) /\
  (u + 1 < length p -> ark_commit_to_poly ks p = Panic) /\
  (forall i, ark_powers u <= i -> coef p i <> f0 -> ark_commit_to_poly ks p = Panic).
Proof. exact @C79_commit_proof. Qed.
Print Assumptions C79_ark_commitment.
(** proofs are commitments to the quotient by X - x *)
Theorem C79_ark_compute : forall (P : pairing Fr) (L : ark_lib P), lib_root (lib_W L) ->
  forall (ks : ark_kzg P) k u beta (p : list Fr) x,
  ark_made L ks k u beta ->
  (u = 0 -> ark_compute_proof_single ks p x = Panic) /\
  (0 < u -> (forall i, coef p i = f0) -> ark_compute_proof_single ks p x = Ok g0) /\
  (forall p', 0 < u -> trimmed p p' -> length p' <= ark_powers u ->
     exists q, euclid p' [fneg x; f1] q /\ ark_compute_proof_single ks p x = Ok (smul (peval q beta) gen1)) /\
  (forall p', trimmed p p' -> ark_powers u < length p' -> ark_compute_proof_single ks p x = Panic).
Proof. exact @C79_compute_proof. Qed.
Print Assumptions C79_ark_compute.
(** the honest proof is accepted for the true value and for no other *)
Theorem C79_ark_single_proofs : forall (P : pairing Fr) (L : ark_lib P), lib_root (lib_W L) ->
  forall (ks : ark_kzg P) k u beta (p : list Fr) x,
  ark_made L ks k u beta -> 0 < u -> length p <= u + 1 ->
  (forall i, ark_powers u <= i -> coef p i = f0) ->
  exists com proof, ark_commit_to_poly ks p = Ok com /\ ark_compute_proof_single ks p x = Ok proof /\
    ark_check_proof_single ks com proof x (peval p x) = Ok true /\
    forall y, y <> peval p x -> ark_check_proof_single ks com proof x y = Ok false.
Proof. exact @C79_complete_proof. Qed.
Print Assumptions C79_ark_single_proofs.
Theorem C79_ark_acceptance : forall (P : pairing Fr) (L : ark_lib P), lib_root (lib_W L) ->
  forall (ks : ark_kzg P) k u beta com proof x y,
  ark_made L ks k u beta ->
  (0 < u -> exists v, ark_check_proof_single ks com proof x y = Ok v /\
     (v = true <-> gsub com (smul y gen1) = smul (fsub beta x) proof)) /\
  (u = 0 -> ark_check_proof_single ks com proof x y = Panic).
Proof. exact @C79_check_proof. Qed.
Print Assumptions C79_ark_acceptance.
(** two different values accepted at one point give away [1/(beta - x)]G *)
Theorem C79_ark_binding : forall (P : pairing Fr) (L : ark_lib P), lib_root (lib_W L) ->
  forall (ks : ark_kzg P) k u beta com p1 p2 x y1 y2,
  ark_made L ks k u beta -> 0 < u -> y1 <> y2 ->
  ark_check_proof_single ks com p1 x y1 = Ok true -> ark_check_proof_single ks com p2 x y2 = Ok true ->
  beta <> x /\ smul (finv (fsub beta x)) gen1 = smul (finv (fsub y2 y1)) (gsub p1 p2).
Proof. exact @C79_binding_proof. Qed.
Print Assumptions C79_ark_binding.
Example C79_ark_ex :
  exists ks com pi, ark_made ark_toy ks 1 4 (fr_of 3) /\
    ark_commit_to_poly ks [fr_of 1; fr_of 2; fr_of 5; fr_of 0] = Ok com /\ val com = 52%Z /\
    ark_compute_proof_single ks [fr_of 1; fr_of 2; fr_of 5; fr_of 0] (fr_of 7) = Ok pi /\
    ark_check_proof_single ks com pi (fr_of 7) (fr_of 260) = Ok true /\
    ark_check_proof_single ks com pi (fr_of 7) (fr_of 261) = Ok false /\
    ark_commit_to_poly ks [fr_of 1; fr_of 2; fr_of 5; fr_of 0; fr_of 1] = Panic.
Proof.
  destruct (made_exists ark_toy ark_W_root 1 4 [] (g0, mkLimbs 0 0 0 0 0 0) [] ltac:(lia)) as (fs & ks & _ & _ & M & _).
  destruct (C79_ark_commitment _ ark_toy ark_W_root ks _ _ _ [fr_of 1; fr_of 2; fr_of 5; fr_of 0] M) as (E & _).
  destruct (C79_ark_single_proofs _ ark_toy ark_W_root ks _ _ _ [fr_of 1; fr_of 2; fr_of 5; fr_of 0] (fr_of 7) M) as (com & pi & A & B & C & D);
    [lia|cbn [length]; lia|intros [|[|[|[|[|]]]]] Hi; cbn in Hi; try lia; reflexivity|].
  destruct (C79_ark_commitment _ ark_toy ark_W_root ks _ _ _ [fr_of 1; fr_of 2; fr_of 5; fr_of 0; fr_of 1] M) as (_ & _ & F).
  exists ks, com, pi. split; [exact M|]. split; [exact A|]. split; [|split; [exact B|split; [|split]]].
  - rewrite E in A by (try (cbn [length]; lia); intros [|[|[|[|[|]]]]] Hi; cbn in Hi; try lia; reflexivity).
    apply Proof_MclFr.Ok_inj in A. subst com. vm_compute. reflexivity.
  - replace (fr_of 260) with (peval [fr_of 1; fr_of 2; fr_of 5; fr_of 0] (fr_of 7)); [exact C|]. apply feqb_spec. vm_compute. reflexivity.
  - apply D. intros X. apply feqb_spec in X. vm_compute in X. discriminate.
  - apply (F 4); [cbn; lia|]. intros X. apply feqb_spec in X. vm_compute in X. discriminate.
Qed.

(** ** C80 *)
Theorem C80_ark_compute : forall (P : pairing Fr) (L : ark_lib P), lib_root (lib_W L) ->
  forall (ks : ark_kzg P) k u beta (p p' : list Fr) x n,
  ark_made L ks k u beta -> fits (2 * length p) -> 0 < n -> trimmed p p' ->
  (length p' <= ark_powers u + n -> n < 127 \/ length p <= n + 1 \/ length p <= u + 1 + n ->
     exists q, euclid p' ([fneg (fpow x n)] ++ repeat f0 (n - 1) ++ [f1]) q /\ ark_compute_proof_multi L ks p x n = Ok (smul (peval q beta) gen1)) /\
  (ark_powers u + n < length p' \/ (127 <= n /\ u + 1 + n < length p) -> ark_compute_proof_multi L ks p x n = Panic).
Proof. exact @C80_compute_proof. Qed.
Print Assumptions C80_ark_compute.
(** the zero polynomial: an identity or a panic, depending on the lengths *)
Theorem C80_ark_compute_zero : forall (P : pairing Fr) (L : ark_lib P), lib_root (lib_W L) ->
  forall (ks : ark_kzg P) k u beta (p : list Fr) x n,
  ark_made L ks k u beta -> fits (2 * length p) -> 0 < n -> (forall i, coef p i = f0) ->
  (n < 127 \/ length p <= n + 1 -> ark_compute_proof_multi L ks p x n = Ok g0) /\
  (127 <= n /\ n + 1 < length p < n + 128 -> ark_compute_proof_multi L ks p x n = Panic) /\
  (127 <= n /\ n + 128 <= length p <= u + 1 + n -> ark_compute_proof_multi L ks p x n = Ok g0) /\
  (127 <= n /\ n + 128 <= length p /\ u + 1 + n < length p -> ark_compute_proof_multi L ks p x n = Panic).
Proof. exact @C80_zero_proof. Qed.
Print Assumptions C80_ark_compute_zero.
(** no points: the commitment itself *)
Theorem C80_ark_compute_none : forall (P : pairing Fr) (L : ark_lib P), lib_root (lib_W L) ->
  forall (ks : ark_kzg P) k u beta (p : list Fr) x,
  ark_made L ks k u beta ->
  ((forall i, ark_powers u <= i -> coef p i = f0) -> ark_compute_proof_multi L ks p x 0 = Ok (smul (peval p beta) gen1)) /\
  (forall i, ark_powers u <= i -> coef p i <> f0 -> ark_compute_proof_multi L ks p x 0 = Panic).
Proof. exact @C80_none_proof. Qed.
Print Assumptions C80_ark_compute_none.
Theorem C80_ark_multi_proofs : forall (P : pairing Fr) (L : ark_lib P), lib_root (lib_W L) ->
  forall (ks : ark_kzg P) k u beta m (p : list Fr) x,
  ark_made L ks k u beta -> m <= k -> 2 ^ m <= u -> fits (2 * length p) -> length p <= u + 1 ->
  (forall i, ark_powers u <= i -> coef p i = f0) -> x <> f0 ->
  (exists i, coef p i <> f0) \/ 2 ^ m < 127 \/ length p <= 2 ^ m + 1 \/ 2 ^ m + 128 <= length p ->
  exists com proof, ark_commit_to_poly ks p = Ok com /\ ark_compute_proof_multi L ks p x (2 ^ m) = Ok proof /\
    ark_check_proof_multi L ks com proof x (map (fun i => peval p (fmul x (fpow (root m) i))) (seq 0 (2 ^ m))) (2 ^ m) = Ok true.
Proof. exact @C80_complete_proof. Qed.
Print Assumptions C80_ark_multi_proofs.
(** the equation a multi proof is accepted by; [I] is the polynomial through the claimed values *)
Theorem C80_ark_acceptance : forall (P : pairing Fr) (L : ark_lib P), lib_root (lib_W L) ->
  forall (ks : ark_kzg P) k u beta m com proof x (ys I : list Fr),
  ark_made L ks k u beta -> m <= k -> length ys = 2 ^ m -> 2 ^ m <= u ->
  x <> f0 -> length I <= 2 ^ m -> (forall i, i < 2 ^ m -> peval I (fmul x (fpow (root m) i)) = nth i ys f0) ->
  exists v, ark_check_proof_multi L ks com proof x ys (2 ^ m) = Ok v /\
    (v = true <-> gsub com (smul (peval I beta) gen1) = smul (fsub (fpow beta (2 ^ m)) (fpow x (2 ^ m))) proof).
Proof. exact @C80_accept_proof. Qed.
Print Assumptions C80_ark_acceptance.
(** when an answer is given *)
Theorem C80_ark_arguments : forall (P : pairing Fr) (L : ark_lib P), lib_root (lib_W L) ->
  forall (ks : ark_kzg P) k u beta com proof x (ys : list Fr) n,
  ark_made L ks k u beta ->
  (acceptable (ak_fs ks) (length ys) -> x <> f0 -> 0 < n <= length ys -> n <= u -> length ys <= ark_powers u ->
     exists v, ark_check_proof_multi L ks com proof x ys n = Ok v) /\
  (~ acceptable (ak_fs ks) (length ys) \/ x = f0 \/ length ys < n \/ u < n \/ u + 1 < length ys ->
     ark_check_proof_multi L ks com proof x ys n = Panic).
Proof. exact @C80_check_proof. Qed.
Print Assumptions C80_ark_arguments.
Example C80_ark_ex :
  exists ks com pi, ark_made ark_toy ks 1 4 (fr_of 3) /\
    ark_commit_to_poly ks [fr_of 1; fr_of 2; fr_of 5] = Ok com /\
    ark_compute_proof_multi ark_toy ks [fr_of 1; fr_of 2; fr_of 5] (fr_of 1) 2 = Ok pi /\ 
    ark_check_proof_multi ark_toy ks com pi (fr_of 1) [fr_of 8; fr_of 4] 2 = Ok true.
Proof.
  destruct (made_exists ark_toy ark_W_root 1 4 [] (g0, mkLimbs 0 0 0 0 0 0) [] ltac:(lia)) as (fs & ks & _ & _ & M & _).
  destruct (C80_ark_multi_proofs _ ark_toy ark_W_root ks _ _ _ 1 [fr_of 1; fr_of 2; fr_of 5] (fr_of 1) M) as (com & pi & A & B & C).
  - lia.
  - cbn; lia.
  - apply N.leb_le. vm_compute. reflexivity.
  - cbn [length]; lia.
  - intros [|[|[|[|[|]]]]] Hi; cbn in Hi; try lia; reflexivity.
  - intros X. apply feqb_spec in X. vm_compute in X. discriminate.
  - right. left. cbn. lia.
  - exists ks, com, pi. split; [exact M|]. split; [exact A|]. split; [exact B|].
    match type of C with ark_check_proof_multi _ _ _ _ _ ?ys _ = _ => replace [fr_of 8; fr_of 4] with ys; [exact C|] end.
    cbn [seq map Nat.pow Nat.mul Nat.add]. apply f_equal2; [|apply f_equal2; [|reflexivity]]; apply feqb_spec; vm_compute; reflexivity.
Qed.
