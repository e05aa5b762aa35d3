(** * Properties C28-C35 and C45: commitments, opening proofs, scalar multiplication

    [P] is an arbitrary pairing over the scalar field (Model_KZG.v); [api_setup ks k n len s]
    (Spec_KZG.v) says that [ks] came out of the public constructors with FFT scale [k], a
    trusted setup of [n] elements of which [len] are kept, and secret scalar [s].  The
    examples use the field itself as group, so [x]G is just the number x. *)
From Coq Require Import List Arith Lia ZArith.
From Verif Require Import Base Fld Poly Model_Utils Model_FFT Zr ZrTables Spec Proof_FFTFr.
From Verif Require Import Model_KZG Spec_KZG Proof_KZGFr.
Import ListNotations.

(** settings with scale 1, a setup of four elements and secret scalar 3 *)
Definition toy_settings : res (kzg_settings (toy_pairing Fr)) :=
  let* fs := fft_settings_new blst_table 1 in
  let* st := generate_trusted_setup (P := toy_pairing Fr) 4 (3 :: repeat 0 31)%Z in
  kzg_new blst_table (fst st) (snd st) 4 fs.

Theorem api_setup_available : forall (P : pairing Fr) k n len secret, k < 32 -> 2 ^ k <= len <= n ->
  exists ks : kzg_settings P, api_setup ks k n len (fr_from_scalar secret).
Proof. exact @api_exists. Qed.
Print Assumptions api_setup_available.

Theorem C28_commitment : forall (P : pairing Fr) (ks : kzg_settings P) k n len s (p : list Fr),
  api_setup ks k n len s ->
  (length p <= len -> commit_to_poly ks p = Ok (smul (peval p s) gen1)) /\
  (len < length p -> commit_to_poly ks p = Err).
Proof. exact @C28_proof. Qed.
Print Assumptions C28_commitment.
Theorem C28_trailing_zeros : forall (P : pairing Fr) (ks : kzg_settings P) (p : list Fr) z,
  length p + z <= length (secret_g1 ks) -> commit_to_poly ks (p ++ repeat f0 z) = commit_to_poly ks p.
Proof. exact @C28_trailing_proof. Qed.
Print Assumptions C28_trailing_zeros.
Example C28_ex :
  match toy_settings with
  | Ok ks => match commit_to_poly ks [fr_of 1; fr_of 2; fr_of 5] with Ok c => val c = 52%Z | _ => False end
  | _ => False end.
Proof. vm_compute. reflexivity. Qed.

Theorem C29_homomorphic : forall (P : pairing Fr) (ks : kzg_settings P) (a b : Fr) (p q : list Fr),
  length p = length q -> length p <= length (secret_g1 ks) ->
  exists Cp Cq, commit_to_poly ks p = Ok Cp /\ commit_to_poly ks q = Ok Cq /\
    commit_to_poly ks (map (fun i => fadd (fmul a (coef p i)) (fmul b (coef q i))) (seq 0 (length p)))
      = Ok (gadd (smul a Cp) (smul b Cq)).
Proof. exact @C29_proof. Qed.
Print Assumptions C29_homomorphic.
Example C29_ex :
  match toy_settings with
  | Ok ks => match commit_to_poly ks [fr_of 1; fr_of 2], commit_to_poly ks [fr_of 4; fr_of 0], commit_to_poly ks [fr_of 30; fr_of 20] with
             | Ok c, Ok d, Ok e => val c = 7%Z /\ val d = 4%Z /\ val e = (10 * 7 + 5 * 4)%Z | _, _, _ => False end
  | _ => False end.
Proof. vm_compute. auto. Qed.

Theorem C30_trusted_setup : forall (P : pairing Fr) n secret, exists g1s g2s,
  generate_trusted_setup (P := P) n secret = Ok (g1s, g2s) /\ length g1s = n /\ length g2s = n /\
  forall i, i < n -> nth_error g1s i = Some (smul (fpow (fr_from_scalar secret) i) gen1) /\
                     nth_error g2s i = Some (smul (fpow (fr_from_scalar secret) i) gen2).
Proof. exact @C30_proof. Qed.
Print Assumptions C30_trusted_setup.
Example C30_ex :
  match toy_settings with Ok ks => map val (secret_g1 ks) = [1; 3; 9; 27]%Z | _ => False end.
Proof. vm_compute. reflexivity. Qed.

(** the honest proof is accepted for the true value and for no other *)
Theorem C31_single_proofs : forall (P : pairing Fr) (ks : kzg_settings P) k n len s (p : list Fr) x,
  api_setup ks k n len s -> fits (2 * length p) -> length p <= len -> 2 <= len ->
  exists com proof, commit_to_poly ks p = Ok com /\ compute_proof_single blst_table ks p x = Ok proof /\
    check_proof_single ks com proof x (peval p x) = Ok true /\
    forall y, y <> peval p x -> check_proof_single ks com proof x y = Ok false.
Proof. exact @C31_proof. Qed.
Print Assumptions C31_single_proofs.
(** a setup of one element is accepted by the constructors but cannot check proofs *)
Theorem C31_unit_setup_refuted : forall (P : pairing Fr) (ks : kzg_settings P) k n s com proof x y,
  api_setup ks k n 1 s -> check_proof_single ks com proof x y = Panic.
Proof. exact @C31_panics_proof. Qed.
Print Assumptions C31_unit_setup_refuted.
Example C31_ex :
  match toy_settings with
  | Ok ks => match compute_proof_single blst_table ks [fr_of 1; fr_of 2; fr_of 5] (fr_of 7) with
             | Ok pi => val pi = 52%Z /\ check_proof_single ks (fr_of 52) pi (fr_of 7) (fr_of 260) = Ok true
                        /\ check_proof_single ks (fr_of 52) pi (fr_of 7) (fr_of 261) = Ok false
             | _ => False end
  | _ => False end.
Proof. vm_compute. auto. Qed.

Theorem C32_single_acceptance : forall (P : pairing Fr) (ks : kzg_settings P) k n len s com proof x y,
  api_setup ks k n len s -> 2 <= len ->
  exists b, check_proof_single ks com proof x y = Ok b /\
    (b = true <-> gsub com (smul y gen1) = smul (fsub s x) proof).
Proof. exact @C32_proof. Qed.
Print Assumptions C32_single_acceptance.
(** two different values accepted at one point give away [1/(s - x)]G *)
Theorem C32_binding : forall (P : pairing Fr) (ks : kzg_settings P) k n len s com p1 p2 x y1 y2,
  api_setup ks k n len s -> 2 <= len -> y1 <> y2 ->
  check_proof_single ks com p1 x y1 = Ok true -> check_proof_single ks com p2 x y2 = Ok true ->
  s <> x /\ smul (finv (fsub s x)) gen1 = smul (finv (fsub y2 y1)) (gsub p1 p2).
Proof. exact @C32_binding_proof. Qed.
Print Assumptions C32_binding.
(** in the toy group the prover knows discrete logarithms, so both values can be "proved" *)
Example C32_ex :
  match toy_settings with
  | Ok ks => check_proof_single ks (fr_of 52) (fr_of 25) (fr_of 1) (fr_of 2) = Ok true /\
             check_proof_single ks (fr_of 52) (fr_of 22) (fr_of 1) (fr_of 8) = Ok true
  | _ => False end.
Proof. vm_compute. auto. Qed.

Theorem C33_multi_proofs : forall (P : pairing Fr) (ks : kzg_settings P) k n len s m (p : list Fr) x,
  api_setup ks k n len s -> m <= k -> 2 ^ m < len -> fits (2 * length p) -> length p <= len -> x <> f0 \/ m = 0 ->
  exists com proof, commit_to_poly ks p = Ok com /\ compute_proof_multi blst_table ks p x (2 ^ m) = Ok proof /\
    check_proof_multi ks com proof x (map (fun i => peval p (fmul x (fpow (root m) i))) (seq 0 (2 ^ m))) (2 ^ m) = Ok true.
Proof. exact @C33_proof. Qed.
Print Assumptions C33_multi_proofs.
(** with offset zero (all the points coincide) the honest proof is accepted only when the
    low part of the polynomial takes its value at 0 at the secret too *)
Theorem C33_zero_offset : forall (P : pairing Fr) (ks : kzg_settings P) k n len s m (p : list Fr),
  api_setup ks k n len s -> m <= k -> 2 ^ m < len -> fits (2 * length p) -> length p <= len ->
  exists com proof b, commit_to_poly ks p = Ok com /\ compute_proof_multi blst_table ks p f0 (2 ^ m) = Ok proof /\
    check_proof_multi ks com proof f0 (repeat (peval p f0) (2 ^ m)) (2 ^ m) = Ok b /\
    (b = true <-> peval (firstn (2 ^ m) p) s = peval p f0).
Proof. exact @C33_zero_proof. Qed.
Print Assumptions C33_zero_offset.
Example C33_ex :
  match toy_settings with
  | Ok ks => match compute_proof_multi blst_table ks [fr_of 1; fr_of 2; fr_of 5] (fr_of 2) 2,
                   compute_proof_multi blst_table ks [fr_of 1; fr_of 2; fr_of 5] f0 2 with
             | Ok pi, Ok pi0 => check_proof_multi ks (fr_of 52) pi (fr_of 2) [fr_of 25; fr_of 17] 2 = Ok true /\
                                check_proof_multi ks (fr_of 52) pi0 f0 [fr_of 1; fr_of 1] 2 = Ok false
             | _, _ => False end
  | _ => False end.
Proof. vm_compute. auto. Qed.

(** [I] is the polynomial of lowest degree taking the claimed values on the coset *)
Theorem C34_multi_acceptance : forall (P : pairing Fr) (ks : kzg_settings P) k n len s m com proof x (ys I : list Fr),
  api_setup ks k n len s -> m <= k -> length ys = 2 ^ m -> 2 ^ m < len -> x <> f0 \/ m = 0 -> length I <= 2 ^ m ->
  (forall i, i < 2 ^ m -> peval I (fmul x (fpow (root m) i)) = nth i ys f0) ->
  exists b, check_proof_multi ks com proof x ys (2 ^ m) = Ok b /\
    (b = true <-> gsub com (smul (peval I s) gen1) = smul (fsub (fpow s (2 ^ m)) (fpow x (2 ^ m))) proof).
Proof. exact @C34_proof. Qed.
Print Assumptions C34_multi_acceptance.
(** C = 55, s = 3, x = 2 and I = 3 + 4X takes the values 11 and -5 at 2 and -2: 55 - 15 = (9 - 4) * 8 *)
Example C34_ex :
  match toy_settings with
  | Ok ks => check_proof_multi ks (fr_of 55) (fr_of 8) (fr_of 2) [fr_of 11; fr_of (-5)] 2 = Ok true
  | _ => False end.
Proof. vm_compute. auto. Qed.

Theorem C35_settings_arguments : forall (P : pairing Fr) (sg1 : list (PG1 P)) (sg2 : list (PG2 P)) len k fs,
  fft_settings_new blst_table k = Ok fs ->
  (kzg_new blst_table sg1 sg2 len fs = Err <-> length sg1 < 2 ^ k \/ length sg2 < 2 ^ k \/ len < 2 ^ k) /\
  (2 ^ k <= len -> len <= length sg1 -> len <= length sg2 ->
     kzg_new blst_table sg1 sg2 len fs = Ok (mkKZG fs (firstn len sg1) (firstn len sg2))) /\
  (2 ^ k <= length sg1 -> 2 ^ k <= length sg2 -> 2 ^ k <= len -> length sg1 < len \/ length sg2 < len ->
     kzg_new blst_table sg1 sg2 len fs = Panic).
Proof. exact @C35_new_proof. Qed.
Print Assumptions C35_settings_arguments.
Theorem C35_compute_arguments : forall (P : pairing Fr) (ks : kzg_settings P) k n len s (p : list Fr) x c,
  api_setup ks k n len s -> fits (2 * length p) ->
  ((forall m, c <> 2 ^ m) -> compute_proof_multi blst_table ks p x c = Err) /\
  (forall m, c = 2 ^ m -> length p <= len + c ->
     exists q, euclid p ([fneg (fpow x c)] ++ repeat f0 (c - 1) ++ [f1]) q /\
       compute_proof_multi blst_table ks p x c = Ok (smul (peval q s) gen1)) /\
  (forall m, c = 2 ^ m -> len + c < length p -> compute_proof_multi blst_table ks p x c = Panic).
Proof. exact @C35_compute_proof. Qed.
Print Assumptions C35_compute_arguments.
Theorem C35_check_arguments : forall (P : pairing Fr) (ks : kzg_settings P) k n len s com proof x (ys : list Fr) c,
  api_setup ks k n len s ->
  ((forall m, c <> 2 ^ m) \/ ~ acceptable (kzg_fs ks) (length ys) -> check_proof_multi ks com proof x ys c = Err) /\
  (forall m, c = 2 ^ m -> acceptable (kzg_fs ks) (length ys) ->
     (c <= length ys -> c < len -> exists b, check_proof_multi ks com proof x ys c = Ok b) /\
     (length ys < c \/ len <= c -> check_proof_multi ks com proof x ys c = Panic)).
Proof. exact @C35_check_proof. Qed.
Print Assumptions C35_check_arguments.
Example C35_ex :
  match toy_settings with
  | Ok ks => check_proof_multi ks (fr_of 1) (fr_of 1) (fr_of 2) [fr_of 1; fr_of 2] 3 = Err /\
             check_proof_multi ks (fr_of 1) (fr_of 1) (fr_of 2) [fr_of 1] 2 = Panic /\
             match compute_proof_multi blst_table ks (repeat (fr_of 1) 6) (fr_of 2) 1 with Panic => True | _ => False end
  | _ => False end.
Proof. vm_compute. auto. Qed.

Theorem C45_scalar_multiplication : forall (M : gmod Fr) (p : M) (b : Fr), g1_mul p b = Ok (smul b p).
Proof. exact C45_proof. Qed.
Print Assumptions C45_scalar_multiplication.
Theorem C45_scalar_bytes : forall x : Fr, fr_from_scalar (fr_to_scalar x) = x.
Proof. exact scalar_roundtrip. Qed.
Print Assumptions C45_scalar_bytes.
Example C45_ex :
  match g1_mul (fr_of 5 : PG1 (toy_pairing Fr)) (fr_of 300), g1_mul (fr_of 5 : PG1 (toy_pairing Fr)) (fr_of 0) with
  | Ok a, Ok b => val a = 1500%Z /\ val b = 0%Z | _, _ => False end.
Proof. vm_compute. auto. Qed.
