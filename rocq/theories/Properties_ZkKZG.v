(** * Property C71: trusted setup, commitments and opening proofs of the zkcrypto backend

    [P] is an arbitrary pairing over the scalar field; [zk_setup ks k n s] (Spec_ZkKZG.v)
    says that [ks] came out of the public constructors with FFT scale [k], a trusted setup
    of [n] elements and secret scalar [s]; [trimmed p p'] that [p'] is the non-zero
    polynomial [p] without its trailing zero coefficients. *)
From Coq Require Import List Arith ZArith NArith.
From Verif Require Import Base Fld Poly Model_FFT Zr ZrTables Spec Spec_More.
From Verif Require Import Proof_FFTFr Model_KZG Spec_KZG Proof_KZG Model_Zk Model_ZkKZG Spec_ZkKZG Proof_ZkKZG.
Import ListNotations.

(** settings with scale 1, a setup of four elements and secret scalar 3 *)
Definition zk_toy : res (kzg_settings (toy_pairing Fr)) :=
  let* fs := zk_fft_settings_new zk_table 1 in
  let* st := zk_generate_trusted_setup (P := toy_pairing Fr) 4 (3 :: repeat 0 31)%Z in
  zk_kzg_new (fst st) (snd st) 4 fs.

(** the constructors succeed for every scale below 32, any setup size and any canonical secret *)
Theorem zk_setup_available : forall (P : pairing Fr) k n len secret fs,
  zk_fft_settings_new zk_table k = Ok fs -> (le_value secret < r)%Z ->
  exists sg1 sg2 (ks : kzg_settings P), zk_generate_trusted_setup n secret = Ok (sg1, sg2) /\ zk_kzg_new sg1 sg2 len fs = Ok ks /\
    zk_setup ks k n (fr_of (le_value secret)) /\ kzg_fs ks = fs.
Proof. exact @zk_setup_exists. Qed.
Print Assumptions zk_setup_available.
(** a secret that does not encode a canonical scalar panics *)
Theorem C71_trusted_setup : forall (P : pairing Fr) n secret,
  ((r <= le_value secret)%Z -> zk_generate_trusted_setup (P := P) n secret = Panic) /\
  ((le_value secret < r)%Z -> exists g1s g2s,
     zk_generate_trusted_setup (P := P) n secret = Ok (g1s, g2s) /\ length g1s = n /\ length g2s = n /\
     forall i, i < n -> nth_error g1s i = Some (smul (fpow (fr_of (le_value secret)) i) gen1) /\
                        nth_error g2s i = Some (smul (fpow (fr_of (le_value secret)) i) gen2)).
Proof. exact @C71_setup_proof. Qed.
Print Assumptions C71_trusted_setup.
(** a polynomial longer than the setup panics instead of giving an error *)
Theorem C71_commitment : forall (P : pairing Fr) (ks : kzg_settings P) k n s (p : list Fr),
  zk_setup ks k n s -> (N.of_nat (length p) < 2 ^ 64)%N ->
  (length p <= n -> zk_commit_to_poly ks p = Ok (smul (peval p s) gen1)) /\
  (n < length p -> zk_commit_to_poly ks p = Panic).
Proof. exact @C71_commit_proof. Qed.
Print Assumptions C71_commitment.
(** the zero polynomial panics *)
Theorem C71_compute : forall (P : pairing Fr) (ks : kzg_settings P) k n s (p : list Fr) x c,
  zk_setup ks k n s -> fits (2 * length p) ->
  ((forall m, c <> 2 ^ m) -> zk_compute_proof_multi zk_table ks p x c = Err) /\
  (forall m, c = 2 ^ m -> (forall i, coef p i = f0) -> zk_compute_proof_multi zk_table ks p x c = Panic) /\
  (forall m p', c = 2 ^ m -> trimmed p p' -> length p' <= n + c ->
     exists q, euclid p' ([fneg (fpow x c)] ++ repeat f0 (c - 1) ++ [f1]) q /\
       zk_compute_proof_multi zk_table ks p x c = Ok (smul (peval q s) gen1)) /\
  (forall m p', c = 2 ^ m -> trimmed p p' -> n + c < length p' -> zk_compute_proof_multi zk_table ks p x c = Panic).
Proof. exact @C71_compute_proof. Qed.
Print Assumptions C71_compute.
(** the honest proof is accepted for the true value and for no other *)
Theorem C71_single_proofs : forall (P : pairing Fr) (ks : kzg_settings P) k n s (p : list Fr) x,
  zk_setup ks k n s -> fits (2 * length p) -> length p <= n -> 2 <= n ->
  (exists i, coef p i <> f0) ->
  exists com proof, zk_commit_to_poly ks p = Ok com /\ zk_compute_proof_single zk_table ks p x = Ok proof /\
    zk_check_proof_single ks com proof x (peval p x) = Ok true /\
    forall y, y <> peval p x -> zk_check_proof_single ks com proof x y = Ok false.
Proof. exact @C71_single_proof. Qed.
Print Assumptions C71_single_proofs.
Theorem C71_single_acceptance : forall (P : pairing Fr) (ks : kzg_settings P) k n s com proof x y,
  zk_setup ks k n s ->
  (2 <= n -> exists b, zk_check_proof_single ks com proof x y = Ok b /\
     (b = true <-> gsub com (smul y gen1) = smul (fsub s x) proof)) /\
  (n < 2 -> zk_check_proof_single ks com proof x y = Panic).
Proof. exact @C71_single_check_proof. Qed.
Print Assumptions C71_single_acceptance.
(** two different values accepted at one point give away [1/(s - x)]G *)
Theorem C71_binding : forall (P : pairing Fr) (ks : kzg_settings P) k n s com p1 p2 x y1 y2,
  zk_setup ks k n s -> 2 <= n -> y1 <> y2 ->
  zk_check_proof_single ks com p1 x y1 = Ok true -> zk_check_proof_single ks com p2 x y2 = Ok true ->
  s <> x /\ smul (finv (fsub s x)) gen1 = smul (finv (fsub y2 y1)) (gsub p1 p2).
Proof. exact @C71_binding_proof. Qed.
Print Assumptions C71_binding.
Example C71_single_ex :
  match zk_toy with
  | Ok ks =>
    match zk_commit_to_poly ks [fr_of 1; fr_of 2; fr_of 5; fr_of 0], zk_compute_proof_single zk_table ks [fr_of 1; fr_of 2; fr_of 5; fr_of 0] (fr_of 7),
          zk_compute_proof_single zk_table ks [fr_of 0; fr_of 0] (fr_of 7) with
    | Ok com, Ok pi, Panic =>
        val com = 52%Z /\ val pi = 52%Z /\
        zk_check_proof_single ks com pi (fr_of 7) (fr_of 260) = Ok true /\
        zk_check_proof_single ks com pi (fr_of 7) (fr_of 261) = Ok false
    | _, _, _ => False end
  | _ => False end.
Proof. vm_compute. auto. Qed.
Theorem C71_multi_proofs : forall (P : pairing Fr) (ks : kzg_settings P) k n s m (p : list Fr) x,
  zk_setup ks k n s -> m <= k -> 2 ^ m < n -> fits (2 * length p) -> length p <= n ->
  x <> f0 -> (exists i, coef p i <> f0) ->
  exists com proof, zk_commit_to_poly ks p = Ok com /\ zk_compute_proof_multi zk_table ks p x (2 ^ m) = Ok proof /\
    zk_check_proof_multi ks com proof x (map (fun i => peval p (fmul x (fpow (root m) i))) (seq 0 (2 ^ m))) (2 ^ m) = Ok true.
Proof. exact @C71_multi_proof. Qed.
Print Assumptions C71_multi_proofs.
(** the equation a multi proof is accepted by; [I] is the polynomial through the claimed values *)
Theorem C71_multi_acceptance : forall (P : pairing Fr) (ks : kzg_settings P) k n s m com proof x (ys I : list Fr),
  zk_setup ks k n s -> m <= k -> length ys = 2 ^ m -> 2 ^ m < n ->
  x <> f0 -> length I <= 2 ^ m -> (forall i, i < 2 ^ m -> peval I (fmul x (fpow (root m) i)) = nth i ys f0) ->
  exists b, zk_check_proof_multi ks com proof x ys (2 ^ m) = Ok b /\
    (b = true <-> gsub com (smul (peval I s) gen1) = smul (fsub (fpow s (2 ^ m)) (fpow x (2 ^ m))) proof).
Proof. exact @C71_multi_accept_proof. Qed.
Print Assumptions C71_multi_acceptance.
(** when an answer is given; opening at zero panics *)
Theorem C71_multi_errors : forall (P : pairing Fr) (ks : kzg_settings P) k n s com proof x (ys : list Fr) c,
  zk_setup ks k n s ->
  ((forall m, c <> 2 ^ m) \/ ~ acceptable (kzg_fs ks) (length ys) -> zk_check_proof_multi ks com proof x ys c = Err) /\
  (forall m, c = 2 ^ m -> acceptable (kzg_fs ks) (length ys) ->
     (x <> f0 -> c <= length ys <= n -> c < n -> exists b, zk_check_proof_multi ks com proof x ys c = Ok b) /\
     (x = f0 \/ length ys < c \/ n <= c \/ n < length ys -> zk_check_proof_multi ks com proof x ys c = Panic)).
Proof. exact @C71_multi_check_proof. Qed.
Print Assumptions C71_multi_errors.
Example C71_multi_ex :
  match zk_toy with
  | Ok ks =>
    match zk_compute_proof_multi zk_table ks [fr_of 1; fr_of 2; fr_of 5] (fr_of 1) 2 with
    | Ok pi => val pi = 5%Z /\
        zk_check_proof_multi ks (fr_of 52) pi (fr_of 1) [fr_of 8; fr_of 4] 2 = Ok true /\
        zk_check_proof_multi ks (fr_of 52) pi (fr_of 1) [fr_of 4; fr_of 8] 2 = Ok false /\
        zk_check_proof_multi ks (fr_of 52) pi (fr_of 1) [fr_of 8; fr_of 4] 3 = Err /\
        zk_check_proof_multi ks (fr_of 52) pi (fr_of 0) [fr_of 8; fr_of 4] 2 = Panic
    | _ => False end
  | _ => False end.
Proof. vm_compute. repeat split; reflexivity. Qed.
