(** * Property C72: batch proofs of the zkcrypto backend

    Vocabulary as in Properties_ZkKZG.v; [bitrev] (Spec.v) reverses the bits of an index. *)
From Coq Require Import List Arith ZArith NArith.
From Verif Require Import Base Fld Poly Model_FFT Zr ZrTables Spec Spec_More.
From Verif Require Import Proof_FFTFr Model_KZG Spec_KZG Model_FK20 Model_Zk Model_ZkKZG Spec_ZkKZG Model_ZkFK20 Proof_ZkFK20.
Import ListNotations.

(** settings with scale 2, a setup of two elements and secret scalar 3 *)
Definition zk_toy2 : res (kzg_settings (toy_pairing Fr)) :=
  let* fs := zk_fft_settings_new zk_table 2 in
  let* st := zk_generate_trusted_setup (P := toy_pairing Fr) 2 (3 :: repeat 0 31)%Z in
  zk_kzg_new (fst st) (snd st) 2 fs.

(** one proof per point of the double-sized domain, each equal to the individually computed one (which does not exist for the zero polynomial) *)
Theorem C72_batch_single : forall (P : pairing Fr) (ks : kzg_settings P) k n s m (p : list Fr),
  zk_setup ks k n s -> S m <= k -> 2 ^ m <= 1 + n -> length p = 2 ^ m ->
  exists fk out, zk_fk20_single_new ks (2 ^ S m) = Ok fk /\ zk_fk20_single_da_opt fk p = Ok out /\
    length out = 2 ^ S m /\
    ((exists i, coef p i <> f0) -> forall i, i < 2 ^ S m ->
       exists pf, zk_compute_proof_single zk_table ks p (fpow (root (S m)) i) = Ok pf /\ nth_error out i = Some pf) /\
    ((forall i, coef p i = f0) -> out = repeat g0 (2 ^ S m)) /\
    exists rev, zk_fk20_single_da fk p = Ok rev /\ length rev = 2 ^ S m /\
      forall i, i < 2 ^ S m -> nth_error rev i = nth_error out (bitrev (S m) i).
Proof. exact @C72_single_proof. Qed.
Print Assumptions C72_batch_single.
(** the same for cosets of [2 ^ a] points *)
Theorem C72_batch_multi : forall (P : pairing Fr) (ks : kzg_settings P) k n s m a (p : list Fr),
  zk_setup ks k n s -> S m <= k -> a <= m -> 2 ^ m <= 2 ^ a + n -> length p = 2 ^ m ->
  exists fk out, zk_fk20_multi_new ks (2 ^ S m) (2 ^ a) = Ok fk /\ zk_fk20_multi_da_opt fk p = Ok out /\
    length out = 2 ^ S (m - a) /\
    ((exists i, coef p i <> f0) -> forall i, i < 2 ^ S (m - a) ->
       exists pf, zk_compute_proof_multi zk_table ks p (fpow (root (S m)) i) (2 ^ a) = Ok pf /\ nth_error out i = Some pf) /\
    ((forall i, coef p i = f0) -> out = repeat g0 (2 ^ S (m - a))) /\
    exists rev, zk_fk20_multi_da fk p = Ok rev /\ length rev = 2 ^ S (m - a) /\
      forall i, i < 2 ^ S (m - a) -> nth_error rev i = nth_error out (bitrev (S (m - a)) i).
Proof. exact @C72_multi_proof. Qed.
Print Assumptions C72_batch_multi.
(** a setup too short for the size panics *)
Theorem C72_single_constructor : forall (P : pairing Fr) (ks : kzg_settings P) k n s n2,
  zk_setup ks k n s ->
  (~ (n2 <= 2 ^ k /\ exists m, n2 = 2 ^ S m) -> zk_fk20_single_new ks n2 = Err) /\
  (forall m, n2 = 2 ^ S m -> S m <= k ->
     (2 ^ m <= 1 + n -> exists fk, zk_fk20_single_new ks n2 = Ok fk) /\
     (1 + n < 2 ^ m -> zk_fk20_single_new ks n2 = Panic)).
Proof. exact @C72_single_new_proof. Qed.
Print Assumptions C72_single_constructor.
Theorem C72_multi_constructor : forall (P : pairing Fr) (ks : kzg_settings P) k n s n2 cl,
  zk_setup ks k n s ->
  (~ (n2 <= 2 ^ k /\ exists m a, n2 = 2 ^ S m /\ cl = 2 ^ a /\ a <= m) -> zk_fk20_multi_new ks n2 cl = Err) /\
  (forall m a, n2 = 2 ^ S m -> cl = 2 ^ a -> a <= m -> S m <= k ->
     (2 ^ m <= 2 ^ a + n -> exists fk, zk_fk20_multi_new ks n2 cl = Ok fk) /\
     (2 ^ a + n < 2 ^ m -> zk_fk20_multi_new ks n2 cl = Panic)).
Proof. exact @C72_multi_new_proof. Qed.
Print Assumptions C72_multi_constructor.
(** polynomials of a length that does not fit are refused *)
Theorem C72_sizes : forall (P : pairing Fr) k n s (fks : fk20_single P) (fkm : fk20_multi P) (p : list Fr),
  ~ (length p * 2 <= 2 ^ k /\ exists m, length p = 2 ^ m) ->
  (zk_setup (fks_kzg fks) k n s -> zk_fk20_single_da_opt fks p = Err /\ zk_fk20_single_da fks p = Err) /\
  (zk_setup (fkm_kzg fkm) k n s -> zk_fk20_multi_da_opt fkm p = Err /\ zk_fk20_multi_da fkm p = Err).
Proof. exact @C72_errors_proof. Qed.
Print Assumptions C72_sizes.
(** a polynomial longer than the batch settings were made for panics *)
Theorem C72_longer_polynomial : forall (P : pairing Fr) (ks : kzg_settings P) k n s m m' a fks fkm (p : list Fr),
  zk_setup ks k n s -> a <= m -> m < m' -> S m' <= k -> length p = 2 ^ m' ->
  (zk_fk20_single_new ks (2 ^ S m) = Ok fks -> zk_fk20_single_da_opt fks p = Panic /\ zk_fk20_single_da fks p = Panic) /\
  (zk_fk20_multi_new ks (2 ^ S m) (2 ^ a) = Ok fkm -> zk_fk20_multi_da_opt fkm p = Panic /\ zk_fk20_multi_da fkm p = Panic).
Proof. exact @C72_long_proof. Qed.
Print Assumptions C72_longer_polynomial.
(** a polynomial shorter than one chunk panics *)
Theorem C72_chunk_panics : forall (P : pairing Fr) (ks : kzg_settings P) k n s m a b fk (p : list Fr),
  zk_setup ks k n s -> S m <= k -> a <= m -> b < a ->
  zk_fk20_multi_new ks (2 ^ S m) (2 ^ a) = Ok fk -> length p = 2 ^ b -> zk_fk20_multi_da_opt fk p = Panic /\ zk_fk20_multi_da fk p = Panic.
Proof. exact @C72_short_multi_proof. Qed.
Print Assumptions C72_chunk_panics.
(** a shorter polynomial is accepted and gets wrong proofs: for a constant the proofs should be the identity *)
Theorem C72_shorter_polynomial_refuted : forall (P : pairing Fr) (ks : kzg_settings P) k n s fk (c : Fr),
  zk_setup ks k n s -> 2 <= k -> 1 <= n -> c <> f0 ->
  zk_fk20_single_new ks 4 = Ok fk ->
  zk_fk20_single_da_opt fk [c] = Ok [smul c gen1; smul c gen1] /\
  forall x, zk_compute_proof_single zk_table ks [c] x = Ok g0.
Proof. exact @C72_short_proof. Qed.
Print Assumptions C72_shorter_polynomial_refuted.
Example C72_ex :
  match zk_toy2 with
  | Ok ks =>
    match zk_fk20_single_new ks 4, zk_fk20_multi_new ks 4 2 with
    | Ok fks, Ok fkm =>
      match zk_fk20_single_da_opt fks [fr_of 5; fr_of 7], zk_fk20_single_da fks [fr_of 5; fr_of 7],
            zk_fk20_multi_da_opt fkm [fr_of 5; fr_of 7], zk_fk20_single_da_opt fks [fr_of 0; fr_of 0] with
      | Ok a, Ok b, Ok c, Ok d => map (fun x => val x) a = [7; 7; 7; 7]%Z /\ map (fun x => val x) b = [7; 7; 7; 7]%Z /\
          map (fun x => val x) c = [0; 0]%Z /\ map (fun x => val x) d = [0; 0; 0; 0]%Z /\
          match zk_fk20_single_da_opt fks [fr_of 1; fr_of 2; fr_of 3] with Err => True | _ => False end
      | _, _, _, _ => False end
    | _, _ => False end
  | _ => False end.
Proof. vm_compute. repeat split; reflexivity. Qed.
