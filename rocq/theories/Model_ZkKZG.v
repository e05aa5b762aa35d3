(** * Model_ZkKZG: commitments and opening proofs of the zkcrypto backend

    zkcrypto/src/kzg_proofs.rs, and the trait methods of zkcrypto/src/kzg_types.rs:231-263.
    Points are elements of an arbitrary pairing over the scalar field, as for the other
    backends (Model_KZG.v: [pairing], [kzg_settings]); this backend's [length] field is
    stored but never read and is left out. *)
From Coq Require Import List Arith Bool ZArith NArith.
From Verif Require Import Base Fld Zr Model_Utils Model_FFT Model_Poly Model_KZG Model_Zk Model_ZkMsm.
Import ListNotations.

Section Model.
Context {P : pairing Fr}.
Variable table : list Fr.

(** zkfr.rs:146-153 [inverse]: [invert().unwrap()] *)
Definition zk_inverse (x : Fr) : res Fr := if feqb x f0 then Panic else Ok (finv x).

(** kzg_proofs.rs:51-58 [new_kzg_settings], kzg_types.rs:236-238 [new]: nothing is checked *)
Definition zk_kzg_new (sg1 : list (PG1 P)) (sg2 : list (PG2 P)) (len : nat) (fs : fft_settings Fr) : res (kzg_settings P) :=
  Ok (mkKZG fs sg1 sg2).

(** kzg_proofs.rs:60-74 [generate_trusted_setup]; [from_bytes] accepts the little-endian
    encodings of the integers below r (Model_Scalar.v: [from_bytes], property C42) *)
Definition zk_generate_trusted_setup (n : nat) (secret : list Z) : res (list (PG1 P) * list (PG2 P)) :=
  if (le_value secret <? r)%Z then
    let s := fr_of (le_value secret) in
    let* st := for_range 0 n (fun _ (st : Fr * list (PG1 P) * list (PG2 P)) =>
        let '(s_pow, s1, s2) := st in
        Ok (fmul s_pow s, s1 ++ [smul s_pow gen1], s2 ++ [smul s_pow gen2])) (f1, [], []) in
    let '(_, s1, s2) := st in Ok (s1, s2)
  else Panic.

(** poly.rs:24-27 [is_zero] *)
Definition zk_is_zero (p : list Fr) : bool := (length p =? 0) || forallb (fun c => feqb c f0) p.

(** kzg_proofs.rs:76-88 [commit_to_poly] *)
Definition zk_commit_inner (ks : kzg_settings P) (p : list Fr) : res (PG1 P) :=
  if length (secret_g1 ks) <? length p then Err
  else if zk_is_zero p then Ok g0
  else msm_fr (secret_g1 ks) p.

(** kzg_types.rs:240-242, the trait method [commit_to_poly] *)
Definition zk_commit_to_poly (ks : kzg_settings P) (p : list Fr) : res (PG1 P) := unwrap (zk_commit_inner ks p).

(** kzg_proofs.rs:94-101 [check_proof_single] *)
Definition zk_check_proof_single (ks : kzg_settings P) (com proof : PG1 P) (x value : Fr) : res bool :=
  let x_g2 := smul x gen2 in
  let* sg := idx (secret_g2 ks) 1 in
  let s_minus_x := gsub sg x_g2 in
  let y_g1 := smul value gen1 in
  let commitment_minus_y := gsub com y_g1 in
  Ok (pairings_verify commitment_minus_y gen2 proof s_minus_x).

(** kzg_proofs.rs:107-128 [compute_proof_multi]; [is_power_of_two] (103-105) is [is_pow2] *)
Definition zk_compute_proof_multi (ks : kzg_settings P) (p : list Fr) (x : Fr) (n : nat) : res (PG1 P) :=
  if negb (is_pow2 n) then Err
  else
    let* x_power_n := fr_pow x n in
    let p2 := [fneg x_power_n] in
    let* p2 := for_range 1 n (fun _ d => Ok (d ++ [f0])) p2 in
    let p2 := p2 ++ [f1] in
    let* q := unwrap (zk_poly_div table p p2) in
    unwrap (zk_commit_inner ks q).

(** kzg_proofs.rs:90-92 [compute_proof_single] *)
Definition zk_compute_proof_single (ks : kzg_settings P) (p : list Fr) (x : Fr) : res (PG1 P) :=
  zk_compute_proof_multi ks p x 1.

(** kzg_proofs.rs:130-152 [check_proof_multi] *)
Definition zk_check_proof_multi (ks : kzg_settings P) (com proof : PG1 P) (x : Fr) (values : list Fr) (n : nat) : res bool :=
  if negb (is_pow2 n) then Err
  else
    let* poly := zk_fft_fr (kzg_fs ks) values true in
    let* x_inverse := zk_inverse x in
    let* st := for_range 1 n (fun i (st : list Fr * Fr) =>
        let (poly, x_inverse_power) := st in
        let* c := idx poly i in
        let* poly := upd poly i (fmul c x_inverse_power) in
        Ok (poly, fmul x_inverse_power x_inverse)) (poly, x_inverse) in
    let (poly, x_inverse_power) := st in
    let* x_power := zk_inverse x_inverse_power in
    let xn2 := smul x_power gen2 in
    let* sg := idx (secret_g2 ks) n in
    let xn_minus_yn := gsub sg xn2 in
    let* g1 := unwrap (zk_commit_inner ks poly) in
    let commit_minus_interp := gsub com g1 in
    Ok (pairings_verify commit_minus_interp gen2 proof xn_minus_yn).
End Model.
