(** * Model_ZkWords: commitments and opening proofs of the zkcrypto backend on machine words

    zkcrypto/src/kzg_proofs.rs and kzg_types.rs once more, now with the points of the two
    groups as the words of their coordinates (Model_G1.v, Model_G2.v, Model_Pair.v) instead of
    elements of an abstract group (Model_ZkKZG.v), and the scalars that multiply points as
    Montgomery limbs (Model_Scalar.v). Polynomial division, powers and the transform of the
    claimed values, which involve scalars only, are those of Model_ZkKZG.v on the values;
    [fr_limbs] gives the limbs of a value (each value has exactly one canonical form).
    [checked] says whether arithmetic overflow panics. *)
From Coq Require Import List Arith Bool ZArith NArith.
From Verif Require Import Base Fld Zr Model_Scalar Model_Fp Model_Fp2 Model_Curve Model_G1 Model_G2 Model_Pair
  Model_Utils Model_FFT Model_Poly Model_KZG Model_Zk Model_ZkMsm Model_ZkKZG.
Import ListNotations.

(** the Montgomery limbs of a field element *)
Definition fr_limbs (x : Fr) : scalar :=
  let n := ((val x * 2 ^ 256) mod r)%Z in
  (Scalar (n mod W) (n / W mod W) (n / W ^ 2 mod W) (n / W ^ 3 mod W))%Z.

(** ** the constants of kzg_types.rs *)
(** kzg_types.rs:51-55 [G1_GENERATOR] *)
Definition zkw_g1_generator : g1_projective := @Proj fp_ops
  (FP 0x5cb38790fd530c16 0x7817fc679976fff5 0x154f95c7143ba1c1 0xf0ae6acdf3d0e747 0xedce6ecc21dbf440 0x120177419e0bfb75)
  (FP 0xbaac93d50ce72271 0x8c22631a7918fd8e 0xdd595f13570725ce 0x51ac582950405194 0x0e1c8c3fad0059c0 0x0bbc3efc5008a26a)
  (FP 0x760900000002fffd 0xebf4000bc40c0002 0x5f48985753c758ba 0x77ce585370525745 0x5c071a97a256ec6d 0x15f65ec3fa80e493).
(** kzg_types.rs:57-61 [G1_NEGATIVE_GENERATOR] *)
Definition zkw_g1_negative_generator : g1_projective := @Proj fp_ops
  (FP 0x5cb38790fd530c16 0x7817fc679976fff5 0x154f95c7143ba1c1 0xf0ae6acdf3d0e747 0xedce6ecc21dbf440 0x120177419e0bfb75)
  (FP 0xff526c2af318883a 0x92899ce4383b0270 0x89d7738d9fa9d055 0x12caf35ba344c12a 0x3cff1b76964b5317 0x0e44d2ede9774430)
  (FP 0x760900000002fffd 0xebf4000bc40c0002 0x5f48985753c758ba 0x77ce585370525745 0x5c071a97a256ec6d 0x15f65ec3fa80e493).
(** kzg_types.rs:63-66 [G1_IDENTITY] *)
Definition zkw_g1_identity : g1_projective := @Proj fp_ops fp_zero fp_one fp_zero.
(** kzg_types.rs:69-87 [G2_GENERATOR] *)
Definition zkw_g2_generator : g2_projective := @Proj fp2_ops
  (FP2 (FP 0xf5f28fa202940a10 0xb3f5fb2687b4961a 0xa1a893b53e2ae580 0x9894999d1a3caee9 0x6f67b7631863366b 0x058191924350bcd7)
       (FP 0xa5a9c0759e23f606 0xaaa0c59dbccd60c3 0x3bb17e18e2867806 0x1b1ab6cc8541b367 0xc2b6ed0ef2158547 0x11922a097360edf3))
  (FP2 (FP 0x4c730af860494c4a 0x597cfa1f5e369c5a 0xe7e6856caa0a635a 0xbbefb5e96e0d495f 0x07d3a975f0ef25a2 0x0083fd8e7e80dae5)
       (FP 0xadc0fc92df64b05d 0x18aa270a2b1461dc 0x86adac6a3be4eba0 0x79495c4ec93da33a 0xe7175850a43ccaed 0x0b2bc2a163de1bf2))
  (FP2 (FP 0x760900000002fffd 0xebf4000bc40c0002 0x5f48985753c758ba 0x77ce585370525745 0x5c071a97a256ec6d 0x15f65ec3fa80e493)
       (FP 0x0000000000000000 0x0000000000000000 0x0000000000000000 0x0000000000000000 0x0000000000000000 0x0000000000000000)).
(** kzg_types.rs:89-105 [G2_NEGATIVE_GENERATOR] *)
Definition zkw_g2_negative_generator : g2_projective := @Proj fp2_ops
  (FP2 (FP 0xf5f28fa202940a10 0xb3f5fb2687b4961a 0xa1a893b53e2ae580 0x9894999d1a3caee9 0x6f67b7631863366b 0x058191924350bcd7)
       (FP 0xa5a9c0759e23f606 0xaaa0c59dbccd60c3 0x3bb17e18e2867806 0x1b1ab6cc8541b367 0xc2b6ed0ef2158547 0x11922a097360edf3))
  (FP2 (FP 0x6d8bf5079fb65e61 0xc52f05df531d63a5 0x7f4a4d344ca692c9 0xa887959b8577c95f 0x4347fe40525c8734 0x197d145bbaff0bb5)
       (FP 0x0c3e036d209afa4e 0x0601d8f4863f9e23 0xe0832636bacc0a84 0xeb2def362a476f84 0x64044f659f0ee1e9 0x0ed54f48d5a1caa7))
  (FP2 (FP 0x760900000002fffd 0xebf4000bc40c0002 0x5f48985753c758ba 0x77ce585370525745 0x5c071a97a256ec6d 0x15f65ec3fa80e493)
       (FP 0x0000000000000000 0x0000000000000000 0x0000000000000000 0x0000000000000000 0x0000000000000000 0x0000000000000000)).

(** ** the methods of the point types *)
(** kzg_types.rs:130-140 [add_or_dbl] of G1 *)
Definition zkw_g1_add_or_dbl (a b : g1_projective) : g1_projective := if proj_eq a b then proj_double a else proj_add a b.
(** kzg_types.rs:142-144 [is_inf] *)
Definition zkw_g1_is_inf (a : g1_projective) : bool := proj_is_identity a.
(** kzg_types.rs:146-148 [dbl] *)
Definition zkw_g1_dbl (a : g1_projective) : g1_projective := proj_double a.
(** kzg_types.rs:150-152 [sub] *)
Definition zkw_g1_sub (a b : g1_projective) : g1_projective := proj_add a (proj_neg b).
(** kzg_types.rs:154-156 [equals] *)
Definition zkw_g1_equals (a b : g1_projective) : bool := proj_eq a b.
(** kzg_types.rs:160-162 [mul] *)
Definition zkw_g1_mul (checked : bool) (a : g1_projective) (b : scalar) : res g1_projective := Model_G1.g1_mul checked a b.
(** kzg_types.rs:179-184 [add_or_dbl] of G2 *)
Definition zkw_g2_add_or_dbl (a b : g2_projective) : g2_projective := if proj_eq a b then proj_double a else proj_add a b.
(** kzg_types.rs:186-188 [dbl] *)
Definition zkw_g2_dbl (a : g2_projective) : g2_projective := proj_double a.
(** kzg_types.rs:190-192 [sub] *)
Definition zkw_g2_sub (a b : g2_projective) : g2_projective := proj_add a (proj_neg b).
(** kzg_types.rs:194-196 [equals] *)
Definition zkw_g2_equals (a b : g2_projective) : bool := proj_eq a b.
(** kzg_types.rs:200-202 [mul] *)
Definition zkw_g2_mul (a : g2_projective) (b : scalar) : g2_projective := Model_G2.g2_mul a b.

(** ** kzg_proofs.rs *)
(** kzg_proofs.rs:24-29 [KZGSettings]; [length] is never read *)
Record zkw_settings := mkZkw { zkw_fs : fft_settings Fr; zkw_secret_g1 : list g1_projective; zkw_secret_g2 : list g2_projective }.
(** kzg_proofs.rs:51-58 [new_kzg_settings] *)
Definition zkw_new (sg1 : list g1_projective) (sg2 : list g2_projective) (fs : fft_settings Fr) : zkw_settings := mkZkw fs sg1 sg2.

(** multiscalar_mul.rs:189-272 [msm_variable_base] on points and scalars in words *)
Definition msm_words (points : list g1_projective) (scalars : list scalar) : res g1_projective :=
  msm_variable_base (proj_identity : g1_projective) proj_add proj_double Model_Scalar.is_zero Model_Scalar.is_one limb_digit points scalars.

Section Checked.
Variable checked : bool.
Variable table : list Fr.
(** kzg_proofs.rs:60-74 [generate_trusted_setup] *)
Definition zkw_generate_trusted_setup (n : nat) (secret : list Z) : res (list g1_projective * list g2_projective) :=
  match from_bytes secret with
  | None => Panic
  | Some s =>
    let* st := for_range 0 n (fun _ (st : scalar * list g1_projective * list g2_projective) =>
        let '(s_pow, s1, s2) := st in
        let* a := zkw_g1_mul checked zkw_g1_generator s_pow in
        let s1 := s1 ++ [a] in
        let s2 := s2 ++ [zkw_g2_mul zkw_g2_generator s_pow] in
        let s_pow := Model_Scalar.mul s_pow s in
        Ok (s_pow, s1, s2)) (Model_Scalar.one, [], []) in
    let '(_, s1, s2) := st in Ok (s1, s2)
  end.

(** poly.rs:24-27 [is_zero] *)
Definition zkw_is_zero (p : list scalar) : bool := (length p =? 0) || forallb Model_Scalar.is_zero p.
(** kzg_proofs.rs:76-88 [commit_to_poly] *)
Definition zkw_commit_inner (ks : zkw_settings) (p : list scalar) : res g1_projective :=
  if length (zkw_secret_g1 ks) <? length p then Err
  else if zkw_is_zero p then Ok zkw_g1_identity
  else msm_words (zkw_secret_g1 ks) p.
(** kzg_types.rs:240-242, the trait method [commit_to_poly] *)
Definition zkw_commit_to_poly (ks : zkw_settings) (p : list scalar) : res g1_projective := unwrap (zkw_commit_inner ks p).

(** kzg_proofs.rs:94-101 [check_proof_single] *)
Definition zkw_check_proof_single (ks : zkw_settings) (com proof : g1_projective) (x value : scalar) : res bool :=
  let x_g2 := zkw_g2_mul zkw_g2_generator x in
  let* sg := idx (zkw_secret_g2 ks) 1 in
  let s_minus_x := zkw_g2_sub sg x_g2 in
  let* y_g1 := zkw_g1_mul checked zkw_g1_generator value in
  let commitment_minus_y := zkw_g1_sub com y_g1 in
  zk_pairings_verify commitment_minus_y zkw_g2_generator proof s_minus_x.

(** kzg_proofs.rs:107-128 [compute_proof_multi]; the polynomial operations are on values *)
Definition zkw_compute_proof_multi (ks : zkw_settings) (p : list Fr) (x : Fr) (n : nat) : res g1_projective :=
  if negb (is_pow2 n) then Err
  else
    let* x_power_n := fr_pow x n in
    let p2 := [fneg x_power_n] in
    let* p2 := for_range 1 n (fun _ d => Ok (d ++ [f0])) p2 in
    let p2 := p2 ++ [f1] in
    let* q := unwrap (zk_poly_div table p p2) in
    unwrap (zkw_commit_inner ks (map fr_limbs q)).
(** kzg_proofs.rs:90-92 [compute_proof_single] *)
Definition zkw_compute_proof_single (ks : zkw_settings) (p : list Fr) (x : Fr) : res g1_projective :=
  zkw_compute_proof_multi ks p x 1.

(** kzg_proofs.rs:130-152 [check_proof_multi]; the operations on scalars are on values *)
Definition zkw_check_proof_multi (ks : zkw_settings) (com proof : g1_projective) (x : Fr) (values : list Fr) (n : nat) : res bool :=
  if negb (is_pow2 n) then Err
  else
    let* poly := zk_fft_fr (zkw_fs ks) values true in
    let* x_inverse := zk_inverse x in
    let* st := for_range 1 n (fun i (st : list Fr * Fr) =>
        let (poly, x_inverse_power) := st in
        let* c := idx poly i in
        let* poly := upd poly i (fmul c x_inverse_power) in
        Ok (poly, fmul x_inverse_power x_inverse)) (poly, x_inverse) in
    let (poly, x_inverse_power) := st in
    let* x_power := zk_inverse x_inverse_power in
    let xn2 := zkw_g2_mul zkw_g2_generator (fr_limbs x_power) in
    let* sg := idx (zkw_secret_g2 ks) n in
    let xn_minus_yn := zkw_g2_sub sg xn2 in
    let* g1 := unwrap (zkw_commit_inner ks (map fr_limbs poly)) in
    let commit_minus_interp := zkw_g1_sub com g1 in
    zk_pairings_verify commit_minus_interp zkw_g2_generator proof xn_minus_yn.
End Checked.
