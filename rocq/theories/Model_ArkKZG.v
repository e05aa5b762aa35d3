(** * Model_ArkKZG: commitments and opening proofs of the Arkworks backend

    Arkworks/src/kzg_proofs.rs and the trait methods of Arkworks/src/kzg_types.rs:413-456.
    Points are elements of an arbitrary pairing over the scalar field (Model_KZG.v:
    [pairing]).  The one place where the crate looks at the representation of a point is
    the seed of the random generator (kzg_proofs.rs:389-395), so a stored G1 point carries
    the six limbs of its X coordinate next to the group element. *)
From Coq Require Import List Arith Bool ZArith NArith.
From Verif Require Import Base Fld Zr Model_Utils Model_FFT Model_Poly Model_KZG Model_Ark.
Import ListNotations.

(** blst_fp: six 64-bit limbs *)
Record limbs6 := mkLimbs { limb0 : Z; limb1 : Z; limb2 : Z; limb3 : Z; limb4 : Z; limb5 : Z }.
Definition limb_list (x : limbs6) : list Z := [limb0 x; limb1 x; limb2 x; limb3 x; limb4 x; limb5 x].

(** [u64::to_be_bytes] *)
Definition be_bytes8 (z : Z) : list Z := rev (le_bytes 8 z).
(** [u64::from_be_bytes] *)
Definition be_value (bs : list Z) : Z := le_value (rev bs).

(** What the model takes from the external libraries: the root of unity (Model_Ark.v);
    [StdRng::from_seed] on 32 bytes followed by the two draws of [setup], a scalar and a
    group element; the X coordinate of the library's representation of the identity; and
    the X coordinate it computes for a multiple of the generator. *)
Record ark_lib (P : pairing Fr) := mkLib {
  lib_W : Fr;
  lib_draw : list Z -> Fr * PG1 P;
  lib_x_zero : limbs6;
  lib_x_mul : Fr -> limbs6
}.
Arguments mkLib {P} _ _ _ _. Arguments lib_W {P} _. Arguments lib_draw {P} _ _.
Arguments lib_x_zero {P} _. Arguments lib_x_mul {P} _ _.

Section Model.
Context {P : pairing Fr}.
Variable L : ark_lib P.
Let W := lib_W L.

Definition ark_point : Type := PG1 P * limbs6.

(** ark-poly-commit [UniversalParams], the fields the crate reads *)
Record ark_params := mkParams {
  ap_powers_of_g : list (PG1 P);
  ap_powers_of_gamma_g : list (PG1 P);
  ap_h : PG2 P;
  ap_beta_h : PG2 P
}.

(** kzg_proofs.rs:321-329 [KZGSettings]; [rand] is never read and [rand2] is always
    [Randomness::empty()] *)
Record ark_kzg := mkArkKZG {
  ak_fs : fft_settings Fr;
  ak_g1 : list ark_point;
  ak_g2 : list (PG2 P);
  ak_length : nat;
  ak_params : ark_params
}.

(** ** trusted setup and settings *)

(** kzg_proofs.rs:345-349, 353-357: the scalar the secret bytes stand for, four big-endian
    words with the least significant one first *)
Definition ark_secret_value (secret : list Z) : Z :=
  (be_value (firstn 8 secret) + 2 ^ 64 * be_value (firstn 8 (skipn 8 secret))
   + 2 ^ 128 * be_value (firstn 8 (skipn 16 secret)) + 2 ^ 192 * be_value (firstn 8 (skipn 24 secret)))%Z.

(** kzg_proofs.rs:351-370 [generate_trusted_setup].  [Fr::from_repr] refuses integers that
    are not below r.  The points are made by [G1Affine::new(x, y, infinity)] with the third
    argument [true]: the library takes such a value for the identity, and the multiples of
    the identity are its standard representation again. *)
Definition ark_generate_trusted_setup (n : nat) (secret : list Z) : res (list ark_point * list (PG2 P)) :=
  if (ark_secret_value secret <? r)%Z then
    let s := fr_of (ark_secret_value secret) in
    let* st := for_range 0 n (fun _ (st : Fr * list ark_point * list (PG2 P)) =>
        let '(s_pow, s1, s2) := st in
        Ok (fmul s_pow s, s1 ++ [(smul s_pow g0, lib_x_zero L)], s2 ++ [smul s_pow g0])) (f1, [], []) in
    let '(_, s1, s2) := st in Ok (s1, s2)
  else Panic.

(** kzg_proofs.rs:372-387 [generate_trusted_setup_test] *)
Definition ark_setup_test (n : nat) (s : Fr) : res (list ark_point * list (PG2 P)) :=
  let* st := for_range 0 n (fun _ (st : Fr * list ark_point * list (PG2 P)) =>
      let '(s_pow, s1, s2) := st in
      Ok (fmul s_pow s, s1 ++ [(smul s_pow gen1, lib_x_mul L s_pow)], s2 ++ [smul s_pow gen2])) (f1, [], []) in
  let '(_, s1, s2) := st in Ok (s1, s2).

(** kzg_proofs.rs:389-395 [generate_rng_seed] *)
Definition ark_seed (sg1 : list ark_point) : res (list Z) :=
  let* i := usub (length sg1) 1 in
  let* p := idx sg1 i in
  slice (concat (map be_bytes8 (limb_list (snd p)))) 0 32.

(** kzg_proofs.rs:89-186 [setup] with [produce_g2_powers = false]; the fixed-base
    multiplications of the library are scalar multiplications.  The extra power of
    [gamma_g] (lines 131-133) is multiplied by the raw Montgomery limbs of beta, that is by
    2^256 beta. *)
Definition ark_setup_params (max_degree : nat) (seed : list Z) : res (ark_params * (list ark_point * list (PG2 P))) :=
  if max_degree <? 1 then Err
  else
    let (beta, gamma_g) := lib_draw L seed in
    let* st := for_range 0 max_degree (fun _ (st : list Fr * Fr) =>
        let (powers, cur) := st in Ok (powers ++ [cur], fmul cur beta)) ([f1], beta) in
    let powers_of_beta := fst st in
    let powers_of_g := map (fun b => smul b gen1) powers_of_beta in
    let powers_of_gamma_g := map (fun b => smul b gamma_g) powers_of_beta in
    let* i := usub (length powers_of_gamma_g) 1 in
    let* last := unwrap (idx powers_of_gamma_g i) in
    let powers_of_gamma_g := powers_of_gamma_g ++ [smul (fmul (fr_of (2 ^ 256)) beta) last] in
    let* s12 := ark_setup_test max_degree beta in
    Ok (mkParams powers_of_g powers_of_gamma_g gen2 (smul beta gen2), s12).

(** kzg_proofs.rs:397-434 [new_kzg_settings], kzg_types.rs:414-421 [new] *)
Definition ark_kzg_new (sg1 : list ark_point) (sg2 : list (PG2 P)) (len : nat) (fs : fft_settings Fr) : res ark_kzg :=
  let len := len + 1 in
  let* seed := ark_seed sg1 in
  let* setup := unwrap (ark_setup_params len seed) in
  let '(params, (g1_secret, g2_secret)) := setup in
  let* temp := for_range 0 len (fun i t => let* p := idx g1_secret i in Ok (t ++ [p])) [] in
  let* temp2 := for_range 0 len (fun i t => let* p := idx g2_secret i in Ok (t ++ [p])) [] in
  let* temp3 := for_range 0 len (fun i t => let* p := idx g1_secret i in Ok (t ++ [fst p])) [] in
  let params := mkParams temp3 (ap_powers_of_gamma_g params) (ap_h params) (ap_beta_h params) in
  let* fs := ark_settings_clone W fs in
  Ok (mkArkKZG fs temp temp2 len params).

(** kzg_types.rs:453-455 [clone] *)
Definition ark_kzg_clone (ks : ark_kzg) : res ark_kzg :=
  let* fs := ark_settings_clone W (ak_fs ks) in
  unwrap (ark_kzg_new (ak_g1 ks) (ak_g2 ks) (ak_length ks) fs).

(** ** commitments *)

(** kzg_proofs.rs:40-65 [trim]: the powers and, of the verifier key, [g], [h], [beta_h] *)
Definition ark_trim (pp : ark_params) (supported_degree : nat) : res (list (PG1 P) * (PG1 P * PG2 P * PG2 P)) :=
  let supported_degree := if supported_degree =? 1 then supported_degree + 1 else supported_degree in
  let* powers := slice (ap_powers_of_g pp) 0 (supported_degree + 1) in
  let* _ := for_range 0 (supported_degree + 1) (fun i l => let* x := idx (ap_powers_of_gamma_g pp) i in Ok (l ++ [x])) [] in
  let* g := idx (ap_powers_of_g pp) 0 in
  let* _ := idx (ap_powers_of_gamma_g pp) 0 in
  Ok (powers, (g, ap_h pp, ap_beta_h pp)).

(** the argument of every call of [trim]: [params.max_degree() - 1], where [max_degree] is
    the number of powers minus one *)
Definition ark_trim_degree (pp : ark_params) : res nat :=
  let* d := usub (length (ap_powers_of_g pp)) 1 in usub d 1.

(** kzg_proofs.rs:242-252 [check_degree_is_too_large], on a polynomial in normal form *)
Definition ark_check_degree (p : list Fr) (num_powers : nat) : res unit :=
  if num_powers <? (length p - 1) + 1 then Err else Ok tt.

(** kzg_proofs.rs:254-263 [skip_leading_zeros_and_convert_to_bigints] *)
Definition ark_skip_zeros (p : list Fr) : res (nat * list Fr) :=
  let* n := while_ (S (length p))
     (fun n => (n <? length p) && match nth_error p n with Some c => feqb c f0 | None => false end)
     (fun n => let* _ := idx p n in Ok (n + 1)) 0 in
  let* c := slice_from p n in
  Ok (n, c).

(** ark-ec [VariableBaseMSM::multi_scalar_mul]: the sum over the shorter of the two lists *)
Definition lib_msm (points : list (PG1 P)) (scalars : list Fr) : PG1 P :=
  gsum (Nat.min (length points) (length scalars)) (fun i => smul (nth i scalars f0) (nth i points g0)).

(** ark-poly-commit [KZG10::commit] without hiding; also the second half of [open] below *)
Definition ark_commit_powers (powers : list (PG1 P)) (p : list Fr) : res (PG1 P) :=
  let* _ := ark_check_degree p (length powers) in
  let* zc := ark_skip_zeros p in
  let* ps := slice_from powers (fst zc) in
  Ok (lib_msm ps (snd zc)).

(** kzg_proofs.rs:436-452 [commit_to_poly] *)
Definition ark_commit_inner (ks : ark_kzg) (p : list Fr) : res (PG1 P) :=
  if ak_length ks <? length p then Err
  else if lib_is_zero (dense p) then Ok g0
  else
    let* d := ark_trim_degree (ak_params ks) in
    let* t := unwrap (ark_trim (ak_params ks) d) in
    unwrap (ark_commit_powers (fst t) (dense p)).

(** kzg_types.rs:423-425, the trait method *)
Definition ark_commit_to_poly (ks : ark_kzg) (p : list Fr) : res (PG1 P) := unwrap (ark_commit_inner ks p).

(** ** opening proofs *)

(** kzg_proofs.rs:188-240 [open], [open_with_witness_polynomial] without hiding; the witness
    polynomial is the library's quotient by X - point *)
Definition ark_open (powers : list (PG1 P)) (p : list Fr) (point : Fr) : res (PG1 P) :=
  let* _ := ark_check_degree p (length powers) in
  let* witness := lib_div p [fneg point; f1] in
  ark_commit_powers powers witness.

(** kzg_proofs.rs:454-464 [compute_proof_single] *)
Definition ark_compute_proof_single (ks : ark_kzg) (p : list Fr) (x : Fr) : res (PG1 P) :=
  let* d := ark_trim_degree (ak_params ks) in
  let* t := unwrap (ark_trim (ak_params ks) d) in
  unwrap (ark_open (fst t) (dense p) x).

(** kzg_proofs.rs:471-492 [check_proof_single]; ark-poly-commit [KZG10::check] compares
    e(com - value g, h) with e(proof, beta_h - point h) *)
Definition ark_check_proof_single (ks : ark_kzg) (com proof : PG1 P) (x value : Fr) : res bool :=
  let* d := ark_trim_degree (ak_params ks) in
  let* t := unwrap (ark_trim (ak_params ks) d) in
  let '(_, (g, h, beta_h)) := t in
  let inner := gsub com (smul value g) in
  Ok (geqb (pe inner h) (pe proof (gsub beta_h (smul x h)))).

(** kzg_proofs.rs:494-515 [compute_proof_multi]; [pow] is the library's exponentiation *)
Definition ark_compute_proof_multi (ks : ark_kzg) (p : list Fr) (x : Fr) (n : nat) : res (PG1 P) :=
  let divisor := repeat f0 (n + 1) in
  let x_pow_n := fpow x n in
  let* divisor := upd divisor 0 (fneg x_pow_n) in
  let* divisor := for_range 1 n (fun i d => upd d i f0) divisor in
  let* divisor := upd divisor n f1 in
  let* q := unwrap (ark_poly_div W p divisor) in
  unwrap (ark_commit_inner ks q).

(** kzg_proofs.rs:517-546 [check_proof_multi]; 583-595 [pairings_verify] is that of
    Model_KZG.v *)
Definition ark_check_proof_multi (ks : ark_kzg) (com proof : PG1 P) (x : Fr) (ys : list Fr) (n : nat) : res bool :=
  let* interp := unwrap (ark_fft_fr W (ak_fs ks) ys true) in
  let* inv_x := ark_inverse x in
  let* st := for_range 1 n (fun i (st : list Fr * Fr) =>
      let (interp, inv_x_pow) := st in
      let* c := idx interp i in
      let* interp := upd interp i (fmul c inv_x_pow) in
      Ok (interp, fmul inv_x_pow inv_x)) (interp, inv_x) in
  let (interp, inv_x_pow) := st in
  let* x_pow := ark_inverse inv_x_pow in
  let xn2 := smul x_pow (ap_h (ak_params ks)) in
  let* sg := idx (ak_g2 ks) n in
  let xn_minus_yn := gsub sg xn2 in
  let* is1 := unwrap (ark_commit_inner ks interp) in
  let commit_minus_interp := gsub com is1 in
  Ok (pairings_verify commit_minus_interp (ap_h (ak_params ks)) proof xn_minus_yn).
End Model.
Arguments ark_point P : clear implicits.
Arguments ark_kzg P : clear implicits.
Arguments ark_params P : clear implicits.
