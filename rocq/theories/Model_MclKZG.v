(** * Model_MclKZG: commitments, opening proofs and batch proofs of the mcl backend

    Crate [mcl-kzg/kzg]: [src/kzg_settings.rs], [src/kzg10.rs] (commitments, proofs, the
    [Curve] type), [src/fk20_matrix.rs], the scalar conversions of [src/data_types/fr.rs]
    and the trait wrappers under [src/trait_implementations].

    The settings record of Model_KZG.v is reused: [Curve] holds the two generators, which
    never change, the points, and [order], which is never read.  As in Model_KZG.v the mcl
    library supplies the two groups and the pairing, an arbitrary [pairing].  [.clone()] of
    settings is derived, hence a copy. *)
From Coq Require Import List Arith Bool NArith ZArith.
From Verif Require Import Base Fld Model_Utils Model_FFT Model_Mcl Model_MclPoly Model_KZG Zr.
Import ListNotations.

(** ** Scalars *)

(** data_types/fr.rs:71-74 [from_u64_arr]: the 256-bit number is printed in decimal and
    parsed by mcl, which rejects numbers not below the group order; [unwrap] *)
Definition mcl_from_u64_arr (u : list Z) : res Fr :=
  let* a := idx u 0 in
  let* b := idx u 1 in
  let* c := idx u 2 in
  let* d := idx u 3 in
  let v := (a + 2 ^ 64 * (b + 2 ^ 64 * (c + 2 ^ 64 * d)))%Z in
  if (v <? r)%Z then Ok (fr_of v) else Panic.

(** [u64::from_be_bytes] of the [i]-th group of eight bytes *)
Definition be_word (bs : list Z) (i : nat) : Z :=
  fold_left (fun acc b => 256 * acc + b)%Z (firstn 8 (skipn (8 * i) bs)) 0%Z.

(** data_types/fr.rs:76-83 [from_scalar] *)
Definition mcl_from_scalar (secret : list Z) : res Fr :=
  mcl_from_u64_arr [be_word secret 0; be_word secret 1; be_word secret 2; be_word secret 3].

(** data_types/fr.rs:85-93 [to_u64_arr]: through the decimal representation *)
Definition mcl_to_u64_arr (x : Fr) : list Z :=
  [(val x mod 2 ^ 64); (val x / 2 ^ 64 mod 2 ^ 64); (val x / 2 ^ 128 mod 2 ^ 64); (val x / 2 ^ 192 mod 2 ^ 64)]%Z.

(** trait_implementations/fr.rs:29-31 [from_u64] *)
Definition mcl_from_u64 (v : Z) : res Fr := mcl_from_u64_arr [v; 0; 0; 0]%Z.

(** trait_implementations/fr.rs:9-11 [null] *)
Definition mcl_null : res Fr :=
  mcl_from_u64_arr [2 ^ 64 - 1; 2 ^ 64 - 1; 2 ^ 64 - 1; (2 ^ 64 - 1) / 3]%Z.

(** trait_implementations/fr.rs:47-50 [is_null] *)
Definition mcl_is_null (x : Fr) : res bool := let* temp := mcl_null in Ok (feqb x temp).

Section KZG.
Context {K : fld} {P : pairing K}.
Variable pr5 : list K.
(** the exponent of mcl's final exponentiation, acting on the order-r target group.  The
    library's pairing is already reduced, and [verify_pairing] raises the product once more. *)
Variable fexp : K.

(** kzg_settings.rs:99-115 [generate_trusted_setup], from the secret scalar on *)
Definition mcl_setup_points (n : nat) (secretfr : K) : res (list (PG1 P) * list (PG2 P)) :=
  let* st := for_range 0 n (fun i (st : list (PG1 P) * list (PG2 P) * K) =>
      let '(g1_points, g2_points, secret_to_power) := st in
      let* g1_points := upd g1_points i (smul secret_to_power gen1) in
      let* g2_points := upd g2_points i (smul secret_to_power gen2) in
      Ok (g1_points, g2_points, fmul secret_to_power secretfr)) (repeat g0 n, repeat g0 n, f1) in
  Ok (fst st).

(** kzg10.rs:649-667 [Curve::new2]: copies the first [order] points of each kind *)
Definition mcl_curve_new2 (sg1 : list (PG1 P)) (sg2 : list (PG2 P)) (order : nat) : res (list (PG1 P) * list (PG2 P)) :=
  for_range 0 order (fun i (st : list (PG1 P) * list (PG2 P)) =>
    let (a, b) := st in
    let* x := idx sg1 i in
    let* y := idx sg2 i in
    Ok (a ++ [x], b ++ [y])) ([], []).

(** kzg_settings.rs:28-51 [new] *)
Definition mcl_kzg_new (sg1 : list (PG1 P)) (sg2 : list (PG2 P)) (len : nat) (fs : fft_settings K) : res (kzg_settings P) :=
  if len <? max_width fs then Err
  else if length sg1 <? max_width fs then Err
  else if length sg2 <? max_width fs then Err
  else
    let* st := for_range 0 len (fun i (st : list (PG1 P) * list (PG2 P)) =>
        let (a, b) := st in
        let* x := idx sg1 i in
        let* y := idx sg2 i in
        Ok (a ++ [x], b ++ [y])) ([], []) in
    let* curve := mcl_curve_new2 (fst st) (snd st) len in
    Ok (mkKZG fs (fst curve) (snd curve)).

(** [mclBnG1_mulVec]: the sum of the first [n] scalar multiples *)
Definition mcl_mul_vec (points : list (PG1 P)) (scalars : list K) (n : nat) : PG1 P :=
  gsum n (fun i => smul (nth i scalars f0) (nth i points g0)).

(** kzg10.rs:373-388 [commit], trait_implementations/kzg_settings.rs:16-18 [commit_to_poly] *)
Definition mcl_commit (ks : kzg_settings P) (p : list K) : res (PG1 P) :=
  if length (secret_g1 ks) <? length p then Err
  else Ok (mcl_mul_vec (secret_g1 ks) p (Nat.min (length (secret_g1 ks)) (length p))).

(** kzg10.rs:244-258 [gen_proof_at], trait_implementations/kzg_settings.rs:20-22
    [compute_proof_single] *)
Definition mcl_compute_proof_single (ks : kzg_settings P) (p : list K) (x : K) : res (PG1 P) :=
  let divisor := [fneg x; f1] in
  let* q := unwrap (mcl_long_division p divisor) in
  Ok (mcl_mul_vec (secret_g1 ks) q (Nat.min (length (secret_g1 ks)) (length q))).

(** kzg10.rs:676-683 [verify_pairing], written additively *)
Definition mcl_verify_pairing (a1 : PG1 P) (a2 : PG2 P) (b1 : PG1 P) (b2 : PG2 P) : bool :=
  let pairing1 := gneg (pe a1 a2) in
  let pairing2 := pe b1 b2 in
  let result := smul fexp (gadd pairing1 pairing2) in
  geqb result g0.

(** kzg10.rs:669-674 [is_proof_valid], kzg_settings.rs:53-55 and
    trait_implementations/kzg_settings.rs:24-26 [check_proof_single] *)
Definition mcl_check_proof_single (ks : kzg_settings P) (com proof : PG1 P) (x y : K) : res bool :=
  let* g2_1 := idx (secret_g2 ks) 1 in
  let secret_minus_x := gsub g2_1 (smul x gen2) in
  let commitment_minus_y := gsub com (smul y gen1) in
  Ok (mcl_verify_pairing commitment_minus_y gen2 proof secret_minus_x).

(** kzg_settings.rs:57-74 [compute_proof_multi] *)
Definition mcl_compute_proof_multi (ks : kzg_settings P) (p : list K) (x0 : K) (n : nat) : res (PG1 P) :=
  let* p2 := mcl_is_power_of_2 (N.of_nat n) in
  if negb p2 then Err
  else
    let* x_pow_n := mcl_fr_pow x0 n in
    let divisor := [fneg x_pow_n] in
    let* divisor := for_range 1 n (fun _ d => Ok (d ++ [f0])) divisor in
    let divisor := divisor ++ [f1] in
    let* q := unwrap (mcl_poly_div pr5 p divisor) in
    unwrap (mcl_commit ks q).

(** kzg_settings.rs:76-97 [check_proof_multi] *)
Definition mcl_check_proof_multi (ks : kzg_settings P) (com proof : PG1 P) (x : K) (ys : list K) (n : nat) : res bool :=
  let* p2 := mcl_is_power_of_2 (N.of_nat n) in
  if negb p2 then Err
  else
    let* interp := unwrap (mcl_fft (kzg_fs ks) ys true) in
    let inv_x := finv x in
    let* st := for_range 1 n (fun i (st : list K * K) =>
        let (interp, inv_x_pow) := st in
        let* c := idx interp i in
        let* interp := upd interp i (fmul c inv_x_pow) in
        Ok (interp, fmul inv_x_pow inv_x)) (interp, inv_x) in
    let (interp, inv_x_pow) := st in
    let x_pow := finv inv_x_pow in
    let xn2 := smul x_pow gen2 in
    let* g2_n := idx (secret_g2 ks) n in
    let xn_minus_yn := gsub g2_n xn2 in
    let* is1 := unwrap (mcl_commit ks interp) in
    let commit_minus_interp := gsub com is1 in
    Ok (mcl_verify_pairing commit_minus_interp gen2 proof xn_minus_yn).
End KZG.

(** kzg_settings.rs:99-115 [generate_trusted_setup] *)
Definition mcl_generate_trusted_setup {P : pairing Fr} (n : nat) (secret : list Z) : res (list (PG1 P) * list (PG2 P)) :=
  let* s := mcl_from_scalar secret in mcl_setup_points n s.

(** ** Batch proofs *)
Section Toeplitz.
Context {K : fld} {M : gmod K}.

(** fk20_matrix.rs:10-20 [toeplitz_part_1] *)
Definition mcl_toeplitz_part_1 (fs : fft_settings K) (x : list M) : res (list M) :=
  mcl_fft_g1 fs (x ++ repeat g0 (length x)) false.

(** fk20_matrix.rs:22-31 [toeplitz_part_2]; [zip] stops at the shorter vector *)
Definition mcl_toeplitz_part_2 (fs : fft_settings K) (coeffs : list K) (x_ext_fft : list M) : res (list M) :=
  let* coeffs_fft := unwrap (mcl_fft fs coeffs false) in
  Ok (map (fun gc => smul (snd gc) (fst gc)) (combine x_ext_fft coeffs_fft)).

(** fk20_matrix.rs:33-44 [toeplitz_part_3] *)
Definition mcl_toeplitz_part_3 (fs : fft_settings K) (h_ext_fft : list M) : res (list M) :=
  let n2 := length h_ext_fft in
  let n := n2 / 2 in
  let* ret := unwrap (mcl_fft_g1 fs h_ext_fft true) in
  Ok (firstn n ret ++ map (fun _ => g0) (skipn n (firstn n2 ret)) ++ skipn n2 ret).

(** fk20_matrix.rs:277-293 [toeplitz_coeffs_step_strided] *)
Definition mcl_toeplitz_coeffs (p : list K) (offset stride : nat) : res (list K) :=
  let n := length p in
  let* k := (if stride =? 0 then Panic else Ok (n / stride)) in
  let k2 := 2 * k in
  let tc := repeat f0 k2 in
  let* i := usub n 1 in
  let* i := usub i offset in
  let* c := idx p i in
  let* tc := upd tc 0 c in
  let* j := usub (2 * stride) offset in
  let* j := usub j 1 in
  let* st := for_range (k + 2) k2 (fun i (st : list K * nat) =>
      let (tc, j) := st in
      let* c := idx p j in
      let* tc := upd tc i c in
      Ok (tc, j + stride)) (tc, j) in
  Ok (fst st).
End Toeplitz.

Section FK20.
Context {K : fld} {P : pairing K}.

(** fk20_matrix.rs:47-51 *)
Record mcl_fk20_single := mkMFKS { mfks_kzg : kzg_settings P; mfks_x_ext_fft : list (PG1 P) }.

(** fk20_matrix.rs:54-80 [FK20SingleMatrix::new] *)
Definition mcl_fk20_single_new (ks : kzg_settings P) (n2 : nat) : res mcl_fk20_single :=
  let n := n2 / 2 in
  let* p2 := mcl_is_power_of_2 (N.of_nat n2) in
  if negb p2 then Err
  else if n2 <? 2 then Err
  else if max_width (kzg_fs ks) <? n2 then Err
  else
    let* last := usub n 1 in
    let* x := for_range 0 last (fun i x =>
        let* a := usub n 2 in
        let* a := usub a i in
        let* v := idx (secret_g1 ks) a in
        Ok (x ++ [v])) [] in
    let x := x ++ [g0] in
    let* x_ext_fft := unwrap (mcl_toeplitz_part_1 (kzg_fs ks) x) in
    Ok (mkMFKS ks x_ext_fft).

(** fk20_matrix.rs:106-122 [fk20_single_dao_optimized] *)
Definition mcl_fk20_single_da_opt (fk : mcl_fk20_single) (p : list K) : res (list (PG1 P)) :=
  let n2 := length p * 2 in
  let fs := kzg_fs (mfks_kzg fk) in
  let* p2 := mcl_is_power_of_2 (N.of_nat n2) in
  if negb p2 then Err
  else if max_width fs <? n2 then Err
  else
    let* tc := mcl_toeplitz_coeffs p 0 1 in
    let* h_ext_fft := unwrap (mcl_toeplitz_part_2 fs tc (mfks_x_ext_fft fk)) in
    let* h := unwrap (mcl_toeplitz_part_3 fs h_ext_fft) in
    mcl_fft_g1 fs h false.

(** fk20_matrix.rs:89-104 [dau_using_fk20_single] *)
Definition mcl_fk20_single_da (fk : mcl_fk20_single) (p : list K) : res (list (PG1 P)) :=
  let n2 := length p * 2 in
  let* p2 := mcl_is_power_of_2 (N.of_nat n2) in
  if negb p2 then Err
  else if max_width (kzg_fs (mfks_kzg fk)) <? n2 then Err
  else
    let* proofs := unwrap (mcl_fk20_single_da_opt fk p) in
    mcl_order_by_rev_bit_order proofs.

(** fk20_matrix.rs:125-130 *)
Record mcl_fk20_multi := mkMFKM { mfkm_files : list (list (PG1 P)); mfkm_chunk_len : nat; mfkm_kzg : kzg_settings P }.

(** fk20_matrix.rs:177-201 [x_ext_fft_precompute] *)
Definition mcl_x_ext_fft_precompute (fs : fft_settings K) (g1_points : list (PG1 P)) (n k chunk_len offset : nat)
  : res (list (PG1 P)) :=
  let x := repeat g0 k in
  let temp := chunk_len + 1 + offset in
  let start := if temp <=? n then n - temp else 0 in
  let* st := while_ (S k) (fun st : nat * nat * list (PG1 P) => let '(i, _, _) := st in i + 1 <? k)
    (fun st => let '(i, j, x) := st in
       let* j := usub j chunk_len in
       let* v := idx g1_points j in
       let* x := upd x i v in
       Ok (i + 1, j, x)) (0, start + chunk_len, x) in
  let '(_, _, x) := st in
  let* l := usub k 1 in
  let* x := upd x l g0 in
  mcl_toeplitz_part_1 fs x.

(** fk20_matrix.rs:141-174 [FK20Matrix::new] *)
Definition mcl_fk20_multi_new (ks : kzg_settings P) (n2 chunk_len : nat) : res mcl_fk20_multi :=
  let n := n2 / 2 in
  let* k := (if chunk_len =? 0 then Panic else Ok (n / chunk_len)) in
  let* p2 := mcl_is_power_of_2 (N.of_nat n2) in
  if negb p2 then Err
  else
    let* c2 := mcl_is_power_of_2 (N.of_nat chunk_len) in
    if negb c2 then Err
    else if n2 <? 2 then Err
    else if max_width (kzg_fs ks) <? n2 then Err
    else if max_width (kzg_fs ks) <? n2 then Err
    else if n2 / 2 <? chunk_len then Err
    else
      let* files := for_range 0 chunk_len (fun i files =>
          let* f := unwrap (mcl_x_ext_fft_precompute (kzg_fs ks) (secret_g1 ks) n k chunk_len i) in
          upd files i f) (repeat [] chunk_len) in
      Ok (mkMFKM files chunk_len ks).

(** fk20_matrix.rs:262-275 [get_extended] *)
Definition mcl_extended (p : list K) (size : nat) : list K :=
  if size <? length p then p else p ++ repeat f0 (size - length p).

(** fk20_matrix.rs:221-258 [fk20_multi_dao_optimized]: takes the polynomial already extended
    to twice its length, and drops the second half *)
Definition mcl_fk20_multi_da_opt (fk : mcl_fk20_multi) (p : list K) : res (list (PG1 P)) :=
  let n := length p / 2 in
  let fs := kzg_fs (mfkm_kzg fk) in
  let chunk_len := mfkm_chunk_len fk in
  let* k := (if chunk_len =? 0 then Panic else Ok (n / chunk_len)) in
  let k2 := k * 2 in
  let n2 := n * 2 in
  let* p2 := mcl_is_power_of_2 (N.of_nat n2) in
  if negb p2 then Err
  else if max_width fs <? n2 then Err
  else
    let reduced := firstn n p in
    let* h_ext_fft := for_range 0 chunk_len (fun i (h : list (PG1 P)) =>
        let* tc := mcl_toeplitz_coeffs reduced i chunk_len in
        let* file := idx (mfkm_files fk) i in
        let* hf := unwrap (mcl_toeplitz_part_2 fs tc file) in
        for_range 0 k2 (fun j (h : list (PG1 P)) =>
          let* a := idx h j in
          let* b := idx hf j in
          upd h j (gadd a b)) h) (repeat g0 k2) in
    let* h := unwrap (mcl_toeplitz_part_3 fs h_ext_fft) in
    mcl_fft_g1 fs (firstn k h ++ repeat g0 k) false.

(** fk20_matrix.rs:203-219 [dau_using_fk20_multi] *)
Definition mcl_fk20_multi_da (fk : mcl_fk20_multi) (p : list K) : res (list (PG1 P)) :=
  let n2 := length p * 2 in
  let* p2 := mcl_is_power_of_2 (N.of_nat n2) in
  if negb p2 then Err
  else if max_width (kzg_fs (mfkm_kzg fk)) <? n2 then Err
  else
    let* proofs := unwrap (mcl_fk20_multi_da_opt fk (mcl_extended p n2)) in
    mcl_order_by_rev_bit_order proofs.
End FK20.
Arguments mcl_fk20_single {K} P. Arguments mkMFKS {K P} _ _.
Arguments mcl_fk20_multi {K} P. Arguments mkMFKM {K P} _ _ _.
