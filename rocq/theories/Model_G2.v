(** * Model_G2: zkcrypto/src/curve/g2.rs

    The point arithmetic is that of Model_Curve.v on the pairs of Model_Fp2.v; here are the
    constants, the scalar multiplication, the maps psi and psi2, the subgroup test and the
    encodings.  Nothing here can panic.  As in Model_G1.v the closures of [CtOption::and_then] and
    [or_else], which the code always runs, are not run for [None]; they have no effect. *)
From Coq Require Import ZArith List Bool.
From Verif Require Import Base Model_Scalar Model_Fp Model_Curve Model_G1 Model_Fp2.
Import ListNotations.
Local Open Scope Z_scope.

(** g2.rs:361-378 [B] *)
Definition g2_B : fp2 :=
  FP2 (FP 0xaa270000000cfff3 0x53cc0032fc34000a 0x478fe97a6b0a807f 0xb1d37ebee6ba24d7 0x8ec9733bbf78ab2f 0x09d645513d83de7e)
      (FP 0xaa270000000cfff3 0x53cc0032fc34000a 0x478fe97a6b0a807f 0xb1d37ebee6ba24d7 0x8ec9733bbf78ab2f 0x09d645513d83de7e).
(** g2.rs:380 [B3] *)
Definition g2_B3 : fp2 := fp2_add (fp2_add g2_B g2_B) g2_B.
(** g2.rs:817-819 [mul_by_3b] *)
Definition g2_mul_by_3b (x : fp2) : fp2 := fp2_mul x g2_B3.

Definition fp2_ops : fops :=
  FOps fp2 fp2_zero fp2_one fp2_add fp2_sub fp2_neg fp2_mul fp2_square fp2_eq fp2_is_zero fp2_invert fp2_sqrt
       fp2_lexicographically_largest g2_mul_by_3b g2_B.
Definition g2_affine := affine fp2_ops.
Definition g2_projective := proj fp2_ops.

(** g2.rs:394-434, 833-873 [generator] *)
Definition g2_gen_x : fp2 :=
  FP2 (FP 0xf5f28fa202940a10 0xb3f5fb2687b4961a 0xa1a893b53e2ae580 0x9894999d1a3caee9 0x6f67b7631863366b 0x058191924350bcd7)
      (FP 0xa5a9c0759e23f606 0xaaa0c59dbccd60c3 0x3bb17e18e2867806 0x1b1ab6cc8541b367 0xc2b6ed0ef2158547 0x11922a097360edf3).
Definition g2_gen_y : fp2 :=
  FP2 (FP 0x4c730af860494c4a 0x597cfa1f5e369c5a 0xe7e6856caa0a635a 0xbbefb5e96e0d495f 0x07d3a975f0ef25a2 0x0083fd8e7e80dae5)
      (FP 0xadc0fc92df64b05d 0x18aa270a2b1461dc 0x86adac6a3be4eba0 0x79495c4ec93da33a 0xe7175850a43ccaed 0x0b2bc2a163de1bf2).
Definition g2_generator_affine : g2_affine := @Aff fp2_ops g2_gen_x g2_gen_y false.
Definition g2_generator : g2_projective := @Proj fp2_ops g2_gen_x g2_gen_y fp2_one.

(** g2.rs:993-1013 [multiply] *)
Definition g2_multiply (p : g2_projective) (by_ : list Z) : g2_projective := proj_multiply_bits p by_.
(** g2.rs:795-809 [mul] by a scalar, of projective and of affine points *)
Definition g2_mul (p : g2_projective) (s : scalar) : g2_projective := g2_multiply p (Model_Scalar.to_bytes s).
Definition g2_mul_affine (p : g2_affine) (s : scalar) : g2_projective :=
  g2_multiply (proj_from_aff p) (Model_Scalar.to_bytes s).

(** g2.rs:659-669 [is_torsion_free]; the array is the one of g1.rs:599-602 *)
Definition g2_is_torsion_free (p : g2_affine) : bool :=
  proj_is_identity (g2_multiply (proj_from_aff p) FQ_MODULUS_BYTES).

(** g2.rs:1017-1046: the two constants of [psi] *)
Definition psi_coeff_x : fp2 :=
  FP2 fp_zero
      (FP 0x890dc9e4867545c3 0x2af322533285a5d5 0x50880866309b7e2c 0xa20d1b8c7e881024 0x14e4f04fe2db9068 0x14e56d3f1564853a).
Definition psi_coeff_y : fp2 :=
  FP2 (FP 0x3e2f585da55c9ad1 0x4294213d86c18183 0x382844c88b623732 0x92ad2afd19103e18 0x1d794e4fac7cf0b9 0x0bd592fc7d825ec8)
      (FP 0x7bcfa7a25aa30fda 0xdc17dec12a927e7c 0x2f088dd86b4ebef1 0xd1ca2087da74d4a7 0x2da2596696cebc1d 0x0e2b7eedbbfd87d2).
(** g2.rs:1015-1056 [psi] *)
Definition g2_psi (p : g2_projective) : g2_projective :=
  let '(Proj x y z) := p in
  @Proj fp2_ops (fp2_mul (fp2_frobenius_map x) psi_coeff_x) (fp2_mul (fp2_frobenius_map y) psi_coeff_y) (fp2_frobenius_map z).
(** g2.rs:1060-1070: the constant of [psi2] *)
Definition psi2_coeff_x : fp2 :=
  FP2 (FP 0xcd03c9e48671f071 0x5dab22461fcda5d2 0x587042afd3851b95 0x8eb60ebe01bacb9e 0x03f97d6e83d050d2 0x18f0206554638741)
      fp_zero.
(** g2.rs:1058-1080 [psi2] *)
Definition g2_psi2 (p : g2_projective) : g2_projective :=
  let '(Proj x y z) := p in @Proj fp2_ops (fp2_mul x psi2_coeff_x) (fp2_neg y) z.
(** g2.rs:1106-1115 [clear_cofactor] *)
Definition g2_clear_cofactor (p : g2_projective) : g2_projective :=
  let t1 := proj_mul_by_x p in
  let t2 := g2_psi p in
  proj_sub (proj_sub (proj_sub (proj_add (g2_psi2 (proj_double p)) (proj_mul_by_x (proj_add t1 t2))) t1) t2) p.

(** ** encodings *)
(** g2.rs:438-464 [to_compressed] *)
Definition g2_to_compressed (p : g2_affine) : list Z :=
  let '(Aff x y i) := p in
  let x := fp2_select x fp2_zero i in
  let bs := fp_to_bytes (fp2_c1 x) ++ fp_to_bytes (fp2_c0 x) in
  let bs := or_first bs 128 in
  let bs := or_first bs (select 0 64 i) in
  or_first bs (select 0 32 (negb i && fp2_lexicographically_largest y)).
(** g2.rs:468-483 [to_uncompressed] *)
Definition g2_to_uncompressed (p : g2_affine) : list Z :=
  let '(Aff x y i) := p in
  let x := fp2_select x fp2_zero i in
  let y := fp2_select y fp2_zero i in
  or_first (fp_to_bytes (fp2_c1 x) ++ fp_to_bytes (fp2_c0 x) ++ fp_to_bytes (fp2_c1 y) ++ fp_to_bytes (fp2_c0 y)) (select 0 64 i).
(** [bytes[48 * i .. 48 * (i + 1)]] *)
Definition chunk48 (i : nat) (bs : list Z) : list Z := firstn 48 (skipn (48 * i) bs).
(** g2.rs:496-570 [from_uncompressed_unchecked] *)
Definition g2_from_uncompressed_unchecked (bs : list Z) : option g2_affine :=
  let compression := flag bs 7 in
  let infinity := flag bs 6 in
  let sort := flag bs 5 in
  match fp_from_bytes (mask_first (chunk48 0 bs)), fp_from_bytes (chunk48 1 bs),
        fp_from_bytes (chunk48 2 bs), fp_from_bytes (chunk48 3 bs) with
  | Some xc1, Some xc0, Some yc1, Some yc0 =>
    let x := FP2 xc0 xc1 in
    let y := FP2 yc0 yc1 in
    let p := select (@Aff fp2_ops x y infinity) aff_identity infinity in
    if (negb infinity || (infinity && fp2_is_zero x && fp2_is_zero y)) && negb compression && negb sort
    then Some p else None
  | _, _, _, _ => None
  end.
(** g2.rs:487-490 [from_uncompressed] *)
Definition g2_from_uncompressed (bs : list Z) : option g2_affine :=
  match g2_from_uncompressed_unchecked bs with
  | None => None
  | Some p => if aff_is_on_curve p && g2_is_torsion_free p then Some p else None
  end.
(** g2.rs:585-648 [from_compressed_unchecked] *)
Definition g2_from_compressed_unchecked (bs : list Z) : option g2_affine :=
  let compression := flag bs 7 in
  let infinity := flag bs 6 in
  let sort := flag bs 5 in
  match fp_from_bytes (mask_first (chunk48 0 bs)), fp_from_bytes (chunk48 1 bs) with
  | Some xc1, Some xc0 =>
    let x := FP2 xc0 xc1 in
    if infinity && compression && negb sort && fp2_is_zero x then Some aff_identity
    else
      match fp2_sqrt (fp2_add (fp2_mul (fp2_square x) x) g2_B) with
      | None => None
      | Some y =>
        let y := fp2_select y (fp2_neg y) (xorb (fp2_lexicographically_largest y) sort) in
        if negb infinity && compression then Some (@Aff fp2_ops x y infinity) else None
      end
  | _, _ => None
  end.
(** g2.rs:574-579 [from_compressed] *)
Definition g2_from_compressed (bs : list Z) : option g2_affine :=
  match g2_from_compressed_unchecked bs with
  | None => None
  | Some p => if g2_is_torsion_free p then Some p else None
  end.
(** g2.rs:1359-1373 [GroupEncoding] of projective points: they convert (1375-1389, of affine points, are
    [to_compressed] and [from_compressed] themselves) *)
Definition g2_proj_to_bytes (p : g2_projective) : list Z := g2_to_compressed (aff_from_proj p).
Definition g2_proj_from_bytes (bs : list Z) : option g2_projective :=
  match g2_from_compressed bs with None => None | Some p => Some (proj_from_aff p) end.
