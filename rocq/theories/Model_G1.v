(** * Model_G1: zkcrypto/src/curve/g1.rs

    The point arithmetic is that of Model_Curve.v on the limbs of Model_Fp.v; here are the
    constants, the scalar multiplication through the endomorphism (x, y) -> (BETA x, y), the
    subgroup test and the encodings.

    [u8] and [i8] values are integers.  [checked] says whether the build has overflow checks:
    if so, overflow of [+] and [-] is a panic, otherwise it wraps.  The closures of
    [CtOption::and_then] run even for [None] in the code; they have no effect and cannot panic,
    so the model does not run them. *)
From Coq Require Import ZArith List Bool.
From Verif Require Import Base Model_Scalar Model_Fp Model_Curve.
Import ListNotations.
Local Open Scope Z_scope.

(** g1.rs:373-381 [B] *)
Definition g1_B := FP 0xaa270000000cfff3 0x53cc0032fc34000a 0x478fe97a6b0a807f 0xb1d37ebee6ba24d7 0x8ec9733bbf78ab2f 0x09d645513d83de7e.
(** g1.rs:10-17 [BETA] *)
Definition g1_BETA := FP 0xcd03c9e48671f071 0x5dab22461fcda5d2 0x587042afd3851b95 0x8eb60ebe01bacb9e 0x03f97d6e83d050d2 0x18f0206554638741.
(** g1.rs:762-767 [mul_by_3b] *)
Definition g1_mul_by_3b (a : fp) : fp :=
  let a := fp_add a a in
  let a := fp_add a a in
  let a := fp_add (fp_add a a) a in
  a.

Definition fp_ops : fops :=
  FOps fp fp_zero fp_one fp_add fp_sub fp_neg fp_mul fp_square fp_eq fp_is_zero fp_invert fp_sqrt
       fp_lexicographically_largest g1_mul_by_3b g1_B.
Definition g1_affine := affine fp_ops.
Definition g1_projective := proj fp_ops.

(** g1.rs:394-414, 781-801 [generator] *)
Definition g1_gen_x := FP 0x5cb38790fd530c16 0x7817fc679976fff5 0x154f95c7143ba1c1 0xf0ae6acdf3d0e747 0xedce6ecc21dbf440 0x120177419e0bfb75.
Definition g1_gen_y := FP 0xbaac93d50ce72271 0x8c22631a7918fd8e 0xdd595f13570725ce 0x51ac582950405194 0x0e1c8c3fad0059c0 0x0bbc3efc5008a26a.
Definition g1_generator_affine : g1_affine := @Aff fp_ops g1_gen_x g1_gen_y false.
Definition g1_generator : g1_projective := @Proj fp_ops g1_gen_x g1_gen_y fp_one.

(** ** machine integers *)
(** [as i8] of a [u8] *)
Definition as_i8 (x : Z) : Z := if x <? 128 then x else x - 256.
(** [as u8] of an [i8] *)
Definition as_u8 (x : Z) : Z := x mod 256.
(** [a - b] on [i8] *)
Definition i8_sub (checked : bool) (a b : Z) : res Z :=
  let d := a - b in
  if (-128 <=? d) && (d <=? 127) then Ok d
  else if checked then Panic else Ok (as_i8 (d mod 256)).
(** [a + b] on [u64] *)
Definition u64_add (checked : bool) (a b : Z) : res Z :=
  if a + b <? W then Ok (a + b) else if checked then Panic else Ok ((a + b) mod W).

(** ** recoding *)
Definition words4 := (Z * Z * Z * Z)%type.
(** g1.rs:926-932 [sub_borrow]; [borrow as i8] of 0 or 2^64 - 1 *)
Definition sub_borrow (a b : words4) : words4 * Z :=
  let '(a0, a1, a2, a3) := a in let '(b0, b1, b2, b3) := b in
  let '(d0, borrow) := sbb a0 b0 0 in
  let '(d1, borrow) := sbb a1 b1 borrow in
  let '(d2, borrow) := sbb a2 b2 borrow in
  let '(d3, borrow) := sbb a3 b3 borrow in
  (d0, d1, d2, d3, as_i8 (borrow mod 256)).

(** g1.rs:935-958 [mul_short] *)
Definition mul_short (a b : words4) : Z * Z * Z * Z * Z * Z * Z * Z :=
  let '(a0, a1, a2, a3) := a in let '(b0, b1, b2, _) := b in
  let '(r0, carry) := mac 0 a0 b0 0 in
  let '(r1, carry) := mac 0 a0 b1 carry in
  let '(r2, carry) := mac 0 a0 b2 carry in
  let r3 := carry in
  let '(r1, carry) := mac r1 a1 b0 0 in
  let '(r2, carry) := mac r2 a1 b1 carry in
  let '(r3, carry) := mac r3 a1 b2 carry in
  let r4 := carry in
  let '(r2, carry) := mac r2 a2 b0 0 in
  let '(r3, carry) := mac r3 a2 b1 carry in
  let '(r4, carry) := mac r4 a2 b2 carry in
  let r5 := carry in
  let '(r3, carry) := mac r3 a3 b0 0 in
  let '(r4, carry) := mac r4 a3 b1 carry in
  let '(r5, carry) := mac r5 a3 b2 carry in
  let r6 := carry in
  (r0, r1, r2, r3, r4, r5, r6, 0).

(** g1.rs:961-964 [V] *)
Definition glv_V0 : words4 := (0x63f6e522f6cfee2f, 0x7c6becf1e01faadd, 1, 0).
Definition glv_V1 : words4 := (0x00000000ffffffff, 0xac45a4010001a402, 0, 0).

(** g1.rs:960-988 [glv_recoding] *)
Definition glv_recoding (checked : bool) (k : list Z) : res (Z * list Z * Z * list Z) :=
  let t := (word k 0, word k 1, word k 2, word k 3) in
  let '(_, _, _, b23, b24, b25, b26, b27) := mul_short t glv_V0 in
  let* h0 := u64_add checked b24 (shr b23 63) in
  let b2h := (h0, b25, b26, b27) in
  let '(b10, b11, b12, b13, _, _, _, _) := mul_short b2h glv_V1 in
  let '(l0, l1, l2, l3, s1) := sub_borrow t (b10, b11, b12, b13) in
  let minus_k1 := Model_Scalar.add (from_raw (not64 l0) (not64 l1) (not64 l2) (not64 l3)) Model_Scalar.one in
  let k1 := from_raw l0 l1 l2 l3 in
  let k1 := conditional_select k1 minus_k1 (as_u8 (- s1) =? 1) in
  let k2 := from_raw h0 b25 b26 b27 in
  Ok (s1, Model_Scalar.to_bytes k1, 0, Model_Scalar.to_bytes k2).

(** g1.rs:996-1004, one round of the outer loop, for w = 5 *)
Fixpoint shift4 (sc : list Z) : list Z :=
  match sc with
  | [] => []
  | a :: t => Z.lor (Z.shiftr a 4) (match t with [] => 0 | c :: _ => as_u8 (Z.shiftl c 4) end) :: shift4 t
  end.
Definition recoding_round (checked : bool) (st : list Z * list Z) : res (list Z * list Z) :=
  let '(naf, sc) := st in
  let* sc0 := idx sc 0 in
  let* d := i8_sub checked (as_i8 (Z.land sc0 31)) 16 in
  let* e := i8_sub checked (as_i8 sc0) d in
  Ok (naf ++ [d], shift4 (set sc 0 (as_u8 e))).
(** g1.rs:991-1006 [regular_recoding] with w = 5, so len = 2 + 127 / 4; the list holds the
    [len] written entries of the array *)
Definition recoding_len : nat := 2 + 127 / 4.
Definition regular_recoding (checked : bool) (sc : list Z) : res (list Z) :=
  let* (naf, sc) := for_range 0 (recoding_len - 1) (fun _ st => recoding_round checked st) ([], sc) in
  let* sc0 := idx sc 0 in
  Ok (naf ++ [as_i8 sc0]).

(** ** scalar multiplication *)
(** g1.rs:1008-1016 [precompute]; the table has 2^(5-2) entries, the first is set by the caller *)
Fixpoint odd_multiples (n : nat) (p d : g1_projective) : list g1_projective :=
  match n with O => [] | S n' => let q := proj_add p d in q :: odd_multiples n' q d end.
Definition g1_precompute (p : g1_projective) (table0 : g1_affine) : res (list g1_affine) :=
  let* rest := batch_normalize (odd_multiples 7 p (proj_double p)) 7 in
  Ok (table0 :: rest).

(** g1.rs:1018-1029 [linear_pass] *)
Definition linear_pass (index : Z) (table : list g1_affine) : g1_affine :=
  fst (fold_left (fun (st : g1_affine * Z) e =>
      let '(tmp, j) := st in
      let eq := Z.lxor j index in
      let bit4 := Z.lor (Z.land eq 15) (Z.shiftr eq 4) in
      let bit2 := Z.lor (Z.land bit4 3) (Z.shiftr bit4 2) in
      let bit1 := Z.lor (Z.land bit2 1) (Z.shiftr bit2 1) in
      (select tmp e (negb (bit1 =? 1)), j + 1))
    table (aff_identity, 0)).

(** g1.rs:1058-1064 and 1066-1073: table entry for one digit *)
Definition digit_entry (checked : bool) (table : list g1_affine) (s d : Z) : res g1_affine :=
  let sign := Z.shiftr d 7 in
  let* m := i8_sub checked (Z.lxor d sign) sign in
  let index := Z.shiftr m 1 in
  let t := linear_pass (as_u8 index) table in
  let flag := Z.lxor sign s in
  Ok (select t (aff_neg t) (as_u8 (- flag) =? 1)).
(** [t.x *= BETA] *)
Definition aff_endo (t : g1_affine) : g1_affine := let '(Aff x y i) := t in @Aff fp_ops (fp_mul x g1_BETA) y i.

(** g1.rs:1054-1075, one round of the main loop *)
Definition multiply_round (checked : bool) (table : list g1_affine) (s1 s2 : Z) (acc : g1_projective) (d1 d2 : Z)
  : res g1_projective :=
  let acc := proj_double (proj_double (proj_double (proj_double acc))) in
  let* t := digit_entry checked table s1 d1 in
  let acc := proj_add_mixed acc t in
  let* t := digit_entry checked table s2 d2 in
  let t := aff_endo t in
  Ok (proj_add_mixed acc t).
Fixpoint multiply_loop (checked : bool) (table : list g1_affine) (s1 s2 : Z) (ds : list (Z * Z)) (acc : g1_projective)
  : res g1_projective :=
  match ds with
  | [] => Ok acc
  | (d1, d2) :: ds => let* acc := multiply_round checked table s1 s2 acc d1 d2 in multiply_loop checked table s1 s2 ds acc
  end.

(** g1.rs:1031-1082 [multiply] *)
Definition g1_multiply (checked : bool) (p : g1_projective) (by_ : list Z) : res g1_projective :=
  let table0 := aff_from_proj p in
  let* (s1, k1, s2, k2) := glv_recoding checked by_ in
  let* table := g1_precompute p table0 in
  let* k10 := idx k1 0 in
  let bit1 := Z.land k10 1 in
  let k1 := set k1 0 (Z.lor k10 1) in
  let* k20 := idx k2 0 in
  let bit2 := Z.land k20 1 in
  let k2 := set k2 0 (Z.lor k20 1) in
  let* naf1 := regular_recoding checked k1 in
  let* naf2 := regular_recoding checked k2 in
  let* acc := multiply_loop checked table s1 s2 (rev (combine naf1 naf2)) proj_identity in
  let t := select table0 (aff_neg table0) (as_u8 (- s1) =? 1) in
  let acc := select acc (proj_sub_mixed acc t) (1 - bit1 =? 1) in
  let table0 := aff_endo table0 in
  let t := select table0 (aff_neg table0) (as_u8 (- s2) =? 1) in
  Ok (select acc (proj_sub_mixed acc t) (1 - bit2 =? 1)).

(** g1.rs:744-754 [mul] by a scalar, of projective and of affine points *)
Definition g1_mul (checked : bool) (p : g1_projective) (s : scalar) : res g1_projective :=
  g1_multiply checked p (Model_Scalar.to_bytes s).
Definition g1_mul_affine (checked : bool) (p : g1_affine) (s : scalar) : res g1_projective :=
  g1_multiply checked (proj_from_aff p) (Model_Scalar.to_bytes s).

(** g1.rs:599-602 [FQ_MODULUS_BYTES] *)
Definition FQ_MODULUS_BYTES : list Z :=
  [1; 0; 0; 0; 255; 255; 255; 255; 254; 91; 254; 255; 2; 164; 189; 83; 5; 216; 161; 9; 8;
   216; 57; 51; 72; 125; 157; 41; 83; 167; 237; 115].
(** g1.rs:598-608 [is_torsion_free] *)
Definition g1_is_torsion_free (checked : bool) (p : g1_affine) : res bool :=
  let* q := g1_multiply checked (proj_from_aff p) FQ_MODULUS_BYTES in Ok (proj_is_identity q).

(** g1.rs:1108-1110 [clear_cofactor] *)
Definition g1_clear_cofactor (p : g1_projective) : g1_projective := proj_sub p (proj_mul_by_x p).

(** ** encodings *)
(** [res[0] |= b] *)
Definition or_first (bs : list Z) (x : Z) : list Z := match bs with [] => [] | a :: t => Z.lor a x :: t end.
(** g1.rs:418-439 [to_compressed] *)
Definition g1_to_compressed (p : g1_affine) : list Z :=
  let '(Aff x y i) := p in
  let bs := fp_to_bytes (select x fp_zero i) in
  let bs := or_first bs 128 in
  let bs := or_first bs (select 0 64 i) in
  or_first bs (select 0 32 (negb i && fp_lexicographically_largest y)).
(** g1.rs:443-457 [to_uncompressed] *)
Definition g1_to_uncompressed (p : g1_affine) : list Z :=
  let '(Aff x y i) := p in
  or_first (fp_to_bytes (select x fp_zero i) ++ fp_to_bytes (select y fp_zero i)) (select 0 64 i).
(** the flags and the masked first byte (g1.rs:472-483, 536-547) *)
Definition flag (bs : list Z) (n : Z) : bool := Z.land (Z.shiftr (nth 0 bs 0) n) 1 =? 1.
Definition mask_first (bs : list Z) : list Z := match bs with [] => [] | a :: t => Z.land a 31 :: t end.
(** g1.rs:470-519 [from_uncompressed_unchecked] *)
Definition g1_from_uncompressed_unchecked (bs : list Z) : option g1_affine :=
  let compression := flag bs 7 in
  let infinity := flag bs 6 in
  let sort := flag bs 5 in
  match fp_from_bytes (mask_first (firstn 48 bs)), fp_from_bytes (skipn 48 bs) with
  | Some x, Some y =>
    let p := select (@Aff fp_ops x y infinity) aff_identity infinity in
    if (negb infinity || (infinity && fp_is_zero x && fp_is_zero y)) && negb compression && negb sort
    then Some p else None
  | _, _ => None
  end.
(** g1.rs:461-464 [from_uncompressed] *)
Definition g1_from_uncompressed (checked : bool) (bs : list Z) : res (option g1_affine) :=
  match g1_from_uncompressed_unchecked bs with
  | None => Ok None
  | Some p =>
    let* t := g1_is_torsion_free checked p in
    Ok (if aff_is_on_curve p && t then Some p else None)
  end.
(** g1.rs:534-587 [from_compressed_unchecked] *)
Definition g1_from_compressed_unchecked (bs : list Z) : option g1_affine :=
  let compression := flag bs 7 in
  let infinity := flag bs 6 in
  let sort := flag bs 5 in
  match fp_from_bytes (mask_first bs) with
  | None => None
  | Some x =>
    if infinity && compression && negb sort && fp_is_zero x then Some aff_identity
    else
      match fp_sqrt (fp_add (fp_mul (fp_square x) x) g1_B) with
      | None => None
      | Some y =>
        let y := fp_select y (fp_neg y) (xorb (fp_lexicographically_largest y) sort) in
        if negb infinity && compression then Some (@Aff fp_ops x y infinity) else None
      end
  end.
(** g1.rs:523-528 [from_compressed] *)
Definition g1_from_compressed (checked : bool) (bs : list Z) : res (option g1_affine) :=
  match g1_from_compressed_unchecked bs with
  | None => Ok None
  | Some p => let* t := g1_is_torsion_free checked p in Ok (if t then Some p else None)
  end.
(** g1.rs:1355-1369 [GroupEncoding] of projective points: they convert (1371-1385, of affine points, are
    [to_compressed] and [from_compressed] themselves) *)
Definition g1_proj_to_bytes (p : g1_projective) : list Z := g1_to_compressed (aff_from_proj p).
Definition g1_proj_from_bytes (checked : bool) (bs : list Z) : res (option g1_projective) :=
  let* o := g1_from_compressed checked bs in
  Ok (match o with None => None | Some p => Some (proj_from_aff p) end).
