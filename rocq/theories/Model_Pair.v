(** * Model_Pair: zkcrypto/src/curve/pairings.rs, and [pairings_verify] of kzg_types.rs

    The results of Miller loops and the elements of the target group are values of [fp12].
    The trait [MillerLoopDriver] (pairings.rs:864-872) is the record [driver]: its two [&mut self] methods return
    the new state.  The only panics are the [unwrap] of the inverse and out-of-range reads of coefficients. *)
From Coq Require Import ZArith List Bool.
From Verif Require Import Base Model_Scalar Model_Fp Model_Curve Model_G1 Model_Fp2 Model_Fp12 Model_G2.
Import ListNotations.
Local Open Scope Z_scope.

(** ** final exponentiation *)
(** pairings.rs:237-249 [fp4_square] *)
Definition fp4_square (a b : fp2) : fp2 * fp2 :=
  let t0 := fp2_square a in
  let t1 := fp2_square b in
  let t2 := fp2_mul_by_nonresidue t1 in
  let c0 := fp2_add t2 t0 in
  let t2 := fp2_add a b in
  let t2 := fp2_square t2 in
  let t2 := fp2_sub t2 t0 in
  let c1 := fp2_sub t2 t1 in
  (c0, c1).
(** pairings.rs:253-301 [cyclotomic_square] *)
Definition cyclotomic_square (f : fp12) : fp12 :=
  let '(FP12 (FP6 z0 z4 z3) (FP6 z2 z1 z5)) := f in
  let '(t0, t1) := fp4_square z0 z1 in
  let z0 := fp2_sub t0 z0 in
  let z0 := fp2_add (fp2_add z0 z0) t0 in
  let z1 := fp2_add t1 z1 in
  let z1 := fp2_add (fp2_add z1 z1) t1 in
  let '(t0, t1) := fp4_square z2 z3 in
  let '(t2, t3) := fp4_square z4 z5 in
  let z4 := fp2_sub t0 z4 in
  let z4 := fp2_add (fp2_add z4 z4) t0 in
  let z5 := fp2_add t1 z5 in
  let z5 := fp2_add (fp2_add z5 z5) t1 in
  let t0 := fp2_mul_by_nonresidue t3 in
  let z2 := fp2_add t0 z2 in
  let z2 := fp2_add (fp2_add z2 z2) t0 in
  let z3 := fp2_sub t2 z3 in
  let z3 := fp2_add (fp2_add z3 z3) t2 in
  FP12 (FP6 z0 z4 z3) (FP6 z2 z1 z5).
(** [(0..64).rev().map(|b| ((x >> b) & 1) == 1)] *)
Definition bits64 (x : Z) : list bool := map (fun b => Z.testbit x (Z.of_nat b)) (rev (seq 0 64)).
(** pairings.rs:302-320 [cycolotomic_exp] *)
Definition cyclotomic_exp (f : fp12) : fp12 :=
  fp12_conjugate (fst (fold_left (fun (st : fp12 * bool) (i : bool) =>
    let '(tmp, found_one) := st in
    let '(tmp, found_one) := if found_one then (cyclotomic_square tmp, found_one) else (tmp, i) in
    (if i then fp12_mul tmp f else tmp, found_one)) (bits64 BLS_X) (fp12_one, false))).
(** pairings.rs:236-364 [final_exponentiation] *)
Definition final_exponentiation (f : fp12) : res fp12 :=
  let t0 := fp12_frobenius_map (fp12_frobenius_map (fp12_frobenius_map (fp12_frobenius_map (fp12_frobenius_map (fp12_frobenius_map f))))) in
  match fp12_invert f with
  | None => Panic
  | Some t1 =>
    let t2 := fp12_mul t0 t1 in
    let t1 := t2 in
    let t2 := fp12_frobenius_map (fp12_frobenius_map t2) in
    let t2 := fp12_mul t2 t1 in
    let t1 := fp12_conjugate (cyclotomic_square t2) in
    let t3 := cyclotomic_exp t2 in
    let t4 := cyclotomic_square t3 in
    let t5 := fp12_mul t1 t3 in
    let t1 := cyclotomic_exp t5 in
    let t0 := cyclotomic_exp t1 in
    let t6 := cyclotomic_exp t0 in
    let t6 := fp12_mul t6 t4 in
    let t4 := cyclotomic_exp t6 in
    let t5 := fp12_conjugate t5 in
    let t4 := fp12_mul t4 (fp12_mul t5 t2) in
    let t5 := fp12_conjugate t2 in
    let t1 := fp12_mul t1 t2 in
    let t1 := fp12_frobenius_map (fp12_frobenius_map (fp12_frobenius_map t1)) in
    let t6 := fp12_mul t6 t5 in
    let t6 := fp12_frobenius_map t6 in
    let t3 := fp12_mul t3 t0 in
    let t3 := fp12_frobenius_map (fp12_frobenius_map t3) in
    let t3 := fp12_mul t3 t1 in
    let t3 := fp12_mul t3 t6 in
    Ok (fp12_mul t3 t4)
  end.
(** pairings.rs:367-389 [add] of Miller loop results *)
Definition miller_result_add (a b : fp12) : fp12 := fp12_mul a b.

(** ** the target group *)
(** pairings.rs:434-444 [identity], [double] *)
Definition gt_identity : fp12 := fp12_one.
Definition gt_double (a : fp12) : fp12 := fp12_square a.
(** pairings.rs:446-463 [neg], 465-482 [add], [sub] *)
Definition gt_neg (a : fp12) : fp12 := fp12_conjugate a.
Definition gt_add (a b : fp12) : fp12 := fp12_mul a b.
Definition gt_sub (a b : fp12) : fp12 := gt_add a (gt_neg b).
(** pairings.rs:411-430 [ct_eq], [conditional_select], [eq] *)
Definition gt_eq (a b : fp12) : bool := fp12_eq a b.
(** pairings.rs:484-510 [mul] by a scalar *)
Definition gt_mul (a : fp12) (s : scalar) : fp12 :=
  fold_left (fun acc (bit : bool) => let acc := gt_double acc in fp12_select acc (gt_add acc a) bit)
    (skipn 1 (bits_msb (Model_Scalar.to_bytes s))) gt_identity.
(** pairings.rs:515-525 [sum] *)
Definition gt_sum (l : list fp12) : fp12 := fold_left gt_add l gt_identity.
(** pairings.rs:549-562 [random]: the generator is not used; the loop ends in its first round *)
Definition gt_random : res fp12 :=
  let inner := fp12_one in
  if negb (fp12_is_zero inner) then final_exponentiation inner else NoFuel.
(** pairings.rs:568-682 [generator] *)
Definition gt_generator : fp12 :=
  FP12 (FP6 (FP2 (FP 0x1972e433a01f85c5 0x97d32b76fd772538 0xc8ce546fc96bcdf9 0xcef63e7366d40614 0xa611342781843780 0x13f3448a3fc6d825)
         (FP 0xd26331b02e9d6995 0x9d68a482f7797e7d 0x9c9b29248d39ea92 0xf4801ca2e13107aa 0xa16c0732bdbcb066 0x083ca4afba360478))
        (FP2 (FP 0x59e261db0916b641 0x2716b6f4b23e960d 0xc8e55b10a0bd9c45 0x0bdb0bd99c4deda8 0x8cf89ebf57fdaac5 0x12d6b7929e777a5e)
         (FP 0x5fc85188b0e15f35 0x34a06e3a8f096365 0xdb3126a6e02ad62c 0xfc6f5aa97d9a990b 0xa12f55f5eb89c210 0x1723703a926f8889))
        (FP2 (FP 0x93588f2971828778 0x43f65b8611ab7585 0x3183aaf5ec279fdf 0xfa73d7e18ac99df6 0x64e176a6a64c99b0 0x179fa78c58388f1f)
         (FP 0x672a0a11ca2aef12 0x0d11b9b52aa3f16b 0xa44412d0699d056e 0xc01d0177221a5ba5 0x66e0cede6c735529 0x05f5a71e9fddc339)))
       (FP6 (FP2 (FP 0xd30a88a1b062c679 0x5ac56a5d35fc8304 0xd0c834a6a81f290d 0xcd5430c2da3707c7 0xf0c27ff780500af0 0x09245da6e2d72eae)
         (FP 0x9f2e0676791b5156 0xe2d1c8234918fe13 0x4c9e459f3c561bf4 0xa3e85e53b9d3e3c1 0x820a121e21a70020 0x15af618341c59acc))
        (FP2 (FP 0x7c95658c24993ab1 0x73eb38721ca886b9 0x5256d749477434bc 0x8ba41902ea504a8b 0x04a3d3f80c86ce6d 0x18a64a87fb686eaa)
         (FP 0xbb83e71bb920cf26 0x2a5277ac92a73945 0xfc0ee59f94f046a0 0x7158cdf3786058f7 0x7cc1061b82f945f6 0x03f847aa9fdbe567))
        (FP2 (FP 0x8078dba56134e657 0x1cd7ec9a43998a6e 0xb1aa599a1a993766 0xc9a0f62f0842ee44 0x8e159be3b605dffa 0x0c86ba0d4af13fc2)
         (FP 0xe80ff2a06a52ffb1 0x7694ca48721a906c 0x7583183e03b08514 0xf567afdd40cee4e2 0x9a6d96d2e526a5fc 0x197e9f49861f2242))).
(** pairings.rs:684-686 [is_identity] *)
Definition gt_is_identity (a : fp12) : bool := gt_eq a gt_identity.

(** ** the Miller loop *)
(** pairings.rs:864-872 *)
Record driver (S O : Type) := Driver {
  drv_dbl : S -> O -> res (S * O);
  drv_add : S -> O -> res (S * O);
  drv_square : O -> O;
  drv_conj : O -> O;
  drv_one : O }.
Arguments Driver {S O}.
Arguments drv_dbl {S O}. Arguments drv_add {S O}. Arguments drv_square {S O}. Arguments drv_conj {S O}. Arguments drv_one {S O}.
(** pairings.rs:877-903 [miller_loop]; the parameter of the curve is negative *)
Fixpoint miller_rounds {S O} (d : driver S O) (bits : list bool) (found_one : bool) (s : S) (f : O) : res (S * O) :=
  match bits with
  | [] => Ok (s, f)
  | i :: bits =>
    if negb found_one then miller_rounds d bits i s f
    else
      bind (drv_dbl d s f) (fun sf =>
      bind (if i then drv_add d (fst sf) (snd sf) else Ok sf) (fun sf =>
      miller_rounds d bits found_one (fst sf) (drv_square d (snd sf))))
  end.
Definition miller_loop {S O} (d : driver S O) (s : S) : res (S * O) :=
  bind (miller_rounds d (bits64 (Z.div BLS_X 2)) false s (drv_one d)) (fun sf =>
  bind (drv_dbl d (fst sf) (snd sf)) (fun sf => Ok (fst sf, drv_conj d (snd sf)))).

(** the coefficients of a line *)
Definition line : Type := fp2 * fp2 * fp2.
(** pairings.rs:905-916 [ell] *)
Definition ell (f : fp12) (coeffs : line) (p : g1_affine) : fp12 :=
  let '(c0, c1, c2) := coeffs in
  let '(Aff x y _) := p in
  let c0 := FP2 (fp_mul (fp2_c0 c0) y) (fp_mul (fp2_c1 c0) y) in
  let c1 := FP2 (fp_mul (fp2_c0 c1) x) (fp_mul (fp2_c1 c1) x) in
  fp12_mul_by_014 f c2 c1 c0.
(** pairings.rs:918-947 [doubling_step] *)
Definition doubling_step (r : g2_projective) : g2_projective * line :=
  let '(Proj rx ry rz) := r in
  let tmp0 := fp2_square rx in
  let tmp1 := fp2_square ry in
  let tmp2 := fp2_square tmp1 in
  let tmp3 := fp2_sub (fp2_sub (fp2_square (fp2_add tmp1 rx)) tmp0) tmp2 in
  let tmp3 := fp2_add tmp3 tmp3 in
  let tmp4 := fp2_add (fp2_add tmp0 tmp0) tmp0 in
  let tmp6 := fp2_add rx tmp4 in
  let tmp5 := fp2_square tmp4 in
  let zsquared := fp2_square rz in
  let rx := fp2_sub (fp2_sub tmp5 tmp3) tmp3 in
  let rz := fp2_sub (fp2_sub (fp2_square (fp2_add rz ry)) tmp1) zsquared in
  let ry := fp2_mul (fp2_sub tmp3 rx) tmp4 in
  let tmp2 := fp2_add tmp2 tmp2 in
  let tmp2 := fp2_add tmp2 tmp2 in
  let tmp2 := fp2_add tmp2 tmp2 in
  let ry := fp2_sub ry tmp2 in
  let tmp3 := fp2_mul tmp4 zsquared in
  let tmp3 := fp2_add tmp3 tmp3 in
  let tmp3 := fp2_neg tmp3 in
  let tmp6 := fp2_sub (fp2_sub (fp2_square tmp6) tmp0) tmp5 in
  let tmp1 := fp2_add tmp1 tmp1 in
  let tmp1 := fp2_add tmp1 tmp1 in
  let tmp6 := fp2_sub tmp6 tmp1 in
  let tmp0 := fp2_mul rz zsquared in
  let tmp0 := fp2_add tmp0 tmp0 in
  (@Proj fp2_ops rx ry rz, (tmp0, tmp3, tmp6)).
(** pairings.rs:949-979 [addition_step] *)
Definition addition_step (r : g2_projective) (q : g2_affine) : g2_projective * line :=
  let '(Proj rx ry rz) := r in
  let '(Aff qx qy _) := q in
  let zsquared := fp2_square rz in
  let ysquared := fp2_square qy in
  let t0 := fp2_mul zsquared qx in
  let t1 := fp2_mul (fp2_sub (fp2_sub (fp2_square (fp2_add qy rz)) ysquared) zsquared) zsquared in
  let t2 := fp2_sub t0 rx in
  let t3 := fp2_square t2 in
  let t4 := fp2_add t3 t3 in
  let t4 := fp2_add t4 t4 in
  let t5 := fp2_mul t4 t2 in
  let t6 := fp2_sub (fp2_sub t1 ry) ry in
  let t9 := fp2_mul t6 qx in
  let t7 := fp2_mul t4 rx in
  let rx := fp2_sub (fp2_sub (fp2_sub (fp2_square t6) t5) t7) t7 in
  let rz := fp2_sub (fp2_sub (fp2_square (fp2_add rz t2)) zsquared) t3 in
  let t10 := fp2_add qy rz in
  let t8 := fp2_mul (fp2_sub t7 rx) t6 in
  let t0 := fp2_mul ry t5 in
  let t0 := fp2_add t0 t0 in
  let ry := fp2_sub t8 t0 in
  let t10 := fp2_sub (fp2_square t10) ysquared in
  let ztsquared := fp2_square rz in
  let t10 := fp2_sub t10 ztsquared in
  let t9 := fp2_sub (fp2_add t9 t9) t10 in
  let t10 := fp2_add rz rz in
  let t6 := fp2_neg t6 in
  let t1 := fp2_add t6 t6 in
  (@Proj fp2_ops rx ry rz, (t10, t1, t9)).

(** pairings.rs:707-710 *)
Record g2_prepared := Prepared { prep_infinity : bool; prep_coeffs : list line }.
(** pairings.rs:714-738: the state is (cur, coeffs), the output is () *)
Definition prep_driver (base : g2_affine) : driver (g2_projective * list line) unit :=
  Driver
    (fun s _ => let '(cur, cs) := s in let '(cur, c) := doubling_step cur in Ok ((cur, cs ++ [c]), tt))
    (fun s _ => let '(cur, cs) := s in let '(cur, c) := addition_step cur base in Ok ((cur, cs ++ [c]), tt))
    (fun o => o) (fun o => o) tt.
(** pairings.rs:713-760 [G2Prepared::from] *)
Definition g2_prepare (q : g2_affine) : res g2_prepared :=
  let is_identity := aff_is_identity q in
  let q := select q g2_generator_affine is_identity in
  bind (miller_loop (prep_driver q) (proj_from_aff q, [])) (fun sf =>
  let cs := snd (fst sf) in
  if Nat.eqb (length cs) 68 then Ok (Prepared is_identity cs) else Panic).
(** pairings.rs:768-803: the state is the index *)
Definition multi_step (terms : list (g1_affine * g2_prepared)) (index : nat) (f : fp12) : res fp12 :=
  fold_left (fun acc (term : g1_affine * g2_prepared) =>
    bind acc (fun f =>
    let either_identity := aff_is_identity (fst term) || prep_infinity (snd term) in
    bind (idx (prep_coeffs (snd term)) index) (fun c =>
    let new_f := ell f c (fst term) in
    Ok (fp12_select new_f f either_identity)))) terms (Ok f).
Definition multi_driver (terms : list (g1_affine * g2_prepared)) : driver nat fp12 :=
  Driver
    (fun index f => bind (multi_step terms index f) (fun f => Ok (S index, f)))
    (fun index f => bind (multi_step terms index f) (fun f => Ok (S index, f)))
    fp12_square fp12_conjugate fp12_one.
(** pairings.rs:762-811 [multi_miller_loop] *)
Definition multi_miller_loop (terms : list (g1_affine * g2_prepared)) : res fp12 :=
  bind (miller_loop (multi_driver terms) 0%nat) (fun sf => Ok (snd sf)).
(** pairings.rs:817-845: the state is cur *)
Definition pair_driver (base : g2_affine) (p : g1_affine) : driver g2_projective fp12 :=
  Driver
    (fun cur f => let '(cur, c) := doubling_step cur in Ok (cur, ell f c p))
    (fun cur f => let '(cur, c) := addition_step cur base in Ok (cur, ell f c p))
    fp12_square fp12_conjugate fp12_one.
(** pairings.rs:813-862 [pairing] *)
Definition pairing_fn (p : g1_affine) (q : g2_affine) : res fp12 :=
  let either_identity := aff_is_identity p || aff_is_identity q in
  let p := select p g1_generator_affine either_identity in
  let q := select q g2_generator_affine either_identity in
  bind (miller_loop (pair_driver q p) (proj_from_aff q)) (fun sf =>
  let tmp := fp12_select (snd sf) fp12_one either_identity in
  final_exponentiation tmp).

(** kzg_types.rs:205-231 [pairings_verify] *)
Definition zk_pairings_verify (a1 : g1_projective) (a2 : g2_projective) (b1 : g1_projective) (b2 : g2_projective) : res bool :=
  let a1neg := proj_neg a1 in
  let aa1 := aff_from_proj a1neg in
  let bb1 := aff_from_proj b1 in
  let aa2 := aff_from_proj a2 in
  let bb2 := aff_from_proj b2 in
  bind (g2_prepare aa2) (fun aa2_prepared =>
  bind (g2_prepare bb2) (fun bb2_prepared =>
  bind (multi_miller_loop [(aa1, aa2_prepared)]) (fun loop0 =>
  bind (multi_miller_loop [(bb1, bb2_prepared)]) (fun loop1 =>
  let gt_point := miller_result_add loop0 loop1 in
  bind (final_exponentiation gt_point) (fun new_point =>
  Ok (fp12_eq fp12_one new_point)))))).
