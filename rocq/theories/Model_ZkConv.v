(** * Model_ZkConv: zkcrypto/src/utils.rs, conversions between this crate's types and blst's

    blst is external: [blst_fr] holds the four words of the Montgomery form of a scalar,
    [blst_fp] the six words of that of a base field element (in both libraries the factors
    are 2^256 and 2^384), [blst_p1] Jacobian coordinates.  [blst_uint64_from_fr] and
    [blst_uint64_from_fp] write the words of the integer, out of Montgomery form; they are
    modelled by the reductions of this crate, which compute the same words (C49, C83). *)
From Coq Require Import ZArith List.
From Verif Require Import Base Model_Scalar Model_Fp Model_Curve Model_G1.
Import ListNotations.
Local Open Scope Z_scope.

(** blst_fr, blst_fp, blst_p1 *)
Definition blst_fr := scalar.
Definition blst_fp := fp.
Inductive blst_p1 := P1 (x y z : blst_fp).
Definition blst_uint64_from_fr (a : blst_fr) : scalar := reduce a.
Definition blst_uint64_from_fp (a : blst_fp) : fp :=
  let '(FP a0 a1 a2 a3 a4 a5) := a in fp_montgomery_reduce a0 a1 a2 a3 a4 a5 0 0 0 0 0 0.

(** utils.rs:26-35 [blst_poly_into_zk_poly] *)
Definition blst_poly_into_zk_poly (coeffs : list blst_fr) : list scalar :=
  map (fun x => let '(Scalar l0 _ _ _) := x in from_u64 l0) coeffs.
(** utils.rs:37-45 [pc_poly_into_blst_poly] *)
Definition pc_poly_into_blst_poly (coeffs : list scalar) : list blst_fr := map (fun x => x) coeffs.
(** utils.rs:47-58 [zk_fr_into_blst_fr]; the first conversion's result is dropped *)
Definition zk_fr_into_blst_fr (fr : scalar) : blst_fr := fr.
(** utils.rs:60-70 [blst_fr_into_zk_fr] *)
Definition blst_fr_into_zk_fr (fr : blst_fr) : scalar :=
  let '(Scalar l0 l1 l2 l3) := blst_uint64_from_fr fr in from_raw l0 l1 l2 l3.
(** utils.rs:72-74 [zk_fp_into_blst_fp] *)
Definition zk_fp_into_blst_fp (a : fp) : blst_fp := a.
(** utils.rs:76-84 [blst_fp_into_zk_fp]; fp.rs:482-484 [from_raw_unchecked] takes the words as
    they are *)
Definition blst_fp_into_zk_fp (a : blst_fp) : fp := blst_uint64_from_fp a.
(** utils.rs:87-96 [zk_g1projective_into_blst_p1] *)
Definition zk_g1projective_into_blst_p1 (gp : g1_projective) : blst_p1 :=
  let '(Proj x y z) := gp in P1 (zk_fp_into_blst_fp x) (zk_fp_into_blst_fp y) (zk_fp_into_blst_fp z).
(** utils.rs:98-107 [blst_p1_into_zk_g1projective] *)
Definition blst_p1_into_zk_g1projective (q : blst_p1) : g1_projective :=
  let '(P1 x y z) := q in @Proj fp_ops (blst_fp_into_zk_fp x) (blst_fp_into_zk_fp y) (blst_fp_into_zk_fp z).
