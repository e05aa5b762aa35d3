(** * Model_MclCurve: the [Curve] object and the polynomial methods of the mcl backend that work on it

    Crate [mcl-kzg/kzg], [src/kzg10.rs].  The methods take the points as an argument, or read
    the fields of the curve, which are public.  The KZG settings of Model_MclKZG.v call the
    same methods. *)
From Coq Require Import List Arith Bool ZArith.
From Verif Require Import Base Fld Model_FFT Model_Mcl Model_MclPoly Model_KZG Model_MclKZG.
Import ListNotations.

(** kzg10.rs:226-230 [from_i32] *)
Definition mcl_poly_from_i32 {K : fld} (data : list Z) : list K := map mcl_from_int data.

Section Curve.
Context {K : fld} {P : pairing K}.
(** the exponent of the final exponentiation, as in Model_MclKZG.v *)
Variable fexp : K.

(** kzg10.rs:599-606 *)
Record mcl_curve := mkCurve {
  cv_g1_gen : PG1 P; cv_g2_gen : PG2 P; cv_g1_points : list (PG1 P); cv_g2_points : list (PG2 P); cv_order : nat }.

(** kzg10.rs:609-623 [default] *)
Definition curve_default : mcl_curve := mkCurve gen1 gen2 [] [] 0.

(** kzg10.rs:625-647 [new] *)
Definition curve_new (secret : K) (order : nat) : res mcl_curve :=
  let g1_gen := gen1 in
  let g2_gen := gen2 in
  let* st := for_range 0 order (fun i (st : list (PG1 P) * list (PG2 P) * K) =>
      let '(g1_points, g2_points, secret_to_power) := st in
      let* g1_points := upd g1_points i (smul secret_to_power g1_gen) in
      let* g2_points := upd g2_points i (smul secret_to_power g2_gen) in
      Ok (g1_points, g2_points, fmul secret_to_power secret)) (repeat g0 order, repeat g0 order, f1) in
  let '(g1_points, g2_points, _) := st in
  Ok (mkCurve g1_gen g2_gen g1_points g2_points order).

(** kzg10.rs:649-667 [new2] *)
Definition curve_new2 (sg1 : list (PG1 P)) (sg2 : list (PG2 P)) (order : nat) : res mcl_curve :=
  let* st := for_range 0 order (fun i (st : list (PG1 P) * list (PG2 P)) =>
      let (a, b) := st in
      let* x := idx sg1 i in
      let* y := idx sg2 i in
      Ok (a ++ [x], b ++ [y])) ([], []) in
  Ok (mkCurve gen1 gen2 (fst st) (snd st) order).

(** kzg10.rs:373-388 [commit] *)
Definition curve_commit (g1_points : list (PG1 P)) (p : list K) : res (PG1 P) :=
  if length g1_points <? length p then Err
  else Ok (mcl_mul_vec g1_points p (Nat.min (length g1_points) (length p))).

(** kzg10.rs:244-258 [gen_proof_at] *)
Definition curve_gen_proof_at (g1_points : list (PG1 P)) (p : list K) (point : K) : res (PG1 P) :=
  let* q := unwrap (mcl_long_division p [fneg point; f1]) in
  Ok (mcl_mul_vec g1_points q (Nat.min (length g1_points) (length q))).

(** kzg10.rs:669-674 [is_proof_valid] *)
Definition curve_is_proof_valid (c : mcl_curve) (com proof : PG1 P) (x y : K) : res bool :=
  let* g2_1 := idx (cv_g2_points c) 1 in
  let secret_minus_x := gsub g2_1 (smul x (cv_g2_gen c)) in
  let commitment_minus_y := gsub com (smul y (cv_g1_gen c)) in
  Ok (mcl_verify_pairing fexp commitment_minus_y (cv_g2_gen c) proof secret_minus_x).
End Curve.
Arguments mcl_curve {K} P. Arguments mkCurve {K P} _ _ _ _ _.
