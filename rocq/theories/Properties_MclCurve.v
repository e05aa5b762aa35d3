(** * Property C120: curve objects of the mcl backend

    [P] is an arbitrary pairing over the scalar field, [fexp] the exponent of the second
    final exponentiation in the pairing check, an arbitrary non-zero scalar. *)
From Coq Require Import List Arith ZArith.
From Verif Require Import Base Fld Poly Spec Zr Spec_KZG Model_KZG Model_Mcl Model_MclKZG Model_MclCurve Proof_MclCurve.
Import ListNotations.

Theorem C120_new : forall (P : pairing Fr) (s : Fr) order, exists c : mcl_curve P, curve_new s order = Ok c /\ cv_order c = order /\
  cv_g1_gen c = gen1 /\ cv_g2_gen c = gen2 /\ length (cv_g1_points c) = order /\ length (cv_g2_points c) = order /\
  forall i, i < order -> nth_error (cv_g1_points c) i = Some (smul (fpow s i) gen1) /\ nth_error (cv_g2_points c) i = Some (smul (fpow s i) gen2).
Proof. exact (@curve_new_points Fr). Qed.
Print Assumptions C120_new.
(** a curve from the points of a trusted setup is the one from its secret; more points than the setup has: panic *)
Theorem C120_two_ways : forall (P : pairing Fr) (s : Fr) n order g1s g2s, mcl_setup_points n s = Ok (g1s, g2s) ->
  (order <= n -> curve_new2 (P := P) g1s g2s order = curve_new s order) /\ (n < order -> curve_new2 (P := P) g1s g2s order = Panic).
Proof. exact (@curve_two_ways Fr). Qed.
Print Assumptions C120_two_ways.
Theorem C120_new2 : forall (P : pairing Fr) (sg1 : list (PG1 P)) (sg2 : list (PG2 P)) order,
  (order <= length sg1 -> order <= length sg2 -> curve_new2 sg1 sg2 order = Ok (mkCurve gen1 gen2 (firstn order sg1) (firstn order sg2) order)) /\
  (length sg1 < order \/ length sg2 < order -> curve_new2 sg1 sg2 order = Panic).
Proof. exact (@curve_new2_spec Fr). Qed.
Print Assumptions C120_new2.
Theorem C120_commit : forall (P : pairing Fr) (s : Fr) order (c : mcl_curve P) (p : list Fr), curve_new s order = Ok c ->
  (length p <= order -> curve_commit (cv_g1_points c) p = Ok (smul (peval p s) gen1)) /\
  (order < length p -> curve_commit (cv_g1_points c) p = Err).
Proof. exact (@curve_commit_spec Fr). Qed.
Print Assumptions C120_commit.
(** the pairing check compares the two pairings *)
Theorem C120_verify_pairing : forall (P : pairing Fr) (fexp : Fr), fexp <> f0 -> forall (a1 : PG1 P) a2 b1 b2,
  mcl_verify_pairing fexp a1 a2 b1 b2 = true <-> pe a1 a2 = pe b1 b2.
Proof. exact (@verify_spec Fr). Qed.
Print Assumptions C120_verify_pairing.
(** any curve, also one whose public fields were changed *)
Theorem C120_check : forall (P : pairing Fr) (fexp : Fr), fexp <> f0 -> forall (c : mcl_curve P) (com proof : PG1 P) x y,
  (length (cv_g2_points c) < 2 -> curve_is_proof_valid fexp c com proof x y = Panic) /\
  (2 <= length (cv_g2_points c) -> exists g b, nth_error (cv_g2_points c) 1 = Some g /\ curve_is_proof_valid fexp c com proof x y = Ok b /\
     (b = true <-> pe (gsub com (smul y (cv_g1_gen c))) (cv_g2_gen c) = pe proof (gsub g (smul x (cv_g2_gen c))))).
Proof. exact (@curve_valid_any Fr). Qed.
Print Assumptions C120_check.
(** the quotient needs one point less than the polynomial has coefficients *)
Theorem C120_opening : forall (P : pairing Fr) (fexp : Fr), fexp <> f0 -> forall (s : Fr) order (c : mcl_curve P) (p : list Fr) x,
  curve_new s order = Ok c -> 2 <= order -> length p <= order + 1 ->
  exists proof, curve_gen_proof_at (cv_g1_points c) p x = Ok proof /\
    forall y, exists b, curve_is_proof_valid fexp c (smul (peval p s) gen1) proof x y = Ok b /\ (b = true <-> y = peval p x).
Proof. exact (@curve_opening Fr). Qed.
Print Assumptions C120_opening.
(** with one coefficient more there are honest proofs that are refused, without any error from the method that makes them *)
Theorem C120_overlong_refuted : forall (P : pairing Fr) (fexp : Fr), fexp <> f0 -> forall (s : Fr) order (c : mcl_curve P),
  curve_new s order = Ok c -> 2 <= order -> s <> f0 ->
  exists (p : list Fr) x proof, length p = order + 2 /\ curve_gen_proof_at (cv_g1_points c) p x = Ok proof /\
    curve_is_proof_valid fexp c (smul (peval p s) gen1) proof x (peval p x) = Ok false.
Proof. exact (@curve_overlong Fr). Qed.
Print Assumptions C120_overlong_refuted.
(** polynomials given by signed integers *)
Theorem C120_from_i32 : forall data : list Z, length (mcl_poly_from_i32 (K := Fr) data) = length data /\
  forall i z, nth_error data i = Some z -> exists x, nth_error (mcl_poly_from_i32 (K := Fr) data) i = Some x /\ val x = (z mod r)%Z.
Proof. exact from_i32_spec. Qed.
Print Assumptions C120_from_i32.

(** secret 3, two points: 5 - 2X + X^2 has three coefficients, so it cannot be committed to, but opened; at 3 it is 8, at 7 it is 40 *)
Example C120_ex :
  match curve_new (P := toy_pairing Fr) (fr_of 3) 2, curve_new (P := toy_pairing Fr) (fr_of 3) 3 with
  | Ok c, Ok d =>
    match curve_commit (cv_g1_points c) (mcl_poly_from_i32 [5; -2; 1]%Z), curve_commit (cv_g1_points d) (mcl_poly_from_i32 [5; -2; 1]%Z),
          curve_gen_proof_at (cv_g1_points c) (mcl_poly_from_i32 [5; -2; 1]%Z) (fr_of 7) with
    | Err, Ok com, Ok proof =>
        val com = 8%Z /\ val proof = 8%Z /\
        curve_is_proof_valid (fr_of 3) c com proof (fr_of 7) (fr_of 40) = Ok true /\
        curve_is_proof_valid (fr_of 3) c com proof (fr_of 7) (fr_of 41) = Ok false
    | _, _, _ => False end
  | _, _ => False end.
Proof. vm_compute. auto. Qed.
