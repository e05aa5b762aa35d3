(** * Model_Random: drawing field elements and points (zkcrypto/src/curve)

    A random generator is any state machine with the two operations the code calls; its outputs are
    not restricted here.  The loops of the two [random] of points are bounded by [fuel]: [NoFuel] is
    "still drawing after so many rounds". *)
From Coq Require Import ZArith List Bool.
From Verif Require Import Base Model_Scalar Model_Fp Model_Fp2 Model_Fp12 Model_Curve Model_G1 Model_G2 Model_ZkWords.
Import ListNotations.
Local Open Scope Z_scope.

(** what the code uses of [RngCore] *)
Record rng := Rng {
  rng_state : Type;
  fill_bytes : nat -> rng_state -> list Z * rng_state;
  next_u32 : rng_state -> Z * rng_state }.
Arguments fill_bytes {_}. Arguments next_u32 {_}.

Section Draw.
Context {G : rng}.
Local Notation St := (rng_state G).

(** scalar.rs:886-890 [random] *)
Definition scalar_random (s : St) : scalar * St :=
  let '(buf, s) := fill_bytes 64 s in (from_bytes_wide buf, s).
(** fp.rs:409-427 [random] *)
Definition fp_draw (s : St) : fp * St :=
  let '(bytes, s) := fill_bytes 96 s in (fp_random bytes, s).
(** fp2.rs:316-321 [random]: the fields of the literal are evaluated in order *)
Definition fp2_draw (s : St) : fp2 * St :=
  let '(c0, s) := fp_draw s in
  let '(c1, s) := fp_draw s in
  (FP2 c0 c1, s).
(** fp6.rs:289-295 [random] *)
Definition fp6_draw (s : St) : fp6 * St :=
  let '(c0, s) := fp2_draw s in
  let '(c1, s) := fp2_draw s in
  let '(c2, s) := fp2_draw s in
  (FP6 c0 c1 c2, s).
(** fp12.rs:293-298 [random] *)
Definition fp12_draw (s : St) : fp12 * St :=
  let '(c0, s) := fp6_draw s in
  let '(c1, s) := fp6_draw s in
  (FP12 c0 c1, s).

(** one round of the loop of g1.rs:1257-1276 and g2.rs:1262-1281 (the same statements): [Some] is
    [return p].  [map] computes its closure always, which changes nothing. *)
Definition random_round {F : fops} (draw : St -> F * St) (clear : proj F -> proj F) (s : St) : option (proj F) * St :=
  let '(x, s) := draw s in
  let '(w, s) := next_u32 s in
  let flip_sign := negb (w mod 2 =? 0) in
  let p := match fo_sqrt (fo_add (fo_mul (fo_square x) x) fo_B) with
           | None => None
           | Some y => Some (Aff x (if flip_sign then fo_neg y else y) false)
           end in
  match p with
  | None => (None, s)
  | Some p =>
    let p := clear (proj_from_aff p) in
    (if negb (proj_is_identity p) then Some p else None, s)
  end.
Fixpoint random_loop {A : Type} (round : St -> option A * St) (fuel : nat) (s : St) : res (A * St) :=
  match fuel with
  | O => NoFuel
  | S fuel => let '(o, s) := round s in
    match o with Some a => Ok (a, s) | None => random_loop round fuel s end
  end.
(** g1.rs:1257-1276 [random] *)
Definition g1_random (fuel : nat) (s : St) : res (g1_projective * St) :=
  random_loop (random_round (F:=fp_ops) fp_draw g1_clear_cofactor) fuel s.
(** g2.rs:1262-1281 [random] *)
Definition g2_random (fuel : nat) (s : St) : res (g2_projective * St) :=
  random_loop (random_round (F:=fp2_ops) fp2_draw g2_clear_cofactor) fuel s.
End Draw.

(** zkfr.rs:36-38 [rand]: [w] is the array that [rand::random] returns *)
Definition zk_fr_rand (w : scalar) : scalar := let '(Scalar l0 l1 l2 l3) := w in from_raw l0 l1 l2 l3.
(** kzg_types.rs:125-128 [rand] *)
Definition zk_g1_rand (checked : bool) (w : scalar) : res g1_projective := zkw_g1_mul checked zkw_g1_generator (zk_fr_rand w).
