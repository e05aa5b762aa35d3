(** * Spec_Random: what is drawn from a random generator *)
From Coq Require Import ZArith List Bool.
From Verif Require Import Base Fld Zr Zp Spec_Scalar Spec_Fp Spec_Curve Model_Random Spec_G1 Power Tower Ext Spec_G2 Spec_Cofactor.
Import ListNotations.
Local Open Scope Z_scope.

(** the generator returns as many bytes as it is asked for, and 32-bit words *)
Definition rng_ok (G : rng) : Prop :=
  (forall n (s : rng_state G), is_bytes n (fst (fill_bytes n s))) /\
  (forall s : rng_state G, 0 <= fst (next_u32 s) < 2 ^ 32).

(** the element of the base field for 96 bytes: two big-endian halves, the first one the low one *)
Definition wide_fp (bs : list Z) : Fp := fp_of (be_val (firstn 48 bs) + 2 ^ 384 * be_val (skipn 48 bs)).

Section Drawn.
Context {G : rng}.
Local Notation St := (rng_state G).
Definition drawn_fp (s : St) : Fp * St := let '(bs, s) := fill_bytes 96 s in (wide_fp bs, s).
Definition drawn_fp2 (s : St) : Fp2 * St :=
  let '(x0, s) := drawn_fp s in let '(x1, s) := drawn_fp s in (Quad x0 x1 : Fp2, s).
Definition drawn_fp6 (s : St) : Fp6 * St :=
  let '(x0, s) := drawn_fp2 s in let '(x1, s) := drawn_fp2 s in let '(x2, s) := drawn_fp2 s in (Cubic x0 x1 x2 : Fp6, s).
Definition drawn_fp12 (s : St) : Fp12 * St :=
  let '(x0, s) := drawn_fp6 s in let '(x1, s) := drawn_fp6 s in (Quad x0 x1 : Fp12, s).
(** an abscissa and the parity of a word *)
Definition drawn_abscissa {K : fld} (draw : St -> K * St) (s : St) : K * bool * St :=
  let '(x, s) := draw s in let '(w, s) := next_u32 s in (x, Z.odd w, s).

(** [picked n s P s']: the first [n - 1] abscissas drawn from [s] are not those of a point of the
    curve, or are those of a point that the map [clear] sends to infinity; the [n]-th is that of a
    point sent to [P].  The ordinate is [root] of x^3 + b, or its opposite if the word is odd. *)
Inductive picked {K : fld} (b : K) (root : K -> K) (clear : point K -> point K) (draw : St -> K * St) : nat -> St -> point K -> St -> Prop :=
| picked_now s x flip s' y : drawn_abscissa draw s = (x, flip, s') ->
    fmul y y = fadd (fmul (fmul x x) x) b -> y = (if flip then fneg (root (fmul y y)) else root (fmul y y)) ->
    clear (Affine x y) <> Infinity -> picked b root clear draw 1 s (clear (Affine x y)) s'
| picked_skip s x flip s1 n P s' : drawn_abscissa draw s = (x, flip, s1) ->
    (forall y, fmul y y = fadd (fmul (fmul x x) x) b -> clear (Affine x y) = Infinity) ->
    picked b root clear draw n s1 P s' -> picked b root clear draw (S n) s P s'.
End Drawn.

(** square roots: the power (p + 1) / 4 in the base field *)
Definition fp_root (y : Fp) : Fp := zpow y ((p + 1) / 4).
(** in the quadratic extension, with a = y^((p-3)/4): u a y if a^2 y = -1, and (1 + a^2 y)^((p-1)/2) a y otherwise *)
Definition fp2_root (y : Fp2) : Fp2 :=
  let a := zpow y ((p - 3) / 4) in
  if feqb (fmul (fmul a a) y) (fneg f1) then fmul Fp2_u (fmul a y)
  else fmul (zpow (fadd (fmul (fmul a a) y) f1) ((p - 1) / 2)) (fmul a y).
Definition g1_picked {G : rng} := picked (G:=G) g1_b fp_root g1_clear drawn_fp.
Definition g2_picked {G : rng} := picked (G:=G) g2_b fp2_root g2_clear drawn_fp2.
