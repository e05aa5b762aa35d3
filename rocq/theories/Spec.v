(** * Spec: small specification-level notions used in the property statements

    Nothing here models repository code, except that [settings_ok] and [table_ok]
    are predicates on the settings record of [Model_FFT]. *)
From Coq Require Import List Arith NArith.
From Verif Require Import Base Fld Poly Model_FFT.
Import ListNotations.

(** the discrete Fourier transform of size [n] with root [w] over a module *)
Definition dft {K : fld} {M : gmod K} (w : K) (n : nat) (data : list M) : list M :=
  map (fun i => gsum n (fun j => smul (fpow w (i * j)) (nth j data g0))) (seq 0 n).

(** well-formed settings of width [2^k] built on the primitive root [w] *)
Definition settings_ok {K : fld} (s : fft_settings K) (k : nat) (w : K) : Prop :=
  max_width s = 2 ^ k /\ primitive w (2 ^ k) /\ root_of_unity s = w /\
  expanded_roots s = map (fpow w) (seq 0 (S (2 ^ k))) /\
  reverse_roots s = map (fun i => fpow w (2 ^ k - i)) (seq 0 (S (2 ^ k))).

(** every entry of the root table has the advertised order *)
Definition table_ok {K : fld} (table : list K) : Prop :=
  forall i, i < length table -> primitive (nth i table f0) (2 ^ i).


(** reversal of the [k] low binary digits of [i] *)
Fixpoint bitrev (k i : nat) : nat :=
  match k with
  | O => 0
  | S k' => (i mod 2) * 2 ^ k' + bitrev k' (i / 2)
  end.

(** [a_0, b_0, a_1, b_1, ...] *)
Fixpoint interleave {A} (a b : list A) : list A :=
  match a, b with
  | x :: a', y :: b' => x :: y :: interleave a' b'
  | _, _ => []
  end.

(** small enough for the 2-adicity of the scalar field (transforms up to 2^31) *)
Definition fits (n : nat) : Prop := (N.of_nat n <= 2 ^ 31)%N.

(** coefficient [k] of the constant polynomial 1 *)
Definition delta {K : fld} (k : nat) : K := if k =? 0 then f1 else f0.

(** [q] is the Euclidean quotient of [a] by [b] *)
Definition euclid {K : fld} (a b q : list K) : Prop :=
  length q = length a + 1 - length b /\ exists r, length r < length b /\ forall k, coef a k = fadd (convol q b k) (coef r k).
