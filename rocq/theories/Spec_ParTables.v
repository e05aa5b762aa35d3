(** * Spec_ParTables: what the tables of scale factors should hold *)
From Coq Require Import List Arith.
From Verif Require Import Base Fld.
Import ListNotations.

Section Spec.
Context {K : fld}.

(** the first [n] powers of [x] *)
Definition powers (x : K) (n : nat) : list K := map (fpow x) (seq 0 n).

(** The shared memory of a process: cell 0 is the table of powers of 1/5, cell 1 the table
    of powers of 5, both of any length (none in a fresh process); the cells [c] and [c + 1]
    of the call exist. *)
Definition tables_ready (c : nat) (m : list (list K)) : Prop :=
  c + 1 < length m
  /\ (exists n, nth_error m 0 = Some (powers (finv (fnat 5)) n))
  /\ (exists n, nth_error m 1 = Some (powers (fnat 5) n)).

(** the memory of a process that has not scaled anything yet *)
Definition fresh_memory : list (list K) := [[]; []; []; []].

(** the coefficient of x^i multiplied with the i-th power *)
Definition scaled_by (x : K) (p : list K) : list K := map (fun i => fmul (nth i p f0) (fpow x i)) (seq 0 (length p)).
End Spec.
