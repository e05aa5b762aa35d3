(** * Spec_More: further specification-level notions (nothing here models repository code) *)
From Coq Require Import List Arith.
Import ListNotations.

(** number of entries without a value *)
Definition missing_count {A} (samples : list (option A)) : nat :=
  length (filter (fun o => match o with None => true | Some _ => false end) samples).
