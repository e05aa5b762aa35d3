(** * Spec_ArkScalar: what the four stored limbs of an Arkworks scalar stand for *)
From Coq Require Import List ZArith.
From Verif Require Import Base Fld Zr.
Import ListNotations.
Local Open Scope Z_scope.

(** four 64-bit words *)
Definition words (u : list Z) : Prop := length u = 4%nat /\ forall a, In a u -> 0 <= a < 2 ^ 64.

(** their integer, the least significant word first *)
Definition integer (u : list Z) : Z := nth 0 u 0 + 2 ^ 64 * nth 1 u 0 + 2 ^ 128 * nth 2 u 0 + 2 ^ 192 * nth 3 u 0.

(** Montgomery form: the words hold x * 2^256 reduced modulo r *)
Definition stored (l : list Z) (x : Fr) : Prop := words l /\ integer l = (val x * 2 ^ 256) mod r.
