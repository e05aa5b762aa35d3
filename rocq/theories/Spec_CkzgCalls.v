(** * Spec_CkzgCalls: what the functions of the ckzg crate around its calls should return *)
From Coq Require Import List Arith Bool ZArith NArith.
From Verif Require Import Base Fld Zr Spec_Scalar Model_Scalar Model_Ckzg Model_CkzgCalls.
Import ListNotations.

(** the library's scalars *)
Record fr_lib_ok (F : fr_lib) : Prop := FrLibOk {
  fok_one : represents (fl_from_u64 F 1%Z) (1%F : Fr);
  fok_mul : forall a b (x y : Fr), represents a x -> represents b y -> represents (fl_mul F a b) (x * y)%F;
  fok_scalar : forall bs, is_bytes 32 bs -> represents (fl_from_scalar F bs) (fr_of (bytes_val bs)) }.
(** the least power of two that is at least [m] *)
Definition least_scale (m k : N) : Prop := (m <= 2 ^ k /\ forall j, m <= 2 ^ j -> k <= j)%N.
(** samples that differ only in whether a null value was given or was missing *)
Definition same_samples {A} (null : A) (l l' : list (option A)) : Prop :=
  Forall2 (fun a b => a = b \/ (a = None /\ b = Some null) \/ (a = Some null /\ b = None)) l l'.
(** a result of the library, as the caller sees it *)
Definition seen {A} (r : kzg_ret * A) : option A := match r with (KzgOk, w) => Some w | _ => None end.
