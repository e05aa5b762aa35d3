(** * Spec_Ckzg: what a client of the ckzg crate may rely on, and with which care *)
From Coq Require Import List Arith Bool ZArith.
From Verif Require Import Base Model_Ckzg.
Import ListNotations.

Section Spec.
Context {V : Type}.
(** the C library: a constructor that succeeds makes arrays of the documented sizes, one that fails
    leaves nothing behind that the destructor would free *)
Definition good_lib (L : clib V) : Prop :=
  (forall n, length (cl_poly_cells L n) = n) /\
  (forall n, cl_poly L n <> KzgOk -> cl_poly_left L n = Null) /\
  (forall s, cl_fft L s = KzgOk -> (s < 32)%Z /\
     length (cl_roots L s) = S (Z.to_nat (2 ^ s)) /\ length (cl_reverse L s) = S (Z.to_nat (2 ^ s))) /\
  (forall s, cl_fft L s <> KzgOk -> (cl_fft_left L s <= 0 \/ 2 ^ 32 <= cl_fft_left L s)%Z) /\
  (forall op a b n l, cl_op L op a b n = (KzgOk, l) -> length l = n) /\
  (forall a b, fst (cl_div L a b) <> KzgOk -> cl_div_left L a b = Null).

(** the variable [i] holds the object [o] *)
Definition has (s : state V) (i : nat) (o : obj) : Prop := nth_error (st_vars s) i = Some (Some o).
(** the variable settings for proofs were made from still holds the settings for transforms *)
Definition in_place (s : state V) (fs : oref) : Prop := exists j w e r, fs = Var j /\ has s j (OFft w e r).
(** an entry of the table behind them *)
Definition in_table (s : state V) (fs : oref) (k : nat) : Prop :=
  exists j w e r, fs = Var j /\ has s j (OFft w e r) /\ (0 < w)%Z /\ (Z.of_nat k <= w)%Z.

(** what the types of the crate do not enforce *)
Definition careful (s : state V) (c : cmd V) : Prop :=
  match c with
  | Clone _ | PolyDefault => False
  | KzgNew g1 g2 len _ => len <= g1 /\ len <= g2
  | SingleNew i _ | MultiNew i _ _ => forall fs a b n, has s i (OKzg fs a b n) -> in_place s fs
  | GetCoeff i k | SetCoeff i k _ => forall c n, has s i (OPoly c n) -> k < n
  | GetCoeffs i => forall c n, has s i (OPoly c n) -> 0 < n
  | RootAt i k | ReverseAt i k => forall w e r, has s i (OFft w e r) -> (0 < w)%Z /\ (Z.of_nat k <= w)%Z
  | KzgRootAt i k => forall fs a b n, has s i (OKzg fs a b n) -> in_table s fs k
  | UseWidth i =>
      (forall fs a b n, has s i (OKzg fs a b n) -> in_place s fs) /\
      (forall ks, (exists x n, has s i (OSingle ks x n)) \/ (exists c f n, has s i (OMulti ks c f n)) ->
         exists j fs a b n, ks = Var j /\ has s j (OKzg fs a b n) /\ in_place s fs)
  | _ => True
  end.
Inductive careful_run (L : clib V) : state V -> list (cmd V) -> Prop :=
| CR_nil s : careful_run L s []
| CR_cons s c p : careful s c -> (forall s' o, step L s c = Done (s', o) -> careful_run L s' p) -> careful_run L s (c :: p).
(** the states such programs lead to *)
Definition reached (L : clib V) (s : state V) : Prop :=
  exists p os, careful_run L start p /\ run L start p = Done (s, os).
(** no array is allocated *)
Definition all_freed (s : state V) : Prop := forall b k, nth_error (st_heap s) b <> Some (Some k).
(** the object has arrays of its own *)
Definition has_memory (o : obj) : Prop :=
  match o with
  | OPoly _ n | OKzg _ _ _ n | OSingle _ _ n => 0 < n
  | OFft w _ _ => (0 < w)%Z
  | OMulti _ c _ _ => 0 < c
  end.
(** the variable the next object is put in *)
Definition next (s : state V) : nat := length (st_vars s).
(** the variable [i] holds a polynomial with these coefficients *)
Definition poly_is (L : clib V) (s : state V) (i : nat) (l : list V) : Prop :=
  (exists c, has s i (OPoly c (length l))) /\ (0 < length l -> step L s (GetCoeffs i) = Done (s, OVals l)).
(** a result: the polynomials there were are as they were *)
Definition polys_kept (L : clib V) (s s' : state V) : Prop := forall i l, poly_is L s i l -> poly_is L s' i l.
(** what an operation of the library gave for a polynomial of [n] coefficients becomes the result of the method *)
Definition returned (L : clib V) (s : state V) (n : nat) (r : kzg_ret * list V) (m : out (state V * obs V)) : Prop :=
  match cl_poly L n, r with
  | KzgOk, (KzgOk, l) => exists s', m = Done (s', ONone) /\ poly_is L s' (next s) l /\ polys_kept L s s'
  | KzgOk, _ => exists s', m = Done (s', OErr) /\ next s' = next s /\ polys_kept L s s'
  | _, _ => m = Done (s, OPanic)
  end.
End Spec.
