(** * Spec_Scalars: what a program over the scalar trait means, and where the crates differ *)
From Coq Require Import List Bool ZArith.
From Verif Require Import Base Fld Zr Model_Scalar Spec_Scalar Spec_ArkScalar Model_ArkScalar Model_Scalars.
Import ListNotations.
Local Open Scope Z_scope.

(** the libraries compute in the field *)
Record blst_lib_ok (B : blst_lib) : Prop := BlstLibOk {
  bok_from : forall u, words u -> represents (bl_from_uint64 B u) (fr_of (integer u));
  bok_to : forall a (x : Fr), represents a x -> words (bl_uint64_from B a) /\ integer (bl_uint64_from B a) = val x;
  bok_sqr : forall a (x : Fr), represents a x -> represents (bl_sqr B a) (fmul x x);
  bok_mul : forall a b (x y : Fr), represents a x -> represents b y -> represents (bl_mul B a b) (fmul x y);
  bok_add : forall a b (x y : Fr), represents a x -> represents b y -> represents (bl_add B a b) (fadd x y);
  bok_sub : forall a b (x y : Fr), represents a x -> represents b y -> represents (bl_sub B a b) (fsub x y);
  bok_cneg : forall a (x : Fr), represents a x -> represents (bl_cneg B a true) (fneg x);
  bok_inv : forall a (x : Fr), represents a x -> represents (bl_inverse B a) (finv x) /\ represents (bl_eucl_inverse B a) (finv x) }.
Record ckzg_fr_lib_ok (C : ckzg_fr_lib) : Prop := CkzgFrLibOk {
  cok_from : forall u, words u -> represents (cf_from_uint64s C u) (fr_of (integer u));
  cok_one : forall v, 0 <= v < 2 ^ 64 -> represents (cf_from_uint64 C v) (fr_of v);
  cok_to : forall a (x : Fr), represents a x -> words (cf_to_uint64s C a) /\ integer (cf_to_uint64s C a) = val x;
  cok_tests : forall a b (x y : Fr), represents a x -> represents b y ->
    cf_is_one C a = feqb x f1 /\ cf_is_zero C a = feqb x f0 /\ cf_equal C a b = feqb x y;
  cok_sqr : forall a (x : Fr), represents a x -> represents (cf_sqr C a) (fmul x x);
  cok_mul : forall a b (x y : Fr), represents a x -> represents b y -> represents (cf_mul C a b) (fmul x y);
  cok_add : forall a b (x y : Fr), represents a x -> represents b y -> represents (cf_add C a b) (fadd x y);
  cok_neg : forall a (x : Fr), represents a x -> represents (cf_negate C a) (fneg x);
  cok_pow : forall a (x : Fr) n, represents a x -> 0 <= n < 2 ^ 64 -> represents (cf_pow C a n) (fpow x (Z.to_nat n));
  cok_div : forall a b (x y : Fr), represents a x -> represents b y -> represents (cf_div C a b) (fdiv x y) }.

(** the questions on which the crates differ; [None] is a panic *)
Record dialect := Dialect {
  d_wide : Z -> option Fr;         (** an array whose number is not below the modulus *)
  d_sub : bool;                    (** subtraction is there *)
  d_inverse : bool;                (** inversion is there *)
  d_eucl_inverse : bool;           (** so is the other method for it *)
  d_inverse_zero : option Fr;      (** the inverse of zero *)
  d_div_zero : option Fr;          (** a quotient by zero *)
  d_pow_zero : Fr -> option Fr }.  (** the power 0 *)
Definition reduced (n : Z) : option Fr := Some (fr_of n).
Definition blst_dialect := Dialect reduced true true true (Some f0) (Some f0) (fun _ => Some f1).
Definition ckzg_dialect := Dialect reduced false false false None (Some f0) (fun _ => Some f1).
Definition zk_dialect := Dialect reduced true true true None (Some f0) (fun _ => Some f1).
Definition ark_dialect := Dialect (fun _ => Some f0) true true false None None (fun _ => Some f1).
Definition mcl_dialect := Dialect (fun _ => None) true true false (Some f0) (Some f0) Some.
(** a program may rely on none of it *)
Definition strict := Dialect (fun _ => None) false false false None None (fun _ => None).

(** the words of a value: the only four that hold its integer *)
Definition canonical (x : Fr) : list Z := [val x mod 2 ^ 64; val x / 2 ^ 64 mod 2 ^ 64; val x / 2 ^ 128 mod 2 ^ 64; val x / 2 ^ 192].

Section Meaning.
Variable d : dialect.
Definition inverse_of (x : Fr) : option Fr := if feqb x f0 then d_inverse_zero d else Some (finv x).
Definition value_of (xs : list Fr) (c : stmt) : option Fr :=
  let on1 i (f : Fr -> option Fr) := match nth_error xs i with Some x => f x | None => None end in
  let on2 i j (f : Fr -> Fr -> option Fr) := on1 i (fun x => on1 j (f x)) in
  match c with
  | SDefault | SZero => Some f0 | SOne => Some f1
  | SFromArr u => if integer u <? r then Some (fr_of (integer u)) else d_wide d (integer u)
  | SFromU64 v => Some (fr_of v)
  | SSqr i => on1 i (fun x => Some (fmul x x))
  | SMul i j => on2 i j (fun x y => Some (fmul x y))
  | SAdd i j => on2 i j (fun x y => Some (fadd x y))
  | SSub i j => on2 i j (fun x y => if d_sub d then Some (fsub x y) else None)
  | SEuclInverse i => on1 i (fun x => if d_eucl_inverse d then inverse_of x else None)
  | SNegate i => on1 i (fun x => Some (fneg x))
  | SInverse i => on1 i (fun x => if d_inverse d then inverse_of x else None)
  | SPow i n => on1 i (fun x => if n =? 0 then d_pow_zero d x else Some (fpow x (Z.to_nat n)))
  | SDiv i j => on2 i j (fun x y => if feqb y f0 then d_div_zero d else Some (fdiv x y))
  | _ => None
  end.
Definition shown_of (xs : list Fr) (c : stmt) : option shown :=
  match c with
  | SShow i => match nth_error xs i with Some x => Some (ShWords (canonical x)) | None => None end
  | SIsOne i => match nth_error xs i with Some x => Some (ShBool (feqb x f1)) | None => None end
  | SIsZero i => match nth_error xs i with Some x => Some (ShBool (feqb x f0)) | None => None end
  | SEquals i j => match nth_error xs i, nth_error xs j with Some x, Some y => Some (ShBool (feqb x y)) | _, _ => None end
  | _ => None
  end.
Fixpoint meaning (xs : list Fr) (p : list stmt) : option (list Fr * list shown) :=
  match p with
  | [] => Some (xs, [])
  | c :: p =>
    match value_of xs c with
    | Some x => meaning (xs ++ [x]) p
    | None => match shown_of xs c with
      | Some o => match meaning xs p with Some (ys, os) => Some (ys, o :: os) | None => None end
      | None => None end
    end
  end.
End Meaning.

(** the literals have the types that the interface gives them *)
Definition typed (c : stmt) : Prop :=
  match c with SFromArr u => words u | SFromU64 v => 0 <= v < 2 ^ 64 | SPow _ n => 0 <= n < 2 ^ 64 | _ => True end.
(** an execution and a meaning *)
Definition same {T} (stands : T -> Fr -> Prop) (m : res (list T * list shown)) (o : option (list Fr * list shown)) : Prop :=
  match o with
  | Some (xs, os) => exists rs, m = Ok (rs, os) /\ Forall2 stands rs xs
  | None => m = Panic
  end.
(** a program runs to its end and shows [os] *)
Definition shows {T} (I : fr_impl T) (p : list stmt) (os : list shown) : Prop := exists rs, execs I [] p = Ok (rs, os).
