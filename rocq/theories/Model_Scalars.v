(** * Model_Scalars: the scalar trait of the interface in the five crates, and programs that use it

    kzg/src/lib.rs:1-47 [Fr].  A value of the trait is four words in the blst, ckzg and zkcrypto
    crates ([scalar]), the stored limbs in Arkworks (Model_ArkScalar.v), and an element of the
    field in mcl, whose words the crate never reads.  What blst and c-kzg compute is a parameter;
    zkcrypto's arithmetic is Model_Scalar.v. *)
From Coq Require Import List Bool ZArith.
From Verif Require Import Base Fld Zr Model_Scalar Model_Mcl Model_MclKZG Model_Ark Model_ArkScalar.
Import ListNotations.
Local Open Scope Z_scope.

(** kzg/src/lib.rs:1-47: the methods that do not draw and are not about the null value *)
Record fr_impl (T : Type) := FrImpl {
  fi_default : T; fi_zero : T; fi_one : T;
  fi_from_arr : list Z -> res T; fi_from_u64 : Z -> res T; fi_to_arr : T -> list Z;
  fi_is_one : T -> bool; fi_is_zero : T -> bool;
  fi_sqr : T -> T; fi_mul : T -> T -> T; fi_add : T -> T -> T; fi_sub : T -> T -> res T;
  fi_eucl_inverse : T -> res T; fi_negate : T -> T; fi_inverse : T -> res T;
  fi_pow : T -> Z -> res T; fi_div : T -> T -> res T; fi_equals : T -> T -> bool }.
Arguments FrImpl {T}. Arguments fi_default {T}. Arguments fi_zero {T}. Arguments fi_one {T}. Arguments fi_from_arr {T}.
Arguments fi_from_u64 {T}. Arguments fi_to_arr {T}. Arguments fi_is_one {T}. Arguments fi_is_zero {T}. Arguments fi_sqr {T}.
Arguments fi_mul {T}. Arguments fi_add {T}. Arguments fi_sub {T}. Arguments fi_eucl_inverse {T}. Arguments fi_negate {T}.
Arguments fi_inverse {T}. Arguments fi_pow {T}. Arguments fi_div {T}. Arguments fi_equals {T}.

(** ** blst-from-scratch/src/types/fr.rs *)
(** the functions of the blst library that the crate calls *)
Record blst_lib := BlstLib {
  bl_from_uint64 : list Z -> scalar; bl_uint64_from : scalar -> list Z;
  bl_sqr : scalar -> scalar; bl_mul : scalar -> scalar -> scalar; bl_add : scalar -> scalar -> scalar; bl_sub : scalar -> scalar -> scalar;
  bl_eucl_inverse : scalar -> scalar; bl_cneg : scalar -> bool -> scalar; bl_inverse : scalar -> scalar }.
Section Blst.
Variable B : blst_lib.
(** types/fr.rs:43-50 [from_u64_arr], :52-54 [from_u64], :11-13 [default], :19-25 [zero] and [one] *)
Definition blst_from_arr (u : list Z) : scalar := bl_from_uint64 B u.
Definition blst_from_u64 (v : Z) : scalar := blst_from_arr [v; 0; 0; 0].
Definition blst_default : scalar := Scalar 0 0 0 0.
Definition blst_zero : scalar := blst_from_u64 0.
Definition blst_one : scalar := blst_from_u64 1.
(** types/fr.rs:15-17 [null] *)
Definition blst_null : scalar := blst_from_arr [2 ^ 64 - 1; 2 ^ 64 - 1; 2 ^ 64 - 1; 2 ^ 64 - 1].
(** types/fr.rs:27-41 [rand]: [w] are the four words drawn *)
Definition blst_rand (w : list Z) : scalar := bl_from_uint64 B w.
(** types/fr.rs:65-72 [is_one], :74-81 [is_zero] *)
Definition blst_is_one (a : scalar) : bool :=
  let val := bl_uint64_from B a in (nth 0 val 0 =? 1) && (nth 1 val 0 =? 0) && (nth 2 val 0 =? 0) && (nth 3 val 0 =? 0).
Definition blst_is_zero (a : scalar) : bool :=
  let val := bl_uint64_from B a in (nth 0 val 0 =? 0) && (nth 1 val 0 =? 0) && (nth 2 val 0 =? 0) && (nth 3 val 0 =? 0).
(** types/fr.rs:176-186 [equals], :83-85 [is_null] *)
Definition blst_equals (a b : scalar) : bool :=
  let val_a := bl_uint64_from B a in let val_b := bl_uint64_from B b in
  (nth 0 val_a 0 =? nth 0 val_b 0) && (nth 1 val_a 0 =? nth 1 val_b 0) && (nth 2 val_a 0 =? nth 2 val_b 0) && (nth 3 val_a 0 =? nth 3 val_b 0).
Definition blst_is_null (a : scalar) : bool := blst_equals a blst_null.
(** types/fr.rs:149-167 [pow] *)
Fixpoint blst_pow_loop (fuel : nat) (n : Z) (temp out : scalar) : res scalar :=
  match fuel with
  | O => NoFuel
  | S f =>
    let out := if Z.land n 1 =? 1 then bl_mul B out temp else out in
    let n := shr n 1 in
    if n =? 0 then Ok out else blst_pow_loop f n (bl_sqr B temp) out
  end.
Definition blst_pow (a : scalar) (n : Z) : res scalar := blst_pow_loop 64 n a blst_one.
(** types/fr.rs:169-174 [div] *)
Definition blst_div (a b : scalar) : scalar := bl_mul B a (bl_eucl_inverse B b).
(** types/fr.rs:10-187; [negate] is :131-138 *)
Definition blst_fr : fr_impl scalar := {|
  fi_default := blst_default; fi_zero := blst_zero; fi_one := blst_one;
  fi_from_arr := fun u => Ok (blst_from_arr u); fi_from_u64 := fun v => Ok (blst_from_u64 v); fi_to_arr := bl_uint64_from B;
  fi_is_one := blst_is_one; fi_is_zero := blst_is_zero;
  fi_sqr := bl_sqr B; fi_mul := bl_mul B; fi_add := bl_add B; fi_sub := fun a b => Ok (bl_sub B a b);
  fi_eucl_inverse := fun a => Ok (bl_eucl_inverse B a); fi_negate := fun a => bl_cneg B a true; fi_inverse := fun a => Ok (bl_inverse B a);
  fi_pow := blst_pow; fi_div := fun a b => Ok (blst_div a b); fi_equals := blst_equals |}.
End Blst.

(** ** ckzg/src/finite.rs *)
(** the functions of c-kzg, finite.rs:5-42 *)
Record ckzg_fr_lib := CkzgFrLib {
  cf_from_uint64s : list Z -> scalar; cf_from_uint64 : Z -> scalar; cf_to_uint64s : scalar -> list Z;
  cf_is_one : scalar -> bool; cf_is_zero : scalar -> bool; cf_equal : scalar -> scalar -> bool;
  cf_sqr : scalar -> scalar; cf_mul : scalar -> scalar -> scalar; cf_add : scalar -> scalar -> scalar;
  cf_negate : scalar -> scalar; cf_pow : scalar -> Z -> scalar; cf_div : scalar -> scalar -> scalar }.
(** finite.rs:51-53 [null] *)
Definition ckzg_null : scalar := Scalar (2 ^ 64 - 1) (2 ^ 64 - 1) (2 ^ 64 - 1) (2 ^ 64 - 1).
(** finite.rs:63-76 [rand] *)
Definition ckzg_rand (C : ckzg_fr_lib) (w : list Z) : scalar := cf_from_uint64s C w.
(** finite.rs:46-185; [sub] (:144-146), [eucl_inverse] (:148-150) and [inverse] (:160-162) are [todo!()] *)
Definition ckzg_fr (C : ckzg_fr_lib) : fr_impl scalar := {|
  fi_default := Scalar 0 0 0 0; fi_zero := cf_from_uint64 C 0; fi_one := cf_from_uint64 C 1;
  fi_from_arr := fun u => Ok (cf_from_uint64s C u); fi_from_u64 := fun v => Ok (cf_from_uint64 C v); fi_to_arr := cf_to_uint64s C;
  fi_is_one := cf_is_one C; fi_is_zero := cf_is_zero C;
  fi_sqr := cf_sqr C; fi_mul := cf_mul C; fi_add := cf_add C; fi_sub := fun _ _ => Panic;
  fi_eucl_inverse := fun _ => Panic; fi_negate := cf_negate C; fi_inverse := fun _ => Panic;
  fi_pow := fun a n => Ok (cf_pow C a n); fi_div := fun a b => Ok (cf_div C a b); fi_equals := cf_equal C |}.

(** ** zkcrypto/src/zkfr.rs:16-169 *)
(** zkfr.rs:50-53 [from_u64_arr]; the argument is an array of four words *)
Definition zk_from_arr (u : list Z) : res scalar := match u with [a; b; c; d] => Ok (from_raw a b c d) | _ => Panic end.
Definition zk_fr : fr_impl scalar := {|
  fi_default := zero; fi_zero := zero; fi_one := one;
  fi_from_arr := zk_from_arr; fi_from_u64 := fun v => Ok (from_u64 v); fi_to_arr := to_u64_arr;
  fi_is_one := is_one; fi_is_zero := is_zero;
  fi_sqr := square; fi_mul := mul; fi_add := add; fi_sub := fun a b => Ok (sub a b);
  fi_eucl_inverse := zk_inverse; fi_negate := neg; fi_inverse := zk_inverse;
  fi_pow := zk_pow; fi_div := zk_div; fi_equals := ct_eq |}.

(** ** Arkworks/src/kzg_types.rs:152-255 *)
(** the operators of [ark_ff] act on the element that the limbs are converted to, :213-250 *)
Definition ark_op1 (f : Fr -> Fr) (a : list Z) : list Z := pc_fr_into_blst_fr (f (blst_fr_into_pc_fr a)).
Definition ark_op2 (f : Fr -> Fr -> Fr) (a b : list Z) : list Z := pc_fr_into_blst_fr (f (blst_fr_into_pc_fr a) (blst_fr_into_pc_fr b)).
Definition ark_fr : fr_impl (list Z) := {|
  fi_default := fs_default; fi_zero := fs_zero; fi_one := fs_one;
  fi_from_arr := fun u => Ok (fs_from_u64_arr u); fi_from_u64 := fun v => Ok (fs_from_u64 v); fi_to_arr := fs_to_u64_arr;
  fi_is_one := fs_is_one; fi_is_zero := fs_is_zero;
  fi_sqr := ark_op1 (fun x => fmul x x); fi_mul := ark_op2 fmul; fi_add := ark_op2 fadd; fi_sub := fun a b => Ok (ark_op2 fsub a b);
  fi_eucl_inverse := fun _ => Panic; fi_negate := ark_op1 fneg;
  fi_inverse := fun a => let* x := ark_inverse (blst_fr_into_pc_fr a) in Ok (pc_fr_into_blst_fr x);
  fi_pow := fun a n => Ok (ark_op1 (fun x => fpow x (Z.to_nat n)) a);
  fi_div := fun a b => let* x := ark_fr_div (blst_fr_into_pc_fr a) (blst_fr_into_pc_fr b) in Ok (pc_fr_into_blst_fr x);
  fi_equals := fs_equals |}.

(** ** mcl-kzg/kzg/src/trait_implementations/fr.rs:4-104 *)
(** mcl divides by multiplying with its inverse, which is zero for zero; [inverse] (:97-99) is the method of the type *)
Definition mcl_fr : fr_impl Fr := {|
  fi_default := f0; fi_zero := f0; fi_one := mcl_from_int 1;
  fi_from_arr := mcl_from_u64_arr; fi_from_u64 := mcl_from_u64; fi_to_arr := mcl_to_u64_arr;
  fi_is_one := fun x => feqb x f1; fi_is_zero := fun x => feqb x f0;
  fi_sqr := fun x => fmul x x; fi_mul := fmul; fi_add := fadd; fi_sub := fun x y => Ok (fsub x y);
  fi_eucl_inverse := fun _ => Panic; fi_negate := fneg; fi_inverse := fun x => Ok (finv x);
  fi_pow := fun x n => mcl_fr_pow x (Z.to_nat n); fi_div := fun x y => Ok (fdiv x y); fi_equals := feqb |}.

(** ** programs *)
(** a statement makes a new value from earlier ones, or shows something about them *)
Inductive stmt :=
| SDefault | SZero | SOne | SFromArr (u : list Z) | SFromU64 (v : Z)
| SSqr (i : nat) | SMul (i j : nat) | SAdd (i j : nat) | SSub (i j : nat) | SEuclInverse (i : nat) | SNegate (i : nat)
| SInverse (i : nat) | SPow (i : nat) (n : Z) | SDiv (i j : nat)
| SShow (i : nat) | SIsOne (i : nat) | SIsZero (i : nat) | SEquals (i j : nat).
(** what a statement shows: the words of [to_u64_arr], or a truth value *)
Inductive shown := ShWords (l : list Z) | ShBool (b : bool).

Section Run.
Context {T : Type} (I : fr_impl T).
Definition new (rs : list T) (a : T) : res (list T * list shown) := Ok (rs ++ [a], []).
Definition show (rs : list T) (o : shown) : res (list T * list shown) := Ok (rs, [o]).
Definition exec (rs : list T) (c : stmt) : res (list T * list shown) :=
  match c with
  | SDefault => new rs (fi_default I) | SZero => new rs (fi_zero I) | SOne => new rs (fi_one I)
  | SFromArr u => let* a := fi_from_arr I u in new rs a
  | SFromU64 v => let* a := fi_from_u64 I v in new rs a
  | SSqr i => let* a := idx rs i in new rs (fi_sqr I a)
  | SMul i j => let* a := idx rs i in let* b := idx rs j in new rs (fi_mul I a b)
  | SAdd i j => let* a := idx rs i in let* b := idx rs j in new rs (fi_add I a b)
  | SSub i j => let* a := idx rs i in let* b := idx rs j in let* c := fi_sub I a b in new rs c
  | SEuclInverse i => let* a := idx rs i in let* b := fi_eucl_inverse I a in new rs b
  | SNegate i => let* a := idx rs i in new rs (fi_negate I a)
  | SInverse i => let* a := idx rs i in let* b := fi_inverse I a in new rs b
  | SPow i n => let* a := idx rs i in let* b := fi_pow I a n in new rs b
  | SDiv i j => let* a := idx rs i in let* b := idx rs j in let* c := fi_div I a b in new rs c
  | SShow i => let* a := idx rs i in show rs (ShWords (fi_to_arr I a))
  | SIsOne i => let* a := idx rs i in show rs (ShBool (fi_is_one I a))
  | SIsZero i => let* a := idx rs i in show rs (ShBool (fi_is_zero I a))
  | SEquals i j => let* a := idx rs i in let* b := idx rs j in show rs (ShBool (fi_equals I a b))
  end.
Fixpoint execs (rs : list T) (p : list stmt) : res (list T * list shown) :=
  match p with
  | [] => Ok (rs, [])
  | c :: p => let* (rs, o) := exec rs c in let* (rs, os) := execs rs p in Ok (rs, o ++ os)
  end.
End Run.
