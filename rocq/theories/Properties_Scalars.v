(** * Properties_Scalars: the scalar trait in the five crates (C115)

    A program ([stmt], Model_Scalars.v) makes values with the methods of the trait and shows some of them.
    [meaning d] (Spec_Scalars.v) is what it shows by arithmetic modulo r, [d] answering the questions on
    which the crates differ; [strict] answers none of them.  [represents] (Spec_Scalar.v) and [stored]
    (Spec_ArkScalar.v) relate words to field elements. *)
From Coq Require Import List Bool ZArith.
From Verif Require Import Base Fld Zr Model_Scalar Spec_Scalar Spec_ArkScalar Model_ArkScalar Spec_Cofactor Model_Scalars Spec_Scalars Proof_Scalars.
Import ListNotations.
Local Open Scope Z_scope.

(** ** every program, in every crate: the values, what is shown, and the panics *)
Theorem C115_blst : forall B p,
  blst_lib_ok B -> Forall typed p -> same represents (execs (blst_fr B) [] p) (meaning blst_dialect [] p).
Proof. exact @blst_programs. Qed.
Print Assumptions C115_blst.
Theorem C115_ckzg : forall C p,
  ckzg_fr_lib_ok C -> Forall typed p -> same represents (execs (ckzg_fr C) [] p) (meaning ckzg_dialect [] p).
Proof. exact @ckzg_programs. Qed.
Print Assumptions C115_ckzg.
Theorem C115_zkcrypto : forall p,
  Forall typed p -> same represents (execs zk_fr [] p) (meaning zk_dialect [] p).
Proof. exact @zk_programs. Qed.
Print Assumptions C115_zkcrypto.
Theorem C115_arkworks : forall p,
  Forall typed p -> same stored (execs ark_fr [] p) (meaning ark_dialect [] p).
Proof. exact @ark_programs. Qed.
Print Assumptions C115_arkworks.
Theorem C115_mcl : forall p,
  Forall typed p -> same eq (execs mcl_fr [] p) (meaning mcl_dialect [] p).
Proof. exact @mcl_programs. Qed.
Print Assumptions C115_mcl.
(** programs that rely on none of the differences show the same everywhere *)
Theorem C115_portable : forall B C p xs os,
  blst_lib_ok B -> ckzg_fr_lib_ok C -> Forall typed p -> meaning strict [] p = Some (xs, os) ->
  shows (blst_fr B) p os /\ shows (ckzg_fr C) p os /\ shows zk_fr p os /\ shows ark_fr p os /\ shows mcl_fr p os.
Proof. exact @portable_programs. Qed.
Print Assumptions C115_portable.
Example C115_ex : blst_lib_ok ex_blst /\ ckzg_fr_lib_ok ex_ckzg /\ Forall typed ex_program /\
  exists xs, meaning strict [] ex_program = Some (xs, [ShBool true; ShWords [5; 0; 0; 0]; ShWords [125; 0; 0; 0]; ShBool false; ShWords [25; 0; 0; 0]]).
Proof. exact (conj (proj1 ex_libs) (conj (proj2 ex_libs) ex_program_ok)). Qed.

(** ** the differences *)
(** four words that are not below r: reduced, replaced by zero, or a panic *)
Theorem C115_wide_refuted : forall B C u,
  blst_lib_ok B -> ckzg_fr_lib_ok C -> words u -> r <= integer u ->
  let p := [SFromArr u; SShow 0] in
  shows (blst_fr B) p [ShWords (canonical (fr_of (integer u)))] /\ shows (ckzg_fr C) p [ShWords (canonical (fr_of (integer u)))] /\
  shows zk_fr p [ShWords (canonical (fr_of (integer u)))] /\ shows ark_fr p [ShWords [0; 0; 0; 0]] /\ execs mcl_fr [] p = Panic.
Proof. exact @wide_words. Qed.
Print Assumptions C115_wide_refuted.
(** ckzg has no subtraction *)
Theorem C115_sub_refuted : forall B C v,
  blst_lib_ok B -> ckzg_fr_lib_ok C -> 0 <= v < 2 ^ 64 ->
  let p := [SFromU64 v; SSub 0 0; SShow 1] in
  shows (blst_fr B) p [ShWords [0; 0; 0; 0]] /\ shows zk_fr p [ShWords [0; 0; 0; 0]] /\ shows ark_fr p [ShWords [0; 0; 0; 0]] /\ shows mcl_fr p [ShWords [0; 0; 0; 0]] /\
  execs (ckzg_fr C) [] p = Panic.
Proof. exact @subtraction. Qed.
Print Assumptions C115_sub_refuted.
(** nor inversion *)
Theorem C115_inverse_refuted : forall B C v,
  blst_lib_ok B -> ckzg_fr_lib_ok C -> 0 < v < 2 ^ 64 ->
  let p := [SFromU64 v; SInverse 0; SMul 0 1; SShow 2] in
  shows (blst_fr B) p [ShWords [1; 0; 0; 0]] /\ shows zk_fr p [ShWords [1; 0; 0; 0]] /\ shows ark_fr p [ShWords [1; 0; 0; 0]] /\ shows mcl_fr p [ShWords [1; 0; 0; 0]] /\
  execs (ckzg_fr C) [] p = Panic.
Proof. exact @inverses. Qed.
Print Assumptions C115_inverse_refuted.
(** three crates lack the other method *)
Theorem C115_eucl_inverse_refuted : forall B C v,
  blst_lib_ok B -> ckzg_fr_lib_ok C -> 0 < v < 2 ^ 64 ->
  let p := [SFromU64 v; SEuclInverse 0; SMul 0 1; SShow 2] in
  shows (blst_fr B) p [ShWords [1; 0; 0; 0]] /\ shows zk_fr p [ShWords [1; 0; 0; 0]] /\
  execs ark_fr [] p = Panic /\ execs mcl_fr [] p = Panic /\ execs (ckzg_fr C) [] p = Panic.
Proof. exact @eucl_inverses. Qed.
Print Assumptions C115_eucl_inverse_refuted.
(** inverse of zero and division by zero *)
Theorem C115_zero_refuted : forall B C,
  blst_lib_ok B -> ckzg_fr_lib_ok C ->
  let p := [SZero; SInverse 0; SShow 1] in let q := [SOne; SZero; SDiv 0 1; SShow 2] in
  (shows (blst_fr B) p [ShWords [0; 0; 0; 0]] /\ shows mcl_fr p [ShWords [0; 0; 0; 0]] /\ execs zk_fr [] p = Panic /\ execs ark_fr [] p = Panic) /\
  (shows (blst_fr B) q [ShWords [0; 0; 0; 0]] /\ shows (ckzg_fr C) q [ShWords [0; 0; 0; 0]] /\ shows zk_fr q [ShWords [0; 0; 0; 0]] /\ shows mcl_fr q [ShWords [0; 0; 0; 0]] /\
   execs ark_fr [] q = Panic).
Proof. exact @zero_inverse. Qed.
Print Assumptions C115_zero_refuted.
(** the power 0 in mcl *)
Theorem C115_pow_zero_refuted : forall B C v,
  blst_lib_ok B -> ckzg_fr_lib_ok C -> 0 <= v < 2 ^ 64 ->
  let p := [SFromU64 v; SPow 0 0; SShow 1] in
  shows (blst_fr B) p [ShWords [1; 0; 0; 0]] /\ shows (ckzg_fr C) p [ShWords [1; 0; 0; 0]] /\ shows zk_fr p [ShWords [1; 0; 0; 0]] /\ shows ark_fr p [ShWords [1; 0; 0; 0]] /\
  shows mcl_fr p [ShWords [v; 0; 0; 0]].
Proof. exact @zero_power. Qed.
Print Assumptions C115_pow_zero_refuted.

(** ** null and random scalars *)
(** blst's null is an ordinary scalar *)
Theorem C115_null_refuted : forall B a (x : Fr),
  blst_lib_ok B -> represents a x -> (blst_is_null B a = true <-> val x = (2 ^ 256 - 1) mod r).
Proof. exact @null_blst. Qed.
Print Assumptions C115_null_refuted.
(** that callers can also make from its words *)
Theorem C115_null_made_refuted : forall B,
  blst_lib_ok B -> blst_is_null B (blst_from_arr B (canonical (fr_of (2 ^ 256 - 1)))) = true.
Proof. exact @null_blst_value. Qed.
Print Assumptions C115_null_made_refuted.
(** ckzg's null is no scalar *)
Theorem C115_null_ckzg : forall (x : Fr),
  ~ represents ckzg_null x.
Proof. exact @null_ckzg. Qed.
Print Assumptions C115_null_ckzg.
(** three or two arrays of words for each value *)
Theorem C115_rand : forall B C (x : Fr),
  blst_lib_ok B -> ckzg_fr_lib_ok C ->
  counted (if val x <? 2 ^ 256 - 2 * r then 3 else 2) (fun u => words u /\ represents (blst_rand B u) x) /\
  counted (if val x <? 2 ^ 256 - 2 * r then 3 else 2) (fun u => words u /\ represents (ckzg_rand C u) x).
Proof. exact @rand_even. Qed.
Print Assumptions C115_rand.
Example C115_rand_ex : 0 < 2 ^ 256 - 2 * r < r - 1 /\ words [2 ^ 64 - 1; 2 ^ 64 - 1; 2 ^ 64 - 1; 2 ^ 64 - 1] /\
  r <= integer [2 ^ 64 - 1; 2 ^ 64 - 1; 2 ^ 64 - 1; 2 ^ 64 - 1] /\ canonical (fr_of 7) = [7; 0; 0; 0].
Proof. exact rand_case. Qed.
