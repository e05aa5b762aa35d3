(** * Property C70: multi-scalar multiplication of the zkcrypto backend

    [M] is an arbitrary module over the scalar field (the group G1, say). *)
From Coq Require Import List Arith ZArith NArith.
From Verif Require Import Base Fld Zr Model_Scalar Spec_Scalar Model_ZkMsm Proof_ZkMsmFr.
Import ListNotations.

(** ** C70: the bucket method computes the sum of the scalar multiples, surplus entries of
    the longer list being ignored *)
Theorem C70_msm : forall (M : gmod Fr) (points : list M) (scalars : list Fr),
  (N.of_nat (length scalars) < 2 ^ 64)%N ->
  msm_fr points scalars =
  Ok (gsum (Nat.min (length scalars) (length points)) (fun i => smul (nth i scalars f0) (nth i points g0))).
Proof. exact @msm_fr_spec. Qed.
Print Assumptions C70_msm.
(** the same for scalars held as Montgomery limbs, with the limb operations of the Scalar type *)
Theorem C70_msm_limbs : forall (M : gmod Fr) (points : list M) (scalars : list scalar) (xs : list Fr),
  Forall2 represents scalars xs -> (N.of_nat (length scalars) < 2 ^ 64)%N ->
  msm_limbs points scalars =
  Ok (gsum (Nat.min (length xs) (length points)) (fun i => smul (nth i xs f0) (nth i points g0))).
Proof. exact @msm_limbs_spec. Qed.
Print Assumptions C70_msm_limbs.

(** window 3 (fewer than 32 scalars), a scalar with many windows, a one and a zero, and a surplus point *)
Example C70_ex :
  match msm_fr (M := self_mod Fr) [fr_of 3; fr_of 10; fr_of 7; fr_of 1; fr_of 1000] [fr_of 5; fr_of 1; fr_of 0; fr_of (2 ^ 200 + 77)] with
  | Ok v => val v = (15 + 10 + 2 ^ 200 + 77)%Z
  | _ => False end.
Proof. vm_compute. reflexivity. Qed.
