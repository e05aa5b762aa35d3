(** * Property C121: the sum of scalar multiples from signed digits in zkcrypto

    [M] is an arbitrary module over the scalar field (the group G1, say). *)
From Coq Require Import List Arith ZArith NArith.
From Verif Require Import Base Fld Zr Model_ZkMsm Proof_ZkMsmFr Model_Pippenger Proof_Pippenger.
Import ListNotations.

(** the digits lie between -2^(w-1) and 2^(w-1)-1 and represent the scalar; those beyond the announced number are zero *)
Theorem C121_digits : forall (x : Fr) w, 6 <= w <= 8 -> exists ds dc, to_radix_2w x w = Ok ds /\ to_radix_2w_size_hint w = Ok dc /\
  length ds = 43 /\ dc <= 43 /\ (forall d, In d ds -> - 2 ^ (Z.of_nat w - 1) <= d < 2 ^ (Z.of_nat w - 1))%Z /\
  (forall i, dc <= i -> nth i ds 0%Z = 0%Z) /\
  val x = fold_right Z.add 0%Z (map (fun i => (nth i ds 0 * 2 ^ Z.of_nat (i * w))%Z) (seq 0 dc)).
Proof. exact digits_spec. Qed.
Print Assumptions C121_digits.
(** whatever length the iterator over the scalars announces; surplus entries of the longer list are ignored *)
Theorem C121_sum : forall (M : gmod Fr) size (points : list M) (scalars : list Fr), pippenger size points scalars =
  Ok (gsum (Nat.min (length scalars) (length points)) (fun i => smul (nth i scalars f0) (nth i points g0))).
Proof. exact @pippenger_spec. Qed.
Print Assumptions C121_sum.
(** the two methods of the file agree *)
Theorem C121_agree : forall (M : gmod Fr) size (points : list M) (scalars : list Fr), (N.of_nat (length scalars) < 2 ^ 64)%N ->
  pippenger size points scalars = msm_fr points scalars.
Proof. exact (fun M size points scalars H => eq_trans (pippenger_spec size points scalars) (eq_sym (msm_fr_spec points scalars H))). Qed.
Print Assumptions C121_agree.
Theorem C121_doublings : forall (M : gmod Fr) (p : M) k, mul_by_pow_2 p k = if k =? 0 then Panic else Ok (smul (fr_of (2 ^ Z.of_nat k)) p).
Proof. exact mul_pow_all. Qed.
Print Assumptions C121_doublings.

(** all three widths; the digits of 2^250 - 1 in base 2^8 start with -1 and carry up to 2^250 *)
Example C121_ex :
  match pippenger (M := self_mod Fr) 4 [fr_of 3; fr_of 10; fr_of 7] [fr_of 5; fr_of (r - 1); fr_of (2 ^ 250 - 1); fr_of 1],
        pippenger (M := self_mod Fr) 500 [fr_of 3; fr_of 10; fr_of 7] [fr_of 5; fr_of (r - 1); fr_of (2 ^ 250 - 1); fr_of 1],
        pippenger (M := self_mod Fr) 800 [fr_of 3; fr_of 10; fr_of 7] [fr_of 5; fr_of (r - 1); fr_of (2 ^ 250 - 1); fr_of 1],
        to_radix_2w (fr_of (2 ^ 250 - 1)) 8 with
  | Ok a, Ok b, Ok c, Ok ds =>
    let v := ((15 - 10 + 7 * (2 ^ 250 - 1)) mod r)%Z in
    val a = v /\ val b = v /\ val c = v /\ ds = (-1)%Z :: repeat 0%Z 30 ++ [4%Z] ++ repeat 0%Z 11
  | _, _, _, _ => False end.
Proof. vm_compute. auto. Qed.
