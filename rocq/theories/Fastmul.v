(** * Fastmul: multiplication of integers four bits at a time

    Equal to the multiplication of the standard library; used where numbers of some hundred bits
    are multiplied inside proofs. *)
From Coq Require Import ZArith Lia.

Definition mul4 (a b : positive) : positive :=
  let t2 := xO b in
  let t3 := (t2 + b)%positive in
  let t4 := xO t2 in
  let t5 := (t4 + b)%positive in
  let t6 := xO t3 in
  let t7 := (t6 + b)%positive in
  let t8 := xO t4 in
  let t9 := (t8 + b)%positive in
  let t10 := xO t5 in
  let t11 := (t10 + b)%positive in
  let t12 := xO t6 in
  let t13 := (t12 + b)%positive in
  let t14 := xO t7 in
  let t15 := (t14 + b)%positive in
  (fix go (a : positive) : positive :=
    match a with
    | xH => b
    | xO (xH) => t2
    | xI (xH) => t3
    | xO (xO (xH)) => t4
    | xI (xO (xH)) => t5
    | xO (xI (xH)) => t6
    | xI (xI (xH)) => t7
    | xO (xO (xO (xH))) => t8
    | xI (xO (xO (xH))) => t9
    | xO (xI (xO (xH))) => t10
    | xI (xI (xO (xH))) => t11
    | xO (xO (xI (xH))) => t12
    | xI (xO (xI (xH))) => t13
    | xO (xI (xI (xH))) => t14
    | xI (xI (xI (xH))) => t15
    | xO (xO (xO (xO (a)))) => xO (xO (xO (xO (go a))))
    | xI (xO (xO (xO (a)))) => (b + xO (xO (xO (xO (go a)))))%positive
    | xO (xI (xO (xO (a)))) => (t2 + xO (xO (xO (xO (go a)))))%positive
    | xI (xI (xO (xO (a)))) => (t3 + xO (xO (xO (xO (go a)))))%positive
    | xO (xO (xI (xO (a)))) => (t4 + xO (xO (xO (xO (go a)))))%positive
    | xI (xO (xI (xO (a)))) => (t5 + xO (xO (xO (xO (go a)))))%positive
    | xO (xI (xI (xO (a)))) => (t6 + xO (xO (xO (xO (go a)))))%positive
    | xI (xI (xI (xO (a)))) => (t7 + xO (xO (xO (xO (go a)))))%positive
    | xO (xO (xO (xI (a)))) => (t8 + xO (xO (xO (xO (go a)))))%positive
    | xI (xO (xO (xI (a)))) => (t9 + xO (xO (xO (xO (go a)))))%positive
    | xO (xI (xO (xI (a)))) => (t10 + xO (xO (xO (xO (go a)))))%positive
    | xI (xI (xO (xI (a)))) => (t11 + xO (xO (xO (xO (go a)))))%positive
    | xO (xO (xI (xI (a)))) => (t12 + xO (xO (xO (xO (go a)))))%positive
    | xI (xO (xI (xI (a)))) => (t13 + xO (xO (xO (xO (go a)))))%positive
    | xO (xI (xI (xI (a)))) => (t14 + xO (xO (xO (xO (go a)))))%positive
    | xI (xI (xI (xI (a)))) => (t15 + xO (xO (xO (xO (go a)))))%positive
    end) a.

Lemma mul4_ok : forall a b, mul4 a b = (a * b)%positive.
Proof.
  intros a b. unfold mul4. cbv zeta. revert a. fix IH 1. intros a.
  destruct a as [a|a|]; [destruct a as [a|a|]; [destruct a as [a|a|]; [destruct a as [a|a|]|destruct a as [a|a|]|]
    |destruct a as [a|a|]; [destruct a as [a|a|]|destruct a as [a|a|]|]|]
    |destruct a as [a|a|]; [destruct a as [a|a|]; [destruct a as [a|a|]|destruct a as [a|a|]|]
    |destruct a as [a|a|]; [destruct a as [a|a|]|destruct a as [a|a|]|]|]|];
  try (rewrite IH; clear IH); try clear IH; lia.
Qed.

Definition zmul4 (a b : Z) : Z :=
  match a, b with
  | Z0, _ => Z0 | _, Z0 => Z0
  | Zpos a, Zpos b => Zpos (mul4 a b) | Zpos a, Zneg b => Zneg (mul4 a b)
  | Zneg a, Zpos b => Zneg (mul4 a b) | Zneg a, Zneg b => Zpos (mul4 a b)
  end.
Lemma zmul4_ok a b : zmul4 a b = (a * b)%Z.
Proof. destruct a, b; cbn; rewrite ?mul4_ok; reflexivity. Qed.
