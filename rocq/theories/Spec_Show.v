(** * Spec_Show: reading numbers in base sixteen *)
From Coq Require Import Ascii String List Bool ZArith.
From Verif Require Import Fld Zp Power Tower Ext.
Import ListNotations.
Local Open Scope list_scope.
Local Open Scope Z_scope.

(** 0-9 and a-f *)
Definition digit_value (c : ascii) : option Z :=
  let n := Z.of_nat (nat_of_ascii c) in
  if (48 <=? n) && (n <=? 57) then Some (n - 48) else if (97 <=? n) && (n <=? 102) then Some (n - 87) else None.
Fixpoint number (acc : Z) (t : list ascii) : option Z :=
  match t with
  | [] => Some acc
  | c :: t => match digit_value c with Some d => number (16 * acc + d) t | None => None end
  end.
(** the text is 0x and [k] digits of the number [n] *)
Definition writes (k : nat) (n : Z) (t : list ascii) : Prop :=
  exists ds, t = list_ascii_of_string "0x" ++ ds /\ length ds = k /\ number 0 ds = Some n.
(** the texts of elements of the extension fields: the coefficients in order, with their basis elements *)
Definition writes2 (x : Fp2) (t : list ascii) : Prop := exists t0 t1,
  writes 96 (pval (q0 x)) t0 /\ writes 96 (pval (q1 x)) t1 /\
  t = t0 ++ list_ascii_of_string " + " ++ t1 ++ list_ascii_of_string "*u".
Definition writes6 (x : Fp6) (t : list ascii) : Prop := exists t0 t1 t2,
  writes2 (k0 x) t0 /\ writes2 (k1 x) t1 /\ writes2 (k2 x) t2 /\
  t = t0 ++ list_ascii_of_string " + (" ++ t1 ++ list_ascii_of_string ")*v + (" ++ t2 ++ list_ascii_of_string ")*v^2".
Definition writes12 (x : Fp12) (t : list ascii) : Prop := exists t0 t1,
  writes6 (q0 x) t0 /\ writes6 (q1 x) t1 /\
  t = t0 ++ list_ascii_of_string " + (" ++ t1 ++ list_ascii_of_string ")*w".
