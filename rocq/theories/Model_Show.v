(** * Model_Show: the text that zkcrypto prints for elements of its fields

    A text is a list of characters; writing to the formatter does not fail. *)
From Coq Require Import Ascii String List Bool ZArith.
From Verif Require Import Base Model_Scalar Model_Fp Model_Fp2 Model_Fp12.
Import ListNotations.
Local Open Scope list_scope.
Local Open Scope Z_scope.

Definition text := list ascii.
Definition lit (s : string) : text := list_ascii_of_string s.
(** [{:02x}] for a byte: two digits *)
Definition hex_digit (d : Z) : ascii := ascii_of_nat (Z.to_nat (if d <? 10 then 48 + d else 87 + d)).
Definition hex_byte (b : Z) : text := [hex_digit (b / 16); hex_digit (b mod 16)].
(** zkcrypto/src/curve/scalar.rs:204-213 [Debug], 215-219 [Display] *)
Definition scalar_debug (a : scalar) : text := lit "0x" ++ flat_map hex_byte (rev (to_bytes a)).
Definition scalar_display (a : scalar) : text := scalar_debug a.
(** zkcrypto/src/curve/fp.rs:197-206 *)
Definition fp_debug (a : fp) : text := lit "0x" ++ flat_map hex_byte (fp_to_bytes a).
(** zkcrypto/src/curve/fp2.rs:200-204 *)
Definition fp2_debug (a : fp2) : text :=
  let '(FP2 c0 c1) := a in fp_debug c0 ++ lit " + " ++ fp_debug c1 ++ lit "*u".
(** zkcrypto/src/curve/fp6.rs:245-249 *)
Definition fp6_debug (a : fp6) : text :=
  let '(FP6 c0 c1 c2) := a in fp2_debug c0 ++ lit " + (" ++ fp2_debug c1 ++ lit ")*v + (" ++ fp2_debug c2 ++ lit ")*v^2".
(** zkcrypto/src/curve/fp12.rs:252-256 *)
Definition fp12_debug (a : fp12) : text :=
  let '(FP12 c0 c1) := a in fp6_debug c0 ++ lit " + (" ++ fp6_debug c1 ++ lit ")*w".
