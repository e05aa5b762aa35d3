(** * Model_PrimeField: what zkcrypto's scalar type publishes about its field

    zkcrypto/src/curve/scalar.rs:873-946 and 995-1005.  The crate declares no feature [bits]
    (zkcrypto/Cargo.toml:32-33), so scalar.rs:948-993 is not compiled. *)
From Coq Require Import List Bool ZArith.
From Verif Require Import Base Model_Scalar.
Import ListNotations.
Local Open Scope Z_scope.

(** scalar.rs:277 [MODULUS_BITS], 934-935 [NUM_BITS] and [CAPACITY], 941 [S] *)
Definition MODULUS_BITS : Z := 255.
Definition NUM_BITS : Z := MODULUS_BITS.
Definition CAPACITY : Z := NUM_BITS - 1.
Definition S_const : Z := Z.of_nat S_adicity.
(** scalar.rs:937-939 [multiplicative_generator], 943-945 [root_of_unity] *)
Definition multiplicative_generator : scalar := GENERATOR.
Definition root_of_unity : scalar := ROOT_OF_UNITY.
(** scalar.rs:922-924 [from_repr], 926-928 [to_repr] *)
Definition from_repr (r : list Z) : option scalar := from_bytes r.
Definition to_repr (a : scalar) : list Z := to_bytes a.
(** scalar.rs:930-932 [is_odd] *)
Definition is_odd (a : scalar) : bool := Z.land (nth 0 (to_bytes a) 0) 1 =? 1.
(** scalar.rs:873-883 [From] for an array of bytes *)
Definition into_bytes (a : scalar) : list Z := to_bytes a.
(** scalar.rs:379-384 [default] *)
Definition scalar_default : scalar := zero.
(** scalar.rs:995-1005 [sum] *)
Definition sum (items : list scalar) : scalar := fold_left (fun acc item => add acc item) items zero.
