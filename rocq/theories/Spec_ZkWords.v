(** * Spec_ZkWords: how a settings value of the zkcrypto backend, in machine words, came about *)
From Coq Require Import List Arith ZArith NArith.
From Verif Require Import Base Fld Zr ZrTables Model_FFT Model_Zk Model_Scalar Spec_Scalar Spec_Curve Spec_G1 Model_ZkWords.
Import ListNotations.

(** [ks] was made by the public constructors from 32 secret bytes that encode the scalar [s],
    in a build with or without overflow checks, and no power of the secret that multiplies the
    generator is one of the scalars for which that multiplication goes wrong (property C87);
    [n] is a [usize] *)
Definition zkw_setup (checked : bool) (ks : zkw_settings) (k n : nat) (s : Fr) : Prop :=
  exists secret fs sg1 sg2,
    (N.of_nat n < 2 ^ 64)%N /\ is_bytes 32 secret /\ zk_fft_settings_new zk_table k = Ok fs /\
    zkw_generate_trusted_setup checked n secret = Ok (sg1, sg2) /\
    ks = zkw_new sg1 sg2 fs /\ s = fr_of (bytes_val secret) /\
    forall i, i < n -> ~ rounding_carries (val (fpow s i)).
