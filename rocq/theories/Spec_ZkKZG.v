(** * Spec_ZkKZG: how a settings value of the zkcrypto backend came about *)
From Coq Require Import List Arith ZArith.
From Verif Require Import Base Fld Model_FFT Zr ZrTables Model_KZG Model_Zk Model_ZkKZG.
Import ListNotations.

(** [ks] was made by the public constructors: FFT settings of scale [k] and a trusted setup
    of [n] elements for secret bytes that encode the scalar [s] *)
Definition zk_setup {P : pairing Fr} (ks : kzg_settings P) (k n : nat) (s : Fr) : Prop :=
  exists secret fs sg1 sg2 len,
    zk_fft_settings_new zk_table k = Ok fs /\
    zk_generate_trusted_setup n secret = Ok (sg1, sg2) /\
    zk_kzg_new sg1 sg2 len fs = Ok ks /\ s = fr_of (le_value secret).

(** [p] without trailing zero coefficients is [p'], and something is left *)
Definition trimmed (p p' : list Fr) : Prop := (exists z, p = p' ++ repeat f0 z) /\ last p' f0 <> f0.
