(** * Spec_MclKZG: how a settings value of the mcl backend came about *)
From Coq Require Import List Arith ZArith.
From Verif Require Import Base Fld Model_FFT Zr Model_KZG Model_Mcl Spec_Mcl Model_MclKZG.
Import ListNotations.

(** [ks] was made by the public constructors: FFT settings of effective scale [k] and root
    [w], a trusted setup of [n] elements for some secret bytes, of which the first [len] are
    kept; [s] is the secret scalar *)
Definition mcl_setup {P : pairing Fr} (ks : kzg_settings P) (k : nat) (w : Fr) (n len : nat) (s : Fr) : Prop :=
  exists secret fs sg1 sg2,
    mcl_made fs k w /\
    mcl_generate_trusted_setup n secret = Ok (sg1, sg2) /\
    mcl_kzg_new sg1 sg2 len fs = Ok ks /\ mcl_from_scalar secret = Ok s.

(** value of four 64-bit words, least significant first *)
Definition words_value (u : list Z) : Z :=
  fold_right (fun a acc => a + 2 ^ 64 * acc)%Z 0%Z u.

(** the 32 bytes read as four big-endian words, the least significant word first *)
Definition mixed_value (bs : list Z) : Z :=
  fold_right (fun i acc => (nth (8 * i + 7) bs 0 + 256 * (nth (8 * i + 6) bs 0 + 256 * (nth (8 * i + 5) bs 0 + 256 * (nth (8 * i + 4) bs 0
    + 256 * (nth (8 * i + 3) bs 0 + 256 * (nth (8 * i + 2) bs 0 + 256 * (nth (8 * i + 1) bs 0 + 256 * nth (8 * i) bs 0))))))) + 2 ^ 64 * acc)%Z
    0%Z [0; 1; 2; 3].
