(** * Spec_KZG: notions used in the statements about commitments and proofs

    [api_setup] says how a settings value came about (by which public calls); [toy_pairing]
    is a concrete pairing used in the examples. *)
From Coq Require Import List Arith Lia ZArith Field.
From Verif Require Import Base Fld Model_FFT Zr ZrTables Model_KZG.
Import ListNotations.

(** [ks] was made by the public constructors: FFT settings of scale [k], a trusted setup of
    [n] elements for the given secret bytes, of which the first [len] are kept; [s] is the
    secret scalar *)
Definition api_setup {P : pairing Fr} (ks : kzg_settings P) (k n len : nat) (s : Fr) : Prop :=
  exists secret fs sg1 sg2,
    fft_settings_new blst_table k = Ok fs /\
    generate_trusted_setup n secret = Ok (sg1, sg2) /\
    kzg_new blst_table sg1 sg2 len fs = Ok ks /\ s = fr_from_scalar secret.

(** the field itself as both groups and target, with multiplication as pairing *)
Section Toy.
Context {K : fld}.
Add Field Kfst : (fld_field K).
Local Open Scope fld_scope.
Definition toy_pairing : pairing K.
Proof.
  refine (mkPairing K (self_mod K) (self_mod K) (self_mod K) (1 : K) (1 : K) (fun a b => (a : K) * b) _ _ _ _ _ _).
  - abstract (intros; cbn; ring).
  - abstract (intros; cbn; ring).
  - abstract (intros; cbn; ring).
  - abstract (intros; cbn; ring).
  - abstract (intros a Ha; cbn in *; transitivity (a * 1); [ring|exact Ha]).
  - abstract (exact f1_neq_0).
Defined.
End Toy.
Arguments toy_pairing : clear implicits.
