(** * Spec_Mcl: specification-level notions for the mcl backend *)
From Coq Require Import List Arith NArith.
From Verif Require Import Base Fld Zr ZrTables Model_FFT Model_Mcl.
Import ListNotations.

(** settings produced by one of the mcl constructors on the embedded tables, after any
    history of calls; [k] is the effective scale and [w] the embedded root *)
Definition mcl_made (s : fft_settings Fr) (k : nat) (w : Fr) : Prop :=
  (exists fuel (h : list (call Fr)),
     fst (mcl_new fuel mcl_pr5_table k (run_calls fuel mcl_pr5_table h globals0)) = Ok s /\
     w = nth k mcl_pr5_table f0) \/
  (exists fuel g scale, fst (mcl_trait_new fuel mcl_pr7_table scale g) = Ok s /\
     k = as_u8 scale /\ w = nth k mcl_pr7_table f0).

(** optional settings: when present, built by a constructor and able to transform [n] values *)
Definition opt_made (ft : option (fft_settings Fr)) (n : nat) : Prop :=
  match ft with None => True | Some s => (exists k w, mcl_made s k w) /\ n <= max_width s end.
