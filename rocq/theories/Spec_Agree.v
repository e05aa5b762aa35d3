(** * Spec_Agree: what it means that the four backends written in Rust agree *)
From Coq Require Import List Arith ZArith NArith.
From Verif Require Import Base Fld Poly Model_FFT Zr ZrTables Spec Proof_FFTFr.
From Verif Require Import Model_KZG Spec_KZG Model_Zk Model_ZkKZG Spec_ZkKZG Model_Ark Spec_Ark Model_ArkKZG Spec_ArkKZG Model_Mcl Spec_Mcl Model_MclKZG Spec_MclKZG.
Import ListNotations.

(** all results are the value [v] *)
Definition all_give {A} (v : A) (rs : list (res A)) : Prop := Forall (fun x => x = Ok v) rs.
(** all results are one value *)
Definition agree {A} (rs : list (res A)) : Prop := exists v, all_give v rs.

(** the results are one value, which is also the last one when [same] holds *)
Definition agree_when {A} (rs : list (res A)) (same : Prop) (r : res A) : Prop := exists v, all_give v rs /\ (same -> r = Ok v).

(** settings for transforms of scale [k], made by the constructor of each backend, in the order
    blst, zkcrypto, Arkworks, mcl; [w] is the root of the last *)
Definition transforms (W : Fr) (k : nat) (w : Fr) (sb sz sa sm : fft_settings Fr) : Prop :=
  fft_settings_new blst_table k = Ok sb /\ zk_fft_settings_new zk_table k = Ok sz /\ ark_settings_new W k = Ok sa /\ mcl_made sm k w.

(** settings for proofs made by the constructors of each backend, which hold the powers of the same
    secret [s], at least [N] of them, over transforms of scale [k]; [w] is the root of mcl *)
Definition setups {P : pairing Fr} (L : ark_lib P) (k : nat) (w : Fr) (N : nat) (s : Fr)
  (kb kz : kzg_settings P) (ka : ark_kzg P) (km : kzg_settings P) : Prop :=
  (exists n len, api_setup kb k n len s /\ N <= len) /\
  (exists n, zk_setup kz k n s /\ N <= n) /\
  (exists u, ark_made L ka k u s /\ N <= ark_powers u) /\
  (exists n len, mcl_setup km k w n len s /\ N <= len).

(** some coefficient is not zero *)
Definition nonzero (p : list Fr) : Prop := exists i, coef p i <> f0.

(** [g] is the multiple of the generator by the value at [s] of the quotient of [p] by
    [X^c - x^c] *)
Definition opening {P : pairing Fr} (p : list Fr) (x : Fr) (c : nat) (s : Fr) (g : PG1 P) : Prop :=
  exists q, euclid p ([fneg (fpow x c)] ++ repeat f0 (c - 1) ++ [f1]) q /\ g = smul (peval q s) gen1.
