(** * Proof_Rest: short methods that only call another one, and default values *)
From Coq Require Import List Arith ZArith Lia.
From Verif Require Import Base Fld Poly Zr ZrTables Spec Model_Scalar Spec_Scalar Model_Poly Proof_PolyFr Model_PrimeField
  Model_KZG Model_MclCurve Model_MclZero Proof_Scalar2.
Import ListNotations.

Lemma poly_mul_fft_spec (a b : list Fr) (len : nat) :
  a <> [] -> b <> [] -> fits (length a + length b - 1) ->
  exists c, poly_mul_fft blst_table a b len = Ok c /\ length c = len /\
    forall k, k < len -> nth_error c k = Some (convol a b k).
Proof.
  intros Ha Hb F. unfold poly_mul_fft.
  destruct (C15_proof b a len Hb Ha) as (c & E & L & H); [now rewrite (Nat.add_comm (length b))|].
  exists c. repeat split; auto. intros k Hk. now rewrite (H k Hk), (convol_comm a b).
Qed.

Lemma curve_default_spec {K : fld} {P : pairing K} (s : K) :
  curve_new s 0 = Ok (curve_default (P := P)) /\ forall sg1 sg2, curve_new2 sg1 sg2 0 = Ok (curve_default (P := P)).
Proof. split; intros; reflexivity. Qed.

Lemma unwrap_default_spec {K : fld} (values : list (option K)) :
  length (mcl_unwrap_default values) = length values /\
  forall i, (forall v, nth_error values i = Some (Some v) -> nth_error (mcl_unwrap_default values) i = Some v) /\
            (nth_error values i = Some None -> nth_error (mcl_unwrap_default values) i = Some f0).
Proof.
  unfold mcl_unwrap_default. split; [apply map_length|]. intros i.
  split; [intros v H|intros H]; now rewrite nth_error_map, H.
Qed.

Lemma scalar_default_spec : represents scalar_default f0.
Proof. apply represents_rep. exact rep_zero. Qed.
