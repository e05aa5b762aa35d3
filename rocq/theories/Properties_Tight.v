(** * Properties_Tight: padding and division of the zkcrypto backend (C66), constructors of the
    mcl backend running at once (C46) *)
From Coq Require Import List Arith Bool NArith ZArith Field_theory.
From Verif Require Import Base Fld Poly Zr ZrTables Model_FFT Spec Model_Zk Model_Mcl Spec_Mcl Spec_MclCalls Proof_Tight.
Import ListNotations.

(** padding: [pad] and [pad_] truncate, [pad_poly] refuses to *)
Theorem C66_zk_pad : forall (p : list Fr) (n : nat),
  zk_pad p n = Ok (map (fun i => nth i p f0) (seq 0 n)) /\ zk_pad_ p n = Ok (map (fun i => nth i p f0) (seq 0 n)) /\
  (length p <= n -> zk_pad_poly p n = Ok (p ++ repeat f0 (n - length p))) /\ (n < length p -> zk_pad_poly p n = Err).
Proof. exact (@pad_poly_spec Fr). Qed.
Print Assumptions C66_zk_pad.
Example C66_zk_pad_ex : forall a b : Fr, zk_pad_poly [a; b] 2 = Ok [a; b] /\ zk_pad_poly [a; b] 1 = Err /\ zk_pad_poly [a] 3 = Ok [a; f0; f0].
Proof. exact (fun a b => conj eq_refl (conj eq_refl eq_refl)). Qed.

(** the inverse of zero panics, division by zero returns zero *)
Theorem C66_zk_division : forall (x y : Fr),
  (y <> f0 -> zkf_inverse y = Ok (finv y) /\ exists q, zkf_div x y = Ok q /\ fmul q y = x) /\
  (y = f0 -> zkf_inverse y = Panic /\ zkf_div x y = Ok f0).
Proof. exact (@field_division Fr). Qed.
Print Assumptions C66_zk_division.
Example C66_zk_division_ex : (f1 : Fr) <> f0.
Proof. exact (F_1_neq_0 (fld_th Fr)). Qed.

(** whatever the interleaving, every call ends and is given the root of some table of the calls *)
Theorem C46_concurrent_mixed : forall (pr5 : list Fr) calls sched ts g,
  run_threads pr5 sched (map call_thread calls) globals0 = (ts, g) ->
  forall i c, nth_error calls i = Some c ->
    (forall r, nth_error ts i = Some (Finished r) -> exists t, is_table pr5 calls t /\ (r = idx t (snd c) \/ (length t <= snd c /\ r = Err))) /\
    (5 <= count_occ Nat.eq_dec sched i -> exists r, nth_error ts i = Some (Finished r)).
Proof. exact (@threads_mixed Fr). Qed.
Print Assumptions C46_concurrent_mixed.

(** and the table assigned last decides, for both kinds of calls *)
Theorem C46_concurrent_last_refuted : forall (pr5 table : list Fr) k j,
  (forall s, In s [[0; 0; 1; 0; 0; 0; 1; 1; 1]; [0; 0; 0; 1; 0; 0; 1; 1; 1]; [0; 0; 0; 0; 1; 0; 1; 1; 1]; [0; 0; 0; 1; 1; 1; 1; 0; 0]] ->
     fst (run_threads pr5 s [new_thread k; custom_thread table j] globals0) =
     [Finished (idx table k); Finished (if length table <=? j then Err else idx table j)]) /\
  (forall s, In s [[0; 1; 0; 0; 0; 0; 1; 1; 1]; [0; 1; 1; 0; 0; 0; 0; 1; 1]; [0; 1; 1; 1; 0; 0; 0; 0; 1]] ->
     fst (run_threads pr5 s [new_thread k; custom_thread table j] globals0) =
     [Finished (idx pr5 k); Finished (if length pr5 <=? j then Err else idx pr5 j)]).
Proof. exact (@last_table Fr). Qed.
Print Assumptions C46_concurrent_last_refuted.
Example C46_mixed_ex : forall pr5 table : list Fr,
  fst (run_threads pr5 [0; 0; 1; 0; 0; 0; 1; 1; 1] (map call_thread [(None, 3); (Some table, 3)]) globals0) =
  [Finished (idx table 3); Finished (if length table <=? 3 then Err else idx table 3)].
Proof. exact (fun pr5 table => eq_refl). Qed.
