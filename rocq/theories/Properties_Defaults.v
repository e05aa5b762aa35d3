(** * Property C119: settings made by [default()], and the accessors of settings *)
From Coq Require Import List Arith Bool NArith ZArith.
From Verif Require Import Base Fld Poly Spec Zr Tables ZrTables Model_FFT Model_Das Model_KZG Model_FK20
  Model_Mcl Model_MclKZG Model_Zk Model_ZkKZG Model_ZkFK20 Model_Ark Model_ArkKZG Model_ArkFK20 Model_Defaults Spec_Defaults Proof_Defaults.
Import ListNotations.

(** the transform settings; in mcl after any history of constructor calls, and the table of roots is then the one of root 5 *)
Theorem C119_made :
  (exists s, blst_fft_default blst_table = Ok s /\ one_wide s) /\
  (forall fuel h, 1 <= fuel -> exists s g, mcl_fft_default fuel mcl_pr5_table (run_calls fuel mcl_pr5_table h globals0) = (Ok s, g) /\ one_wide s /\ g_table g = mcl_pr5_table) /\
  no_room (zk_fft_settings_default (K := Fr)) /\ no_room (ark_settings_default (K := Fr)).
Proof. exact defaults_made. Qed.
Print Assumptions C119_made.

(** transforms: one value stays as it is, more are refused; zkcrypto and Arkworks refuse one value as well *)
Theorem C119_transforms : forall (s t : fft_settings Fr) W (data : list Fr) inverse, one_wide s -> no_room t ->
  (length data = 1 -> fft_fr s data inverse = Ok data /\ mcl_fft s data inverse = Ok data) /\
  (2 <= length data -> fft_fr s data inverse = Err /\ mcl_fft s data inverse = Err) /\
  (data <> [] -> zk_fft_fr t data inverse = Err /\ ark_fft_fr W t data inverse = Err).
Proof. exact (fun s t W data inverse H G => conj (proj1 (fft_one s data inverse H)) (conj (proj2 (fft_one s data inverse H)) (fft_none t W data inverse G))). Qed.
Print Assumptions C119_transforms.
Theorem C119_transforms_g1 : forall (M : gmod Fr) (s t : fft_settings Fr) (data : list M) inverse, one_wide s -> no_room t ->
  (length data = 1 -> fft_g1 s data inverse = Ok data /\ mcl_fft_g1 s data inverse = Ok data) /\
  (2 <= length data -> fft_g1 s data inverse = Err /\ mcl_fft_g1 s data inverse = Err) /\
  (data <> [] -> zk_fft_g1 t data inverse = Err /\ ark_fft_g1 t data inverse = Err).
Proof. exact (fun M s t data inverse H G => conj (proj1 (fft_g1_one s data inverse H)) (conj (proj2 (fft_g1_one s data inverse H)) (fft_g1_none t data inverse G))). Qed.
Print Assumptions C119_transforms_g1.
(** extension: nothing is extended; the method of mcl's trait panics *)
Theorem C119_extension : forall (s t : fft_settings Fr) evens, one_wide s -> no_room t ->
  (das_fft_extension s evens = Err /\ mcl_das_fft_extension s evens = Err /\ mcl_trait_das s evens = Panic) /\
  zk_das_fft_extension t evens = Err /\ ark_das_fft_extension t evens = Err.
Proof. exact (fun s t evens H G => conj (das_one s evens H) (das_none t evens G)). Qed.
Print Assumptions C119_extension.

(** commitments: only to the empty polynomial *)
Theorem C119_commit : forall (P : pairing Fr) (s : fft_settings Fr) (p : list Fr), let ks := kzg_default (P := P) s in
  (p <> [] -> commit_to_poly ks p = Err /\ mcl_commit ks p = Err /\ zk_commit_to_poly ks p = Panic) /\
  (p = [] -> commit_to_poly ks p = Ok g0 /\ mcl_commit ks p = Ok g0 /\ zk_commit_to_poly ks p = Ok g0).
Proof. exact @commit_default. Qed.
Print Assumptions C119_commit.
(** checks: no verdict is ever given *)
Theorem C119_check : forall (P : pairing Fr) fexp (s : fft_settings Fr) (com proof : PG1 P) (x y : Fr) ys n b, let ks := kzg_default (P := P) s in
  (check_proof_single ks com proof x y = Panic /\ mcl_check_proof_single fexp ks com proof x y = Panic /\ zk_check_proof_single ks com proof x y = Panic) /\
  check_proof_multi ks com proof x ys n <> Ok b /\ mcl_check_proof_multi fexp ks com proof x ys n <> Ok b /\ zk_check_proof_multi ks com proof x ys n <> Ok b.
Proof. exact (fun P fexp s com proof x y ys n b => conj (check_single_default fexp s com proof x y) (check_multi_default fexp s com proof x ys n b)). Qed.
Print Assumptions C119_check.
(** mcl gives a proof without any setup, for every polynomial and point: the identity *)
Theorem C119_mcl_proof_refuted : forall (P : pairing Fr) (s : fft_settings Fr) (p : list Fr) (x : Fr),
  mcl_compute_proof_single (kzg_default (P := P) s) p x = Ok g0.
Proof. exact @mcl_proof_default. Qed.
Print Assumptions C119_mcl_proof_refuted.

(** no FK20 settings can be made from default settings *)
Theorem C119_fk20_new : forall (P : pairing Fr) table W (s t : fft_settings Fr) (ks : ark_kzg P) n2 chunk_len, one_wide s -> no_room t -> ak_fs ks = t ->
  (fk20_single_new table (kzg_default (P := P) s) n2 = Err /\ zk_fk20_single_new (kzg_default (P := P) t) n2 = Err /\ ark_fk20_single_new W ks n2 = Err /\
   (n2 <> 0 -> mcl_fk20_single_new (kzg_default (P := P) s) n2 = Err)) /\
  fk20_multi_new table (kzg_default (P := P) s) n2 chunk_len = Err /\ zk_fk20_multi_new (kzg_default (P := P) t) n2 chunk_len = Err /\ ark_fk20_multi_new W ks n2 chunk_len = Err /\
  (n2 <> 0 -> chunk_len <> 0 -> mcl_fk20_multi_new (kzg_default (P := P) s) n2 chunk_len = Err).
Proof. exact (fun P table W s t ks n2 c H G E => conj (single_new_default table W s t ks n2 H G E) (multi_new_default table W s t ks n2 c H G E)). Qed.
Print Assumptions C119_fk20_new.
(** default FK20 settings refuse every polynomial that is not empty *)
Theorem C119_fk20_single : forall (P : pairing Fr) W (s t : fft_settings Fr) (p : list Fr), one_wide s -> no_room t -> p <> [] ->
  fk20_single_da (fk20_single_default (P := P) s) p = Err /\ fk20_single_da_opt (fk20_single_default (P := P) s) p = Err /\
  mcl_fk20_single_da (mcl_fk20_single_default (P := P) s) p = Err /\ mcl_fk20_single_da_opt (mcl_fk20_single_default (P := P) s) p = Err /\
  zk_fk20_single_da (fk20_single_default (P := P) t) p = Err /\ zk_fk20_single_da_opt (fk20_single_default (P := P) t) p = Err /\
  ark_fk20_single_da W (fk20_single_default (P := P) t) p = Err /\ ark_fk20_single_da_opt W (fk20_single_default (P := P) t) p = Err.
Proof. exact @single_da_default. Qed.
Print Assumptions C119_fk20_single.
(** the optimised method of mcl takes an extended polynomial, and panics on a single coefficient *)
Theorem C119_fk20_multi : forall (P : pairing Fr) W (s t : fft_settings Fr) (p : list Fr), one_wide s -> no_room t -> p <> [] ->
  fk20_multi_da (fk20_multi_default (P := P) s) p = Err /\ fk20_multi_da_opt (fk20_multi_default (P := P) s) p = Err /\
  mcl_fk20_multi_da (mcl_fk20_multi_default (P := P) s) p = Err /\
  (2 <= length p -> mcl_fk20_multi_da_opt (mcl_fk20_multi_default (P := P) s) p = Err) /\
  (length p = 1 -> mcl_fk20_multi_da_opt (mcl_fk20_multi_default (P := P) s) p = Panic) /\
  zk_fk20_multi_da (fk20_multi_default (P := P) t) p = Err /\ zk_fk20_multi_da_opt (fk20_multi_default (P := P) t) p = Err /\
  ark_fk20_multi_da W (ark_fk20_multi_default (P := P) t) p = Err /\ ark_fk20_multi_da_opt W (ark_fk20_multi_default (P := P) t) p = Err.
Proof. exact @multi_da_default. Qed.
Print Assumptions C119_fk20_multi.

(** the accessors of settings made by [new]: both ends of the circle can be read, and nothing past them *)
Theorem C119_accessors : forall (table : list Fr) k s, table_ok table -> fft_settings_new table k = Ok s ->
  get_max_width s = 2 ^ k /\ length (get_expanded_roots_of_unity s) = S (2 ^ k) /\ get_reversed_roots_of_unity s = rev (get_expanded_roots_of_unity s) /\
  exists w, primitive w (2 ^ k) /\
    forall i, (i <= 2 ^ k -> get_expanded_roots_of_unity_at s i = Ok (fpow w i) /\ get_reverse_roots_of_unity_at s (2 ^ k - i) = Ok (fpow w i)) /\
              (2 ^ k < i -> get_expanded_roots_of_unity_at s i = Panic /\ get_reverse_roots_of_unity_at s i = Panic).
Proof. exact accessors_ok. Qed.
Print Assumptions C119_accessors.

(** with mcl's default settings, the polynomial 3 + 4 x + 5 x^2 has a proof at 7 and no commitment, and the proof cannot be checked *)
Example C119_ex : forall (P : pairing Fr) fexp, exists s g, mcl_fft_default 1 mcl_pr5_table (run_calls 1 mcl_pr5_table [CCustom (map Some mcl_pr7_table) 3] globals0) = (Ok s, g) /\
  let ks := kzg_default (P := P) s in let p := [fnat 3; fnat 4; fnat 5] in
  mcl_compute_proof_single ks p (fnat 7) = Ok g0 /\ mcl_commit ks p = Err /\ mcl_check_proof_single fexp ks gen1 g0 (fnat 7) (fnat 276) = Panic /\
  mcl_fft s [fnat 9] true = Ok [fnat 9].
Proof.
  intros P fexp. destruct (proj1 (proj2 C119_made) 1 [CCustom (map Some mcl_pr7_table) 3] (le_n 1)) as (s & g & E & H & _). exists s, g. split; [exact E|].
  split; [apply C119_mcl_proof_refuted|]. split; [reflexivity|]. split; [reflexivity|]. exact (proj2 (proj1 (fft_one s [fnat 9] true H) eq_refl)).
Qed.
Example C119_accessors_ex : exists s, fft_settings_new blst_table 5 = Ok s /\ get_expanded_roots_of_unity_at s 32 = Ok f1 /\ get_reverse_roots_of_unity_at s 33 = Panic.
Proof.
  destruct (Proof_FFTFr.new_ok 5 ltac:(repeat constructor)) as (s & E & _). exists s. split; [exact E|].
  destruct (C119_accessors blst_table 5 s blst_table_ok E) as (_ & _ & _ & w & [W _] & H). rewrite <- W. split; [exact (proj1 (proj1 (H 32) (le_n 32)))|exact (proj2 (proj2 (H 33) (le_n 33)))].
Qed.
