(** * Proof_Defaults: proofs for C119 *)
From Coq Require Import List Arith Bool NArith ZArith Lia Ring Field.
From Verif Require Import Base Fld Poly Spec Zr Tables ZrTables Model_Utils Model_FFT Model_Das Proof_Utils Proof_FFT Proof_FFTFr Model_KZG Model_FK20
  Model_Mcl Model_MclPoly Model_MclKZG Proof_Mcl Proof_MclFr Proof_MclPoly Model_Zk Model_ZkMsm Model_ZkKZG Model_ZkFK20 Model_Ark Model_ArkKZG Model_ArkFK20 Model_Defaults Spec_Defaults.
Import ListNotations.

Section Any.
Context {K : fld}.
Add Field Kf : (fld_th K).

Lemma one_wide_of (s : fft_settings K) w : settings_ok s 0 w -> one_wide s.
Proof.
  intros (A & [B _] & C & D & E). change (2 ^ 0) with 1 in *. rewrite fpow_1 in B. rewrite B in *. clear B w. destruct s as [a b c d]. cbn [max_width root_of_unity expanded_roots reverse_roots] in *.
  subst. unfold one_wide. cbn [seq map Nat.sub]. rewrite !fpow_1_l. reflexivity.
Qed.

Lemma pow2_1 : is_pow2 1 = true. Proof. reflexivity. Qed.
Lemma inv_1 : finv (f1 : K) = f1. Proof. field. apply (F_1_neq_0 (fld_th K)). Qed.
Lemma from_int_1 : mcl_from_int (as_i32 1) = (f1 : K).
Proof. change (as_i32 1) with 1%Z. unfold mcl_from_int. cbn. apply fnat_1. Qed.

Lemma fft_one s (data : list K) inverse : one_wide s ->
  (length data = 1 -> fft_fr s data inverse = Ok data /\ mcl_fft s data inverse = Ok data) /\
  (2 <= length data -> fft_fr s data inverse = Err /\ mcl_fft s data inverse = Err).
Proof.
  intros ->. split.
  - destruct data as [|x [|]]; cbn [length]; try discriminate. intros _. split.
    + unfold fft_fr. cbn -[fnat]. destruct inverse; cbn -[fnat]; [|reflexivity]. rewrite fnat_1, inv_1. f_equal. f_equal. ring.
    + change (mcl_inplace_fft (mkFS 1 f1 [f1; f1] [f1; f1]) [x] inverse = Ok [x]). unfold mcl_inplace_fft. cbn -[mcl_from_int as_i32]. destruct inverse; cbn -[mcl_from_int as_i32].
      * rewrite from_int_1, inv_1. f_equal. f_equal. ring.
      * f_equal. f_equal. ring.
  - intros L. unfold fft_fr, mcl_fft. cbn [max_width]. destruct (Nat.ltb_spec 1 (length data)); [auto|lia].
Qed.
Lemma fft_g1_one {M : gmod K} s (data : list M) inverse : one_wide s ->
  (length data = 1 -> fft_g1 s data inverse = Ok data /\ mcl_fft_g1 s data inverse = Ok data) /\
  (2 <= length data -> fft_g1 s data inverse = Err /\ mcl_fft_g1 s data inverse = Err).
Proof.
  intros ->. split.
  - destruct data as [|x [|]]; cbn [length]; try discriminate. intros _. split.
    + unfold fft_g1. cbn -[fnat]. destruct inverse; cbn -[fnat]; [|reflexivity]. rewrite fnat_1, inv_1, smul_1. reflexivity.
    + unfold mcl_fft_g1. cbn -[mcl_from_int as_i32]. destruct inverse; cbn -[mcl_from_int as_i32]; rewrite ?from_int_1, ?inv_1, ?smul_1; reflexivity.
  - intros L. unfold fft_g1, mcl_fft_g1. cbn [max_width]. destruct (Nat.ltb_spec 1 (length data)); [auto|lia].
Qed.
Lemma das_one s (evens : list K) : one_wide s ->
  das_fft_extension s evens = Err /\ mcl_das_fft_extension s evens = Err /\ mcl_trait_das s evens = Panic.
Proof.
  intros ->. assert (E : mcl_das_fft_extension (mkFS 1 f1 [f1; f1] [f1; f1]) evens = Err).
  { unfold mcl_das_fft_extension. destruct (Nat.eqb_spec (length evens) 0) as [|N]; [reflexivity|]. unfold mcl_is_power_of_2.
    destruct (N.eqb_spec (N.of_nat (length evens)) 0); [lia|]. cbn [bind]. destruct (negb _); [reflexivity|]. cbn [max_width]. destruct (Nat.ltb_spec 1 (length evens * 2)); [reflexivity|lia]. }
  split; [|split]; [|exact E|unfold mcl_trait_das; rewrite E; reflexivity].
  unfold das_fft_extension. destruct (Nat.eqb_spec (length evens) 0) as [|N]; [reflexivity|]. destruct (negb _); [reflexivity|].
  cbn [max_width]. destruct (Nat.ltb_spec 1 (length evens * 2)); [reflexivity|lia].
Qed.
Lemma fft_none s W (data : list K) inverse : no_room s -> data <> [] -> zk_fft_fr s data inverse = Err /\ ark_fft_fr W s data inverse = Err.
Proof. intros -> N. destruct data; [congruence|]. split; reflexivity. Qed.
Lemma fft_g1_none {M : gmod K} s (data : list M) inverse : no_room s -> data <> [] -> zk_fft_g1 s data inverse = Err /\ ark_fft_g1 s data inverse = Err.
Proof. intros -> N. destruct data; [congruence|]. split; reflexivity. Qed.
Lemma das_none s (evens : list K) : no_room s -> zk_das_fft_extension s evens = Err /\ ark_das_fft_extension s evens = Err.
Proof.
  intros ->. unfold zk_das_fft_extension, ark_das_fft_extension. destruct evens; [split; reflexivity|]. cbn [length Nat.eqb].
  destruct (negb _); [split; reflexivity|]. split; reflexivity.
Qed.
End Any.

Lemma defaults_made :
  (exists s, blst_fft_default blst_table = Ok s /\ one_wide s) /\
  (forall fuel h, 1 <= fuel -> exists s g, mcl_fft_default fuel mcl_pr5_table (run_calls fuel mcl_pr5_table h globals0) = (Ok s, g) /\ one_wide s /\ g_table g = mcl_pr5_table) /\
  no_room (zk_fft_settings_default (K := Fr)) /\ no_room (ark_settings_default (K := Fr)).
Proof.
  split; [|split; [|split; reflexivity]].
  - destruct (new_ok 0 ltac:(lia)) as (s & E & H). exists s. unfold blst_fft_default. rewrite E. split; [reflexivity|]. eapply one_wide_of, H.
  - intros fuel h L. destruct (fft_settings_new_ok mcl_pr5_table 0) as (s & E & H); [apply mcl_pr5_table_ok|vm_compute; lia|].
    pose proof (proj1 (mcl_new_history fuel h 0) ltac:(lia) ltac:(simpl; lia)) as N. rewrite E in N. cbn [run_call] in N.
    exists s, (init_globals mcl_pr5_table (run_calls fuel mcl_pr5_table h globals0)). split.
    + unfold mcl_fft_default. unfold mcl_new in *. cbv zeta in *. cbn [fst] in N. rewrite N. reflexivity.
    + split; [eapply one_wide_of, H|]. apply init_globals_table, run_calls_consistent, globals0_consistent.
Qed.

Section Kzg.
Context {P : pairing Fr}.
Notation D := (@kzg_default Fr P).

Lemma commit_default (s : fft_settings Fr) (p : list Fr) :
  (p <> [] -> commit_to_poly (D s) p = Err /\ mcl_commit (D s) p = Err /\ zk_commit_to_poly (D s) p = Panic) /\
  (p = [] -> commit_to_poly (D s) p = Ok g0 /\ mcl_commit (D s) p = Ok g0 /\ zk_commit_to_poly (D s) p = Ok g0).
Proof.
  split; intros N.
  - destruct p; [congruence|]. repeat split; reflexivity.
  - subst p. repeat split; reflexivity.
Qed.
Lemma check_single_default fexp (s : fft_settings Fr) (com proof : PG1 P) (x y : Fr) :
  check_proof_single (D s) com proof x y = Panic /\ mcl_check_proof_single fexp (D s) com proof x y = Panic /\ zk_check_proof_single (D s) com proof x y = Panic.
Proof. repeat split; reflexivity. Qed.

Lemma check_multi_default fexp (s : fft_settings Fr) (com proof : PG1 P) (x : Fr) (ys : list Fr) n b :
  check_proof_multi (D s) com proof x ys n <> Ok b /\ mcl_check_proof_multi fexp (D s) com proof x ys n <> Ok b /\ zk_check_proof_multi (D s) com proof x ys n <> Ok b.
Proof.
  assert (I0 : forall k, idx (@nil (PG2 P)) k = Panic) by (intros [|k]; reflexivity).
  split; [|split]; intros H.
  - unfold check_proof_multi in H. destruct (negb _); [discriminate|]. apply bind_inv in H as (l & _ & H). apply bind_inv in H as ([l' z] & _ & H).
    cbn [kzg_default secret_g2] in H. rewrite I0 in H. discriminate.
  - unfold mcl_check_proof_multi in H. apply bind_inv in H as (q & _ & H). destruct (negb _); [discriminate|]. apply bind_inv in H as (l & _ & H). apply bind_inv in H as ([l' z] & _ & H).
    cbn [kzg_default secret_g2] in H. rewrite I0 in H. discriminate.
  - unfold zk_check_proof_multi in H. destruct (negb _); [discriminate|]. apply bind_inv in H as (l & _ & H). apply bind_inv in H as (i & _ & H). apply bind_inv in H as ([l' z] & _ & H). apply bind_inv in H as (j & _ & H).
    cbn [kzg_default secret_g2] in H. rewrite I0 in H. discriminate.
Qed.

(** mcl takes as many terms as there are points *)
Lemma mcl_proof_default (s : fft_settings Fr) (p : list Fr) (x : Fr) : mcl_compute_proof_single (D s) p x = Ok g0.
Proof.
  unfold mcl_compute_proof_single. cbv zeta.
  destruct (mcl_long_division_spec p [fneg x; f1]) as (q & -> & _); [discriminate|exact (F_1_neq_0 (fld_th Fr))|]. reflexivity.
Qed.

Lemma single_new_default table W (s t : fft_settings Fr) (ks : ark_kzg P) n2 : one_wide s -> no_room t -> ak_fs ks = t ->
  fk20_single_new table (D s) n2 = Err /\ zk_fk20_single_new (D t) n2 = Err /\ ark_fk20_single_new W ks n2 = Err /\
  (n2 <> 0 -> mcl_fk20_single_new (D s) n2 = Err).
Proof.
  intros -> -> E. unfold fk20_single_new, zk_fk20_single_new, ark_fk20_single_new, mcl_fk20_single_new. rewrite E. cbn [kzg_default kzg_fs max_width]. cbv zeta.
  destruct n2 as [|[|n2]].
  - repeat split; try reflexivity. congruence.
  - repeat split; reflexivity.
  - set (n := S (S n2)). assert (L : 2 <= n) by (unfold n; lia). clearbody n. destruct (Nat.ltb_spec 1 n); [|lia]. destruct (Nat.ltb_spec 0 n); [|lia].
    repeat split. intros _. unfold mcl_is_power_of_2. destruct (N.eqb_spec (N.of_nat n) 0); [lia|]. cbn [bind]. destruct (negb _); [reflexivity|]. destruct (n <? 2); reflexivity.
Qed.
Lemma multi_new_default table W (s t : fft_settings Fr) (ks : ark_kzg P) n2 chunk_len : one_wide s -> no_room t -> ak_fs ks = t ->
  fk20_multi_new table (D s) n2 chunk_len = Err /\ zk_fk20_multi_new (D t) n2 chunk_len = Err /\ ark_fk20_multi_new W ks n2 chunk_len = Err /\
  (n2 <> 0 -> chunk_len <> 0 -> mcl_fk20_multi_new (D s) n2 chunk_len = Err).
Proof.
  intros -> -> E. unfold fk20_multi_new, zk_fk20_multi_new, ark_fk20_multi_new, mcl_fk20_multi_new. rewrite E. cbn [kzg_default kzg_fs max_width]. cbv zeta.
  assert (MC : chunk_len <> 0 -> n2 <> 0 -> (let* k := (if chunk_len =? 0 then Panic else Ok (n2 / 2 / chunk_len)) in
     let* p2 := mcl_is_power_of_2 (N.of_nat n2) in if negb p2 then Err else let* c2 := mcl_is_power_of_2 (N.of_nat chunk_len) in
     if negb c2 then Err else if n2 <? 2 then Err else if 1 <? n2 then Err else if 1 <? n2 then Err else if n2 / 2 <? chunk_len then Err else
      let* files := for_range 0 chunk_len (fun i files =>
          let* f := unwrap (mcl_x_ext_fft_precompute (mkFS 1 f1 [f1; f1] [f1; f1]) (secret_g1 (D (mkFS 1 f1 [f1; f1] [f1; f1]))) (n2 / 2) k chunk_len i) in
          upd files i f) (repeat [] chunk_len) in
      Ok (mkMFKM files chunk_len (D (mkFS 1 f1 [f1; f1] [f1; f1])))) = Err).
  { intros C N. destruct (Nat.eqb_spec chunk_len 0); [congruence|]. cbn [bind]. unfold mcl_is_power_of_2 at 1. destruct (N.eqb_spec (N.of_nat n2) 0); [lia|]. cbn [bind].
    destruct (negb _); [reflexivity|]. unfold mcl_is_power_of_2. destruct (N.eqb_spec (N.of_nat chunk_len) 0); [lia|]. cbn [bind]. destruct (negb _); [reflexivity|].
    destruct (Nat.ltb_spec n2 2); [reflexivity|]. destruct (Nat.ltb_spec 1 n2); [reflexivity|lia]. }
  split; [|split; [|split; [|intros N C; exact (MC C N)]]].
  - destruct (Nat.ltb_spec 1 n2); [reflexivity|]. destruct (negb _); [reflexivity|]. destruct (Nat.ltb_spec n2 2); [reflexivity|lia].
  - destruct (Nat.ltb_spec 0 n2); [reflexivity|]. destruct (negb _); [reflexivity|]. destruct (Nat.ltb_spec n2 2); [reflexivity|lia].
  - destruct (Nat.ltb_spec 0 n2); [reflexivity|]. destruct (negb _); [reflexivity|]. destruct (Nat.ltb_spec n2 2); [reflexivity|lia].
Qed.

Lemma mcl_pow2_pos n : n <> 0 -> exists b, mcl_is_power_of_2 (N.of_nat n) = Ok b.
Proof. intros N. unfold mcl_is_power_of_2. destruct (N.eqb_spec (N.of_nat n) 0); [lia|]. eauto. Qed.

Lemma single_da_default W (s t : fft_settings Fr) (p : list Fr) : one_wide s -> no_room t -> p <> [] ->
  fk20_single_da (fk20_single_default (P := P) s) p = Err /\ fk20_single_da_opt (fk20_single_default (P := P) s) p = Err /\
  mcl_fk20_single_da (mcl_fk20_single_default (P := P) s) p = Err /\ mcl_fk20_single_da_opt (mcl_fk20_single_default (P := P) s) p = Err /\
  zk_fk20_single_da (fk20_single_default (P := P) t) p = Err /\ zk_fk20_single_da_opt (fk20_single_default (P := P) t) p = Err /\
  ark_fk20_single_da W (fk20_single_default (P := P) t) p = Err /\ ark_fk20_single_da_opt W (fk20_single_default (P := P) t) p = Err.
Proof.
  intros -> -> N. assert (L : 1 <= length p) by (destruct p; [congruence|cbn; lia]).
  unfold fk20_single_da, fk20_single_da_opt, mcl_fk20_single_da, mcl_fk20_single_da_opt, zk_fk20_single_da, zk_fk20_single_da_opt, ark_fk20_single_da, ark_fk20_single_da_opt.
  cbn [fk20_single_default mcl_fk20_single_default fks_kzg mfks_kzg kzg_default kzg_fs max_width]. cbv zeta.
  destruct (Nat.ltb_spec 1 (length p * 2)); [|lia]. destruct (Nat.ltb_spec 0 (length p * 2)); [|lia].
  destruct (mcl_pow2_pos (length p * 2)) as (b & ->); [lia|]. cbn [bind]. destruct b; repeat split.
Qed.
Lemma multi_da_default W (s t : fft_settings Fr) (p : list Fr) : one_wide s -> no_room t -> p <> [] ->
  fk20_multi_da (fk20_multi_default (P := P) s) p = Err /\ fk20_multi_da_opt (fk20_multi_default (P := P) s) p = Err /\
  mcl_fk20_multi_da (mcl_fk20_multi_default (P := P) s) p = Err /\
  (2 <= length p -> mcl_fk20_multi_da_opt (mcl_fk20_multi_default (P := P) s) p = Err) /\
  (length p = 1 -> mcl_fk20_multi_da_opt (mcl_fk20_multi_default (P := P) s) p = Panic) /\
  zk_fk20_multi_da (fk20_multi_default (P := P) t) p = Err /\ zk_fk20_multi_da_opt (fk20_multi_default (P := P) t) p = Err /\
  ark_fk20_multi_da W (ark_fk20_multi_default (P := P) t) p = Err /\ ark_fk20_multi_da_opt W (ark_fk20_multi_default (P := P) t) p = Err.
Proof.
  intros -> -> N. assert (L : 1 <= length p) by (destruct p; [congruence|cbn; lia]).
  unfold fk20_multi_da, fk20_multi_da_opt, mcl_fk20_multi_da, mcl_fk20_multi_da_opt, zk_fk20_multi_da, zk_fk20_multi_da_opt, ark_fk20_multi_da, ark_fk20_multi_da_opt.
  cbn [fk20_multi_default ark_fk20_multi_default mcl_fk20_multi_default fkm_kzg mfkm_kzg mfkm_chunk_len kzg_default kzg_fs max_width]. cbv zeta.
  destruct (Nat.ltb_spec 1 (length p * 2)); [|lia]. destruct (Nat.ltb_spec 0 (length p * 2)); [|lia].
  destruct (mcl_pow2_pos (length p * 2)) as (b & ->); [lia|]. cbn [bind Nat.eqb].
  split; [reflexivity|]. split; [reflexivity|]. split; [destruct b; reflexivity|]. split; [|split; [|repeat split; reflexivity]].
  - intros L2. assert (1 <= length p / 2) by (apply Nat.div_le_lower_bound; lia). destruct (mcl_pow2_pos (length p / 2 * 2)) as (c & ->); [lia|]. cbn [bind].
    destruct c; [|reflexivity]. cbn [negb]. destruct (Nat.ltb_spec 1 (length p / 2 * 2)); [reflexivity|lia].
  - intros ->. reflexivity.
Qed.
End Kzg.

(** ** accessors *)
Lemma accessors_ok (table : list Fr) k s : table_ok table -> fft_settings_new table k = Ok s ->
  get_max_width s = 2 ^ k /\ length (get_expanded_roots_of_unity s) = S (2 ^ k) /\ get_reversed_roots_of_unity s = rev (get_expanded_roots_of_unity s) /\
  exists w, primitive w (2 ^ k) /\
    forall i, (i <= 2 ^ k -> get_expanded_roots_of_unity_at s i = Ok (fpow w i) /\ get_reverse_roots_of_unity_at s (2 ^ k - i) = Ok (fpow w i)) /\
              (2 ^ k < i -> get_expanded_roots_of_unity_at s i = Panic /\ get_reverse_roots_of_unity_at s i = Panic).
Proof.
  intros T E. destruct (Nat.lt_ge_cases k (length table)) as [L|L]; [|rewrite fft_settings_new_err in E by exact L; discriminate].
  assert (RV : reverse_roots s = rev (expanded_roots s)).
  { unfold fft_settings_new in E. destruct (_ <=? _); [discriminate|]. apply bind_inv in E as (w & _ & E). apply bind_inv in E as (l & _ & E). injection E as <-. reflexivity. }
  destruct (fft_settings_new_ok table k T L) as (s' & E' & A & B & C & X & R). assert (s' = s) by congruence. subst s'.
  unfold get_max_width, get_expanded_roots_of_unity, get_reversed_roots_of_unity, get_expanded_roots_of_unity_at, get_reverse_roots_of_unity_at.
  split; [exact A|]. split; [rewrite X, map_length, seq_length; reflexivity|]. split; [exact RV|]. exists (nth k table f0). split; [exact B|]. intros i. split; intros Hi.
  - rewrite X, R. unfold idx. rewrite !nth_error_map, !(nth_error_nth' _ 0) by (rewrite seq_length; lia). rewrite !seq_nth by lia. cbn [option_map Nat.add].
    replace (2 ^ k - (2 ^ k - i)) with i by lia. split; reflexivity.
  - unfold idx. rewrite X, R, !(proj2 (nth_error_None _ _)) by (rewrite map_length, seq_length; lia). split; reflexivity.
Qed.
