(** * Properties_ZkWords: commitments and proofs of the zkcrypto backend on machine words

    [zkw_setup checked ks k n s] (Spec_ZkWords.v): [ks] is what the program builds from a secret of
    32 bytes standing for [s], with [n] points of each group and transforms of scale [k], none of
    the powers of [s] making the rounding of the scalar multiplication carry (C87).
    [checked] is the build: with or without overflow checks. *)
From Coq Require Import ZArith NArith List Bool Arith.
From Verif Require Import Base Fld Zr Zp Poly Spec Spec_More Spec_Scalar Model_Scalar Spec_Fp Spec_Curve Model_Fp Model_Curve Model_Fp2 Model_Fp12 Model_G1 Model_G2 Model_Pair Spec_CurveCode Power Tower Ext Spec_Ext Spec_G1 Spec_G2 Spec_Pair Model_FFT Model_Poly Model_KZG Model_Zk Model_ZkKZG Spec_KZG Spec_ZkKZG Proof_FFTFr Proof_ZkFr ZrTables Proof_Poly2 Model_ZkWords Spec_ZkWords Proof_Concrete Proof_ZkWords Proof_ZkWordsTop.
Import ListNotations.
Local Open Scope nat_scope.

(** ** C103: the point types of the interface *)
Theorem C103_g1 : g1_stands zkw_g1_identity Infinity /\ g1_stands zkw_g1_generator g1_gen /\ g1_stands zkw_g1_negative_generator (point_neg g1_gen) /\
  forall a b A B, g1_stands a A -> g1_stands b B ->
    g1_stands (zkw_g1_add_or_dbl a b) (point_add A B) /\ g1_stands (zkw_g1_dbl a) (point_add A A) /\
    g1_stands (zkw_g1_sub a b) (point_add A (point_neg B)) /\ (zkw_g1_equals a b = true <-> A = B) /\ (zkw_g1_is_inf a = true <-> A = Infinity).
Proof. exact @words_g1_methods. Qed.
Print Assumptions C103_g1.
Theorem C103_g2 : g2_stands zkw_g2_generator g2_gen /\ g2_stands zkw_g2_negative_generator (point_neg g2_gen) /\
  forall a b A B, g2_stands a A -> g2_stands b B ->
    g2_stands (zkw_g2_add_or_dbl a b) (point_add A B) /\ g2_stands (zkw_g2_dbl a) (point_add A A) /\
    g2_stands (zkw_g2_sub a b) (point_add A (point_neg B)) /\ (zkw_g2_equals a b = true <-> A = B).
Proof. exact @words_g2_methods. Qed.
Print Assumptions C103_g2.
Example C103_ex : g1_stands zkw_g1_generator g1_gen /\ g2_stands zkw_g2_generator g2_gen.
Proof. exact (conj (proj1 (proj2 words_g1_methods)) (proj1 words_g2_methods)). Qed.

(** ** C104: commitments and opening proofs *)
(** the two lists hold the multiples of the generators by the powers of the secret *)
Theorem C104_setup : forall checked n secret s,
  is_bytes 32 secret -> s = fr_of (bytes_val secret) ->
  ((r <= bytes_val secret)%Z -> zkw_generate_trusted_setup checked n secret = Panic) /\
  ((bytes_val secret < r)%Z ->
    ((forall i, i < n -> ~ rounding_carries (val (fpow s i))) ->
      exists g1s g2s, zkw_generate_trusted_setup checked n secret = Ok (g1s, g2s) /\ length g1s = n /\ length g2s = n /\
        forall i, i < n -> (exists q, nth_error g1s i = Some q /\ g1_stands q (point_zmul (val (fpow s i)) g1_gen)) /\
                           (exists q, nth_error g2s i = Some q /\ g2_stands q (point_zmul (val (fpow s i)) g2_gen))) /\
    (forall i, i < n -> rounding_carries (val (fpow s i)) -> zkw_generate_trusted_setup true n secret = Panic)).
Proof. exact @words_setup. Qed.
Print Assumptions C104_setup.
(** without overflow checks there is a secret for which the first list is wrong and the second right *)
Theorem C104_setup_refuted : exists secret s g1s g2s q, is_bytes 32 secret /\ (bytes_val secret < r)%Z /\ s = fr_of (bytes_val secret) /\
  zkw_generate_trusted_setup false 2 secret = Ok (g1s, g2s) /\ nth_error g1s 1 = Some q /\ ~ g1_stands q (point_zmul (val s) g1_gen) /\
  exists q', nth_error g2s 1 = Some q' /\ g2_stands q' (point_zmul (val s) g2_gen).
Proof. exact @words_setup_refuted. Qed.
Print Assumptions C104_setup_refuted.
Theorem C104_commit : forall checked ks k n s ps (p : list Fr),
  zkw_setup checked ks k n s -> Forall2 represents ps p ->
  (length p <= n -> exists c, zkw_commit_to_poly ks ps = Ok c /\ g1_stands c (point_zmul (val (peval p s)) g1_gen)) /\
  (n < length p -> zkw_commit_to_poly ks ps = Panic).
Proof. exact @words_commit. Qed.
Print Assumptions C104_commit.
(** any points of the first curve; on the subgroup the equation holds between points *)
Theorem C104_single : forall checked ks k n s com proof A B xs ys x y,
  zkw_setup checked ks k n s ->
  g1_stands com A -> g1_stands proof B -> represents xs x -> represents ys y -> ~ rounding_carries (val y) ->
  (2 <= n -> exists b, zkw_check_proof_single checked ks com proof xs ys = Ok b /\
     (b = true <-> pairing_value (point_add A (point_neg (point_zmul (val y) g1_gen))) g2_gen = pairing_value B (point_zmul (val (fsub s x)) g2_gen)) /\
     (g1_subgroup A -> g1_subgroup B -> (b = true <-> point_add A (point_neg (point_zmul (val y) g1_gen)) = point_zmul (val (fsub s x)) B))) /\
  (n < 2 -> zkw_check_proof_single checked ks com proof xs ys = Panic).
Proof. exact @words_single_acceptance. Qed.
Print Assumptions C104_single.
Theorem C104_single_proofs : forall checked ks k n s ps (p : list Fr) x,
  zkw_setup checked ks k n s -> Forall2 represents ps p ->
  fits (2 * length p) -> length p <= n -> 2 <= n -> (exists i, coef p i <> f0) ->
  exists com proof, zkw_commit_to_poly ks ps = Ok com /\ zkw_compute_proof_single zk_table ks p x = Ok proof /\
    forall xs ys y, represents xs x -> represents ys y -> ~ rounding_carries (val y) ->
      zkw_check_proof_single checked ks com proof xs ys = Ok (feqb y (peval p x)).
Proof. exact @words_single_proofs. Qed.
Print Assumptions C104_single_proofs.
Theorem C104_multi : forall checked ks k n s m com proof A B x (ys I : list Fr),
  zkw_setup checked ks k n s -> m <= k -> length ys = 2 ^ m -> 2 ^ m < n ->
  x <> f0 -> length I <= 2 ^ m -> (forall i, i < 2 ^ m -> peval I (fmul x (fpow (root m) i)) = nth i ys f0) ->
  g1_stands com A -> g1_stands proof B -> g1_subgroup A -> g1_subgroup B ->
  exists b, zkw_check_proof_multi ks com proof x ys (2 ^ m) = Ok b /\
    (b = true <-> point_add A (point_neg (point_zmul (val (peval I s)) g1_gen)) = point_zmul (val (fsub (fpow s (2 ^ m)) (fpow x (2 ^ m)))) B).
Proof. exact @words_multi_acceptance. Qed.
Print Assumptions C104_multi.
Theorem C104_multi_proofs : forall checked ks k n s m ps (p : list Fr) x,
  zkw_setup checked ks k n s -> Forall2 represents ps p ->
  m <= k -> 2 ^ m < n -> fits (2 * length p) -> length p <= n -> x <> f0 -> (exists i, coef p i <> f0) ->
  exists com proof, zkw_commit_to_poly ks ps = Ok com /\ zkw_compute_proof_multi zk_table ks p x (2 ^ m) = Ok proof /\
    zkw_check_proof_multi ks com proof x (map (fun i => peval p (fmul x (fpow (root m) i))) (seq 0 (2 ^ m))) (2 ^ m) = Ok true.
Proof. exact @words_multi_proofs. Qed.
Print Assumptions C104_multi_proofs.
Theorem C104_multi_answers : forall checked ks k n s com proof A B x (ys : list Fr) c,
  zkw_setup checked ks k n s ->
  g1_stands com A -> g1_stands proof B -> g1_subgroup A -> g1_subgroup B ->
  ((forall m, c <> 2 ^ m) \/ ~ acceptable (zkw_fs ks) (length ys) -> zkw_check_proof_multi ks com proof x ys c = Err) /\
  (forall m, c = 2 ^ m -> acceptable (zkw_fs ks) (length ys) ->
     (x <> f0 -> c <= length ys <= n -> c < n -> exists b, zkw_check_proof_multi ks com proof x ys c = Ok b) /\
     (x = f0 \/ length ys < c \/ n <= c \/ n < length ys -> zkw_check_proof_multi ks com proof x ys c = Panic)).
Proof. exact @words_multi_answers. Qed.
Print Assumptions C104_multi_answers.
(** [euclid a b q]: q is the quotient of a by b; [trimmed p p']: p' is p without trailing zeros *)
Theorem C104_compute : forall checked ks k n s (p : list Fr) x c,
  zkw_setup checked ks k n s -> fits (2 * length p) ->
  ((forall m, c <> 2 ^ m) -> zkw_compute_proof_multi zk_table ks p x c = Err) /\
  (forall m, c = 2 ^ m -> (forall i, coef p i = f0) -> zkw_compute_proof_multi zk_table ks p x c = Panic) /\
  (forall m p', c = 2 ^ m -> trimmed p p' -> length p' <= n + c ->
     exists q a, euclid p' ([fneg (fpow x c)] ++ repeat f0 (c - 1) ++ [f1]) q /\
       zkw_compute_proof_multi zk_table ks p x c = Ok a /\ g1_stands a (point_zmul (val (peval q s)) g1_gen)) /\
  (forall m p', c = 2 ^ m -> trimmed p p' -> n + c < length p' -> zkw_compute_proof_multi zk_table ks p x c = Panic).
Proof. exact @words_compute. Qed.
Print Assumptions C104_compute.
(** a claimed value for which the rounding carries makes the check panic, with overflow checks *)
Theorem C104_carry : forall ks com proof xs ys (y : Fr),
  represents ys y -> rounding_carries (val y) ->
  zkw_check_proof_single true ks com proof xs ys = Panic.
Proof. exact @words_single_panics. Qed.
Print Assumptions C104_carry.
(** without overflow checks, the honest proof of the value y' is accepted for y, another value, and that of y is rejected *)
Theorem C104_value_refuted : exists (y y' : Fr) ys, y <> y' /\ represents ys y /\
  forall ks k n s ps (p : list Fr) x xs, zkw_setup false ks k n s -> Forall2 represents ps p -> represents xs x ->
    fits (2 * length p) -> length p <= n -> 2 <= n -> (exists i, coef p i <> f0) ->
    exists com proof, zkw_commit_to_poly ks ps = Ok com /\ zkw_compute_proof_single zk_table ks p x = Ok proof /\
      zkw_check_proof_single false ks com proof xs ys = Ok (feqb y' (peval p x)).
Proof. exact @words_value_refuted. Qed.
Print Assumptions C104_value_refuted.
(** proofs and commitments are not checked to be in the subgroup: adding a point of order 3 changes no answer *)
Theorem C104_cofactor_refuted : exists T : point Fp, g1_on_curve T /\ T <> Infinity /\
  forall checked ks k n s com proof com' proof' A B xs ys x y, zkw_setup checked ks k n s -> 2 <= n ->
    g1_stands com A -> g1_stands proof B -> g1_stands com' (point_add A T) -> g1_stands proof' (point_add B T) ->
    represents xs x -> represents ys y -> ~ rounding_carries (val y) ->
    zkw_check_proof_single checked ks com proof' xs ys = zkw_check_proof_single checked ks com proof xs ys /\
    zkw_check_proof_single checked ks com' proof xs ys = zkw_check_proof_single checked ks com proof xs ys.
Proof. exact @words_cofactor_refuted. Qed.
Print Assumptions C104_cofactor_refuted.
Example C104_ex : forall checked, exists ks, zkw_setup checked ks 3 10 (fr_of 3).
Proof. exact words_case. Qed.
