(** * Proof_DasFr: the extension at the concrete field; backing lemmas for [Properties_Das] *)
From Coq Require Import List Arith Lia Bool.
From Verif Require Import Base Fld Poly Model_Utils Proof_Utils Model_FFT Spec Proof_FFT Zr ZrTables Proof_FFTFr Model_Das Proof_Das.
Import ListNotations.

Lemma interleave_length {A} (a b : list A) : length a = length b -> length (interleave a b) = 2 * length a.
Proof.
  revert b. induction a as [|x a IH]; intros [|y b] H; try discriminate; auto.
  cbn [interleave length] in *. rewrite IH; lia.
Qed.

Lemma interleave_nth {A} (d : A) (a b : list A) i : length a = length b ->
  nth (2 * i) (interleave a b) d = nth i a d /\ nth (2 * i + 1) (interleave a b) d = nth i b d.
Proof.
  revert b i. induction a as [|x a IH]; intros [|y b] i H; try discriminate.
  - cbn [interleave]. split; now destruct i.
  - destruct i; [auto|]. injection H as H. replace (2 * S i) with (S (S (2 * i))) by lia.
    replace (S (S (2 * i)) + 1) with (S (S (2 * i + 1))) by lia. cbn [interleave nth]. now apply IH.
Qed.

Lemma peval_pad (p : list Fr) n x : peval (p ++ repeat f0 n) x = peval p x.
Proof.
  apply peval_ext. intros i. rewrite coef_app. destruct (Nat.ltb_spec i (length p)); auto.
  rewrite coef_repeat0, coef_over; auto.
Qed.

(** forward transform of a zero-extended polynomial interleaves the two halves *)
Lemma fft_extended k s m (p a b : list Fr) :
  fft_settings_new blst_table k = Ok s -> m < k -> length p = 2 ^ m -> length a = 2 ^ m -> length b = 2 ^ m ->
  (forall i, i < 2 ^ m -> nth i a f0 = peval p (fpow (root (S m)) (2 * i)) /\
                          nth i b f0 = peval p (fpow (root (S m)) (2 * i + 1))) <->
  fft_fr s (p ++ repeat f0 (2 ^ m)) false = Ok (interleave a b).
Proof.
  intros HN Hm Lp La Lb.
  assert (L2 : 2 ^ S m = 2 * 2 ^ m) by (simpl; lia).
  assert (LP : length (p ++ repeat f0 (2 ^ m)) = 2 ^ S m) by (rewrite app_length, repeat_length; lia).
  rewrite (fft_fr_eval k s (S m)) by (auto; lia). split.
  - intros H. f_equal. apply (nth_ext' f0).
    + rewrite length_map_seq, interleave_length by congruence. lia.
    + rewrite length_map_seq. intros i Hi. rewrite nth_map_seq, peval_pad by auto.
      destruct (Nat.Even_or_Odd i) as [[j ->]|[j ->]].
      * destruct (interleave_nth f0 a b j) as [-> _]; [congruence|]. symmetry. apply H. lia.
      * destruct (interleave_nth f0 a b j) as [_ ->]; [congruence|]. symmetry. apply H. lia.
  - intros H i Hi. apply (f_equal (fun x => match x with Ok l => l | _ => [] end)) in H. cbv beta iota in H.
    destruct (interleave_nth f0 a b i) as [E1 E2]; [congruence|]. rewrite <- H in E1, E2.
    rewrite nth_map_seq, peval_pad in E1, E2 by lia. auto.
Qed.

Lemma fft_invert k s (x y : list Fr) m :
  fft_settings_new blst_table k = Ok s -> m <= k -> length x = 2 ^ m -> length y = 2 ^ m ->
  (fft_fr s x false = Ok y <-> fft_fr s y true = Ok x).
Proof.
  intros HN Hm Lx Ly. destruct (new_inv k s HN) as (_ & HS).
  destruct (fft_fr_roundtrip s k (root k) m x HS Hm Lx) as [A _].
  destruct (fft_fr_roundtrip s k (root k) m y HS Hm Ly) as [_ B].
  split; intros E.
  - now rewrite E in A.
  - now rewrite E in B.
Qed.

Lemma C11_proof k s m (evens : list Fr) :
  fft_settings_new blst_table k = Ok s -> m < k -> length evens = 2 ^ m ->
  exists odds p, das_fft_extension s evens = Ok odds /\ length odds = 2 ^ m /\ length p = 2 ^ m /\
    (forall i, i < 2 ^ m ->
       nth_error evens i = Some (peval p (fpow (root (S m)) (2 * i))) /\
       nth_error odds i = Some (peval p (fpow (root (S m)) (2 * i + 1)))) /\
    fft_fr s (interleave evens odds) true = Ok (p ++ repeat f0 (2 ^ m)) /\
    (forall odds' q, length odds' = 2 ^ m -> length q = 2 ^ m ->
       fft_fr s (interleave evens odds') true = Ok (q ++ repeat f0 (2 ^ m)) -> odds' = odds).
Proof.
  intros HN Hm HL. destruct (new_inv k s HN) as (Hk & HS).
  assert (L2 : 2 ^ S m = 2 * 2 ^ m) by (simpl; lia).
  set (w := root (S m)).
  assert (Hw : primitive w (2 * 2 ^ m)) by (rewrite <- L2; apply root_primitive; lia).
  assert (E := das_extension_eq s k (root k) m evens HS Hm HL). cbv zeta in E.
  rewrite root_pow in E by lia. fold w in E.
  set (p := das_poly w (2 ^ m) evens) in *.
  assert (Lp : length p = 2 ^ m) by apply das_poly_length.
  set (odds := map (fun j => peval p (fpow w (2 * j + 1))) (seq 0 (2 ^ m))) in *.
  assert (Lo : length odds = 2 ^ m) by apply length_map_seq.
  exists odds, p.
  assert (HV : forall i, i < 2 ^ m -> nth i evens f0 = peval p (fpow w (2 * i)) /\ nth i odds f0 = peval p (fpow w (2 * i + 1))).
  { intros i Hi. split.
    - symmetry. now apply das_poly_evens.
    - unfold odds. now rewrite nth_map_seq. }
  split; [exact E|]. split; [exact Lo|]. split; [exact Lp|]. split; [|split].
  - intros i Hi. destruct (HV i Hi) as [A B]. split.
    + rewrite (nth_error_nth' _ f0) by lia. now rewrite A.
    + rewrite (nth_error_nth' _ f0) by lia. now rewrite B.
  - apply (fft_invert k s _ _ (S m)); auto.
    + rewrite app_length, repeat_length. lia.
    + rewrite interleave_length by congruence. lia.
    + apply (fft_extended k s m); auto.
  - intros odds' q Lo' Lq H.
    apply (fft_invert k s _ _ (S m)) in H; auto.
    2:{ rewrite app_length, repeat_length. lia. }
    2:{ rewrite interleave_length by congruence. lia. }
    assert (H' := proj2 (fft_extended k s m q evens odds' HN Hm Lq HL Lo') H). clear H. rename H' into H.
    assert (Q : forall i, coef q i = coef p i).
    { apply (interp_unique (map (fpow (fpow w 2)) (seq 0 (2 ^ m)))).
      - apply primitive_NoDup. apply primitive_pow; [now rewrite Nat.mul_comm|lia].
      - rewrite length_map_seq. lia.
      - rewrite length_map_seq. lia.
      - intros x Hx. apply in_map_iff in Hx as (i & <- & Hi). apply in_seq in Hi.
        rewrite <- fpow_mul. destruct (HV i) as [A _]; [lia|]. destruct (H i) as [B _]; [lia|].
        rewrite <- A. symmetry. exact B. }
    apply (nth_ext' f0); [congruence|]. intros i Hi. rewrite Lo' in Hi.
    destruct (HV i Hi) as [_ ->]. destruct (H i Hi) as [_ ->]. now apply peval_ext.
Qed.

Lemma C12_proof k s (evens : list Fr) :
  fft_settings_new blst_table k = Ok s ->
  ((exists m, length evens = 2 ^ m) /\ 2 * length evens <= max_width s ->
     exists odds, das_fft_extension s evens = Ok odds /\ length odds = length evens) /\
  (~ ((exists m, length evens = 2 ^ m) /\ 2 * length evens <= max_width s) -> das_fft_extension s evens = Err).
Proof.
  intros HN. destruct (new_inv k s HN) as (Hk & HS). split.
  - intros ((m & E) & H).
    destruct (C11_proof k s m evens) as (odds & p & A & B & _); auto.
    + destruct HS as (W & _). rewrite W, E in H.
      assert (2 ^ S m <= 2 ^ k) by (simpl; lia). apply pow2_le_inv in H0. lia.
    + exists odds. split; auto. congruence.
  - intros H. unfold das_fft_extension.
    destruct (Nat.eqb_spec (length evens) 0); auto.
    destruct (is_pow2 (length evens)) eqn:P; auto. cbn [negb].
    apply is_pow2_spec in P.
    destruct (Nat.ltb_spec (max_width s) (length evens * 2)); auto.
    exfalso. apply H. split; [|lia]. exact P.
Qed.
