(** * Properties C81-C82: batch proofs, scalars and group helpers of the Arkworks backend

    [P], [L] and [ark_made] as in Properties_ArkKZG.v: settings of transform scale [k] and
    length [u], made from the public constructors, with drawn scalar [beta]. *)
From Coq Require Import List Arith Lia ZArith NArith.
From Verif Require Import Base Fld Poly Model_Utils Model_FFT Zr ZrTables Spec Spec_More Spec_Ark Proof_FFTFr Model_Recovery Model_KZG Spec_KZG Model_FK20.
From Verif Require Import Model_Ark Proof_ArkFr Spec_ZkKZG Model_ArkKZG Spec_ArkKZG Model_ArkFK20 Proof_ArkKZG Proof_ArkFK20.
From Verif Require Import Model_ArkScalar Spec_ArkScalar Proof_ArkScalar Properties_ArkKZG.
Import ListNotations.

(** ** C81 *)
Theorem C81_ark_single_constructor : forall (P : pairing Fr) (L : ark_lib P), lib_root (lib_W L) ->
  forall (ks : ark_kzg P) k u beta n2,
  ark_made L ks k u beta ->
  (~ (n2 <= 2 ^ k /\ exists m, n2 = 2 ^ S m) -> ark_fk20_single_new (lib_W L) ks n2 = Err) /\
  (forall m, n2 = 2 ^ S m -> S m <= k ->
     (2 ^ m <= u + 2 -> exists fk, ark_fk20_single_new (lib_W L) ks n2 = Ok fk) /\
     (u + 2 < 2 ^ m -> ark_fk20_single_new (lib_W L) ks n2 = Panic)).
Proof. exact @C81_single_new_proof. Qed.
Print Assumptions C81_ark_single_constructor.
Theorem C81_ark_multi_constructor : forall (P : pairing Fr) (L : ark_lib P), lib_root (lib_W L) ->
  forall (ks : ark_kzg P) k u beta n2 cl,
  ark_made L ks k u beta ->
  (~ (n2 <= 2 ^ k /\ exists m a, n2 = 2 ^ S m /\ cl = 2 ^ a /\ a <= m) -> ark_fk20_multi_new (lib_W L) ks n2 cl = Err) /\
  (forall m a, n2 = 2 ^ S m -> cl = 2 ^ a -> a <= m -> S m <= k ->
     (2 ^ m <= 2 ^ a + (u + 1) -> exists fk, ark_fk20_multi_new (lib_W L) ks n2 cl = Ok fk) /\
     (2 ^ a + (u + 1) < 2 ^ m -> ark_fk20_multi_new (lib_W L) ks n2 cl = Panic)).
Proof. exact @C81_multi_new_proof. Qed.
Print Assumptions C81_ark_multi_constructor.
(** all 2^(m+1) single proofs at once *)
Theorem C81_ark_batch_single : forall (P : pairing Fr) (L : ark_lib P), lib_root (lib_W L) ->
  forall (ks : ark_kzg P) k u beta m (p : list Fr),
  ark_made L ks k u beta -> S m <= k -> 2 ^ m <= u + 2 -> length p = 2 ^ m ->
  exists fk out, ark_fk20_single_new (lib_W L) ks (2 ^ S m) = Ok fk /\ ark_fk20_single_da_opt (lib_W L) fk p = Ok out /\ length out = 2 ^ S m /\
    (forall i, i < 2 ^ S m -> exists q, euclid p [fneg (fpow (root (S m)) i); f1] q /\ nth_error out i = Some (smul (peval q beta) gen1)) /\
    (0 < u -> (forall i, ark_powers u <= i -> coef p i = f0) -> forall i, i < 2 ^ S m ->
       exists pf, ark_compute_proof_single ks p (fpow (root (S m)) i) = Ok pf /\ nth_error out i = Some pf) /\
    exists rev, ark_fk20_single_da (lib_W L) fk p = Ok rev /\ length rev = 2 ^ S m /\
      forall i, i < 2 ^ S m -> nth_error rev i = nth_error out (bitrev (S m) i).
Proof. exact @C81_single_proof. Qed.
Print Assumptions C81_ark_batch_single.
(** all 2^(m+1-a) coset proofs at once *)
Theorem C81_ark_batch_multi : forall (P : pairing Fr) (L : ark_lib P), lib_root (lib_W L) ->
  forall (ks : ark_kzg P) k u beta m a (p : list Fr),
  ark_made L ks k u beta -> S m <= k -> a <= m -> 2 ^ m <= 2 ^ a + (u + 1) -> length p = 2 ^ m ->
  exists fk out, ark_fk20_multi_new (lib_W L) ks (2 ^ S m) (2 ^ a) = Ok fk /\ ark_fk20_multi_da_opt (lib_W L) fk p = Ok out /\ length out = 2 ^ S (m - a) /\
    (forall i, i < 2 ^ S (m - a) -> exists q, euclid p ([fneg (fpow (fpow (root (S m)) i) (2 ^ a))] ++ repeat f0 (2 ^ a - 1) ++ [f1]) q /\
       nth_error out i = Some (smul (peval q beta) gen1)) /\
    ((exists i, coef p i <> f0) -> (forall i, ark_powers u + 2 ^ a <= i -> coef p i = f0) -> forall i, i < 2 ^ S (m - a) ->
       exists pf, ark_compute_proof_multi L ks p (fpow (root (S m)) i) (2 ^ a) = Ok pf /\ nth_error out i = Some pf) /\
    ((forall i, coef p i = f0) -> out = repeat g0 (2 ^ S (m - a))) /\
    exists rev, ark_fk20_multi_da (lib_W L) fk p = Ok rev /\ length rev = 2 ^ S (m - a) /\
      forall i, i < 2 ^ S (m - a) -> nth_error rev i = nth_error out (bitrev (S (m - a)) i).
Proof. exact @C81_multi_proof. Qed.
Print Assumptions C81_ark_batch_multi.
(** lengths that are not a power of two, or too long for the transforms, are refused *)
Theorem C81_ark_sizes : forall (P : pairing Fr) (L : ark_lib P), lib_root (lib_W L) ->
  forall (ks : ark_kzg P) k u beta n2 n2' cl fks fkm (p : list Fr),
  ark_made L ks k u beta ->
  ark_fk20_single_new (lib_W L) ks n2 = Ok fks -> ark_fk20_multi_new (lib_W L) ks n2' cl = Ok fkm ->
  ~ (length p * 2 <= 2 ^ k /\ exists m, length p = 2 ^ m) ->
  ark_fk20_single_da_opt (lib_W L) fks p = Err /\ ark_fk20_single_da (lib_W L) fks p = Err /\
  ark_fk20_multi_da_opt (lib_W L) fkm p = Err /\ ark_fk20_multi_da (lib_W L) fkm p = Err.
Proof. exact @C81_errors_proof. Qed.
Print Assumptions C81_ark_sizes.
(** polynomials longer than the settings were made for panic *)
Theorem C81_ark_longer_polynomial : forall (P : pairing Fr) (L : ark_lib P), lib_root (lib_W L) ->
  forall (ks : ark_kzg P) k u beta m m' a fks fkm (p : list Fr),
  ark_made L ks k u beta -> m < m' -> S m' <= k -> length p = 2 ^ m' ->
  (ark_fk20_single_new (lib_W L) ks (2 ^ S m) = Ok fks -> ark_fk20_single_da_opt (lib_W L) fks p = Panic /\ ark_fk20_single_da (lib_W L) fks p = Panic) /\
  (ark_fk20_multi_new (lib_W L) ks (2 ^ S m) (2 ^ a) = Ok fkm -> ark_fk20_multi_da_opt (lib_W L) fkm p = Panic /\ ark_fk20_multi_da (lib_W L) fkm p = Panic).
Proof. exact @C81_long_proof. Qed.
Print Assumptions C81_ark_longer_polynomial.
(** and so do those shorter than one chunk *)
Theorem C81_ark_chunk_panics : forall (P : pairing Fr) (L : ark_lib P), lib_root (lib_W L) ->
  forall (ks : ark_kzg P) k u beta n2 a b fk (p : list Fr),
  ark_made L ks k u beta -> b < a ->
  ark_fk20_multi_new (lib_W L) ks n2 (2 ^ a) = Ok fk -> length p = 2 ^ b ->
  ark_fk20_multi_da_opt (lib_W L) fk p = Panic /\ ark_fk20_multi_da (lib_W L) fk p = Panic.
Proof. exact @C81_short_multi_proof. Qed.
Print Assumptions C81_ark_chunk_panics.
(** a polynomial shorter than the settings were made for is accepted, and its proofs are wrong *)
Theorem C81_ark_shorter_polynomial_refuted : forall (P : pairing Fr) (L : ark_lib P), lib_root (lib_W L) ->
  forall (ks : ark_kzg P) k u beta fk (c : Fr),
  ark_made L ks k u beta -> 0 < u -> c <> f0 ->
  ark_fk20_single_new (lib_W L) ks 4 = Ok fk ->
  ark_fk20_single_da_opt (lib_W L) fk [c] = Ok [smul c gen1; smul c gen1] /\
  forall x, ark_compute_proof_single ks [c] x = Ok g0.
Proof. exact @C81_short_proof. Qed.
Print Assumptions C81_ark_shorter_polynomial_refuted.
Example C81_ark_ex :
  exists ks fk out, ark_made ark_toy ks 2 2 (fr_of 3) /\ ark_fk20_single_new ark_W ks 4 = Ok fk /\
    ark_fk20_single_da_opt ark_W fk [fr_of 5; fr_of 7] = Ok out /\ map val out = [7; 7; 7; 7]%Z /\
    exists fkm outm, ark_fk20_multi_new ark_W ks 4 2 = Ok fkm /\
      ark_fk20_multi_da_opt ark_W fkm [fr_of 5; fr_of 7] = Ok outm /\ map val outm = [0; 0]%Z /\
      ark_fk20_multi_da_opt ark_W fkm [fr_of 5] = Panic /\ ark_fk20_multi_da_opt ark_W fkm [fr_of 5; fr_of 7; fr_of 9] = Err.
Proof.
  destruct (made_exists ark_toy ark_W_root 2 2 [] (g0, mkLimbs 0 0 0 0 0 0) [] ltac:(lia)) as (fs & ks & _ & _ & M & _).
  destruct (C81_ark_batch_single _ ark_toy ark_W_root ks _ _ _ 1 [fr_of 5; fr_of 7] M) as (fk & out & A & B & Lo & C & _);
    [lia|cbn; lia|reflexivity|].
  destruct (C81_ark_batch_multi _ ark_toy ark_W_root ks _ _ _ 1 1 [fr_of 5; fr_of 7] M) as (fkm & outm & Am & Bm & Lm & Cm & _);
    [lia|lia|cbn; lia|reflexivity|].
  exists ks, fk, out. split; [exact M|]. split; [exact A|]. split; [exact B|]. split.
  { apply (all_val out 4 7%Z Lo). intros i Hi. destruct (C i Hi) as (q & E & N). rewrite (linear_quotient _ _ _ q E) in N.
    eexists. split; [exact N|]. vm_compute. reflexivity. }
  exists fkm, outm. split; [exact Am|]. split; [exact Bm|]. split; [|split].
  - apply (all_val outm 2 0%Z Lm). intros i Hi. destruct (Cm i Hi) as (q & (Lq & _) & N). destruct q; [|discriminate Lq].
    eexists. split; [exact N|]. vm_compute. reflexivity.
  - apply (C81_ark_chunk_panics _ ark_toy ark_W_root ks _ _ _ 4 1 0 fkm [fr_of 5] M ltac:(lia) Am eq_refl).
  - apply (C81_ark_sizes _ ark_toy ark_W_root ks _ _ _ 4 4 2 fk fkm [fr_of 5; fr_of 7; fr_of 9] M A Am).
    intros (Hle & _). cbn in Hle. lia.
Qed.

(** ** C82 *)
Local Open Scope Z_scope.
(** four-word numbers: exact below the modulus, and zero, not an error, from the modulus on *)
Theorem C82_ark_words : forall (u : list Z),
  words u ->
  (integer u < r -> exists x, stored (fs_from_u64_arr u) x /\ val x = integer u /\ fs_to_u64_arr (fs_from_u64_arr u) = u) /\
  (r <= integer u -> fs_from_u64_arr u = [0; 0; 0; 0] /\ fs_from_u64_arr u = fs_zero /\ fs_to_u64_arr (fs_from_u64_arr u) <> u).
Proof. exact @C82_words_proof. Qed.
Print Assumptions C82_ark_words.
Theorem C82_ark_roundtrip : forall (l : list Z) x,
  stored l x ->
  words (fs_to_u64_arr l) /\ integer (fs_to_u64_arr l) = val x /\ fs_from_u64_arr (fs_to_u64_arr l) = l.
Proof. exact @C82_roundtrip_proof. Qed.
Print Assumptions C82_ark_roundtrip.
Theorem C82_ark_equality : forall (a b : list Z) x y,
  stored a x -> stored b y ->
  (fs_equals a b = true <-> x = y) /\ (fs_is_zero a = true <-> val x = 0) /\ (fs_is_one a = true <-> val x = 1).
Proof. exact @C82_equals_proof. Qed.
Print Assumptions C82_ark_equality.
Theorem C82_ark_from_u64 : forall v,
  0 <= v < 2 ^ 64 -> exists x, stored (fs_from_u64 v) x /\ val x = v /\ fs_to_u64_arr (fs_from_u64 v) = [v; 0; 0; 0].
Proof. exact @C82_from_u64_proof. Qed.
Print Assumptions C82_ark_from_u64.
(** the null marker is the ordinary scalar (2^256-1) mod r, the one of the blst backend; callers can also construct it *)
Theorem C82_ark_null_refuted : exists x, stored fs_null x /\ val x = (2 ^ 256 - 1) mod r /\ x = fr_null /\
  (forall l y, stored l y -> (fs_is_null l = true <-> y = x)) /\
  exists u, words u /\ integer u < r /\ fs_is_null (fs_from_u64_arr u) = true.
Proof. exact @C82_null_proof. Qed.
Print Assumptions C82_ark_null_refuted.
(** division and inversion *)
Theorem C82_ark_division : forall (K : fld) (a b : K),
  (b = f0 -> ark_fr_div a b = Panic /\ ark_inverse b = Panic) /\
  (b <> f0 -> exists c d, ark_fr_div a b = Ok c /\ fmul b c = a /\ ark_inverse b = Ok d /\ fmul b d = f1) /\
  ark_eucl_inverse b = Panic.
Proof. exact @C82_division_proof. Qed.
Print Assumptions C82_ark_division.
Theorem C82_ark_group_helpers : forall (K : fld) (M : gmod K) (g : M) n (p : list M) (c : list K) len,
  (exists l, ark_make_data g n = Ok l /\ length l = n /\ forall i, (i < n)%nat -> nth_error l i = Some (smul (fnat (S i)) g)) /\
  ((len <= length p)%nat -> (len <= length c)%nat ->
     ark_g1_lincomb p c len = Ok (gsum len (fun i => smul (nth i c f0) (nth i p g0)))) /\
  ((length p < len)%nat \/ (length c < len)%nat -> ark_g1_lincomb p c len = Panic).
Proof. exact @C82_helpers_proof. Qed.
Print Assumptions C82_ark_group_helpers.
Example C82_ark_ex :
  fs_to_u64_arr (fs_from_u64_arr [7; 0; 1; 0]%Z) = [7; 0; 1; 0]%Z /\
  fs_from_u64_arr [0; 0; 0; 2 ^ 63]%Z = [0; 0; 0; 0]%Z /\ fs_is_null (fs_from_u64_arr (fs_to_u64_arr fs_null)) = true /\
  fs_is_null fs_one = false /\ fs_to_u64_arr fs_one = [1; 0; 0; 0]%Z /\
  match ark_g1_lincomb (M := self_mod Fr) [fr_of 2; fr_of 3] [fr_of 10; fr_of 100] 2%nat, ark_fr_div (fr_of 12) (fr_of 4), ark_fr_div (fr_of 1) (fr_of 0) with
  | Ok s, Ok d, Panic => val s = 320%Z /\ val d = 3%Z | _, _, _ => False end.
Proof. vm_compute. repeat split; reflexivity. Qed.
