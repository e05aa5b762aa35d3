(** * Proof_ArkScalar: scalar conversions and group helpers of the Arkworks backend *)
From Coq Require Import List Arith Lia Bool ZArith NArith Field.
From Verif Require Import Base Fld Poly Zr ZrTables Model_Utils Model_FFT Model_Recovery Model_MclKZG Spec_MclKZG Proof_MclKZGFr.
From Verif Require Import Loops Model_Ark Proof_Ark Model_ArkScalar Spec_ArkScalar.
Import ListNotations.
Local Open Scope Z_scope.

Section Cancel.
Context {K : fld}.
Add Field Kcancel : (fld_field K).
Lemma cancel_r (x c : K) : c <> f0 -> fmul (fmul x c) (finv c) = x.
Proof. intros H. field. exact H. Qed.
Lemma cancel_l (a b : K) : b <> f0 -> fmul b (fmul a (finv b)) = a.
Proof. intros H. field. exact H. Qed.
Lemma inv_r (b : K) : b <> f0 -> fmul b (finv b) = f1.
Proof. intros H. field. exact H. Qed.
End Cancel.

Definition R256 : Fr := fr_of (2 ^ 256).
Lemma R256_nz : R256 <> f0.
Proof. intros X. apply (f_equal val) in X. vm_compute in X. discriminate. Qed.

Lemma integer_big u : words u -> integer u = big_value u.
Proof.
  intros (L & _). destruct (four u L) as (a & b & c & d & ->). unfold integer, big_value. cbn [nth fold_right]. lia.
Qed.
Lemma big_range u : words u -> 0 <= big_value u < 2 ^ 256.
Proof. intros (L & H). exact (words_range u L H). Qed.
Lemma big_words_ok v : 0 <= v < 2 ^ 256 -> words (big_words v) /\ big_value (big_words v) = v.
Proof.
  intros H. split; [split; [reflexivity|]|now apply words_unique].
  intros t [<-|[<-|[<-|[<-|[]]]]]; apply Z.mod_pos_bound; reflexivity.
Qed.
Lemma big_inj u v : words u -> words v -> big_value u = big_value v -> u = v.
Proof. intros (A & B) (C & D). now apply words_inj. Qed.
Lemma big_words_value u : words u -> big_words (big_value u) = u.
Proof. intros H. destruct (big_words_ok _ (big_range u H)) as (A & B). now apply big_inj. Qed.
Lemma val_of v : 0 <= v < r -> val (fr_of v) = v.
Proof. intros H. unfold fr_of. rewrite val_to_Fr. now apply Z.mod_small. Qed.

Lemma red_range v : 0 <= v mod r < 2 ^ 256.
Proof. pose proof (Z.mod_pos_bound v r ltac:(reflexivity)). pose proof r_lt_2_256. lia. Qed.
Lemma store_ok x : stored (pc_fr_into_blst_fr x) x.
Proof.
  unfold stored, pc_fr_into_blst_fr. destruct (big_words_ok _ (red_range (val x * 2 ^ 256))) as (A & B). split; auto.
  now rewrite integer_big.
Qed.
Lemma mul_R (x : Fr) : fr_of (val x * 2 ^ 256) = fmul x R256.
Proof. rewrite fr_of_mul. unfold R256. f_equal. exact (to_Fr_val x). Qed.
Lemma stored_inj l (x y : Fr) : stored l x -> stored l y -> x = y.
Proof.
  intros (_ & A) (_ & B). rewrite A in B.
  assert (E : fmul x R256 = fmul y R256).
  { rewrite <- !mul_R. unfold fr_of. apply to_Fr_eq. exact B. }
  apply (f_equal (fun t => fmul t (finv R256))) in E. rewrite !(cancel_r _ _ R256_nz) in E. exact E.
Qed.
Lemma read_stored l (x : Fr) : stored l x -> blst_fr_into_pc_fr l = x.
Proof.
  intros (W & A). unfold blst_fr_into_pc_fr. rewrite <- integer_big, A by auto.
  replace (fr_of ((val x * 2 ^ 256) mod r)) with (fmul x R256).
  - exact (cancel_r x R256 R256_nz).
  - rewrite <- mul_R. unfold fr_of. apply to_Fr_eq. symmetry.
    rewrite Z.mod_mod by discriminate. reflexivity.
Qed.
Lemma store_stored l x : stored l x -> pc_fr_into_blst_fr x = l.
Proof.
  intros (W & A). destruct (store_ok x) as (W' & A'). apply big_inj; auto. rewrite <- !integer_big by auto. congruence.
Qed.

(** ** C82 *)
Lemma C82_words_proof (u : list Z) : words u ->
  (integer u < r -> exists x, stored (fs_from_u64_arr u) x /\ val x = integer u /\ fs_to_u64_arr (fs_from_u64_arr u) = u) /\
  (r <= integer u -> fs_from_u64_arr u = [0; 0; 0; 0] /\ fs_from_u64_arr u = fs_zero /\ fs_to_u64_arr (fs_from_u64_arr u) <> u).
Proof.
  intros W. assert (R := big_range u W). rewrite (integer_big u W). unfold fs_from_u64_arr. split; intros V.
  - assert (L := V). apply Z.ltb_lt in L. rewrite L. exists (fr_of (big_value u)).
    assert (S := store_ok (fr_of (big_value u))). split; [exact S|]. split; [apply val_of; lia|].
    unfold fs_to_u64_arr. rewrite (read_stored _ _ S), val_of by lia. now apply big_words_value.
  - assert (L := V). apply Z.ltb_ge in L. rewrite L. split; [reflexivity|]. split; [vm_compute; reflexivity|].
    intros X. apply (f_equal big_value) in X. revert X.
    replace (fs_to_u64_arr [0; 0; 0; 0]) with [0; 0; 0; 0] by (vm_compute; reflexivity). intros X. change (0 = big_value u) in X.
    assert (0 < r) by reflexivity. lia.
Qed.
Lemma C82_roundtrip_proof (l : list Z) x : stored l x ->
  words (fs_to_u64_arr l) /\ integer (fs_to_u64_arr l) = val x /\ fs_from_u64_arr (fs_to_u64_arr l) = l.
Proof.
  intros S. unfold fs_to_u64_arr. rewrite (read_stored l x S). assert (R := val_range x). assert (R2 := r_lt_2_256).
  destruct (big_words_ok (val x) ltac:(lia)) as (A & B). split; [exact A|]. split; [now rewrite integer_big|].
  unfold fs_from_u64_arr. rewrite B. destruct (Z.ltb_spec (val x) r); [|lia]. change (fr_of (val x)) with (to_Fr (val x)). rewrite to_Fr_val.
  now apply store_stored.
Qed.
Lemma C82_equals_proof (a b : list Z) x y : stored a x -> stored b y ->
  (fs_equals a b = true <-> x = y) /\ (fs_is_zero a = true <-> val x = 0) /\ (fs_is_one a = true <-> val x = 1).
Proof.
  assert (E : forall a b x y, stored a x -> stored b y -> (fs_equals a b = true <-> x = y)).
  { clear. intros a b x y A B. unfold fs_equals. destruct (list_eq_dec Z.eq_dec a b) as [->|N].
    - split; intros _; [exact (stored_inj b x y A B)|reflexivity].
    - split; intros X; [discriminate|]. subst y. contradict N. rewrite <- (store_stored a x A). exact (store_stored b x B). }
  intros A B. split; [now apply E|]. unfold fs_is_zero, fs_is_one, fs_zero, fs_one, fs_from_u64.
  rewrite (E _ _ _ _ A (store_ok (fr_of 0))), (E _ _ _ _ A (store_ok (fr_of 1))).
  assert (V : forall v, 0 <= v < r -> (x = fr_of v <-> val x = v)).
  { intros v Hv. split; intros X; [rewrite X; now apply val_of|]. apply val_inj. rewrite X. symmetry. now apply val_of. }
  split; apply V; split; reflexivity || discriminate.
Qed.
Lemma C82_from_u64_proof v : 0 <= v < 2 ^ 64 -> exists x, stored (fs_from_u64 v) x /\ val x = v /\ fs_to_u64_arr (fs_from_u64 v) = [v; 0; 0; 0].
Proof.
  intros H. assert (R : 2 ^ 64 < r) by reflexivity. assert (V : val (fr_of v) = v) by (apply val_of; lia).
  exists (fr_of v). assert (S := store_ok (fr_of v)). split; [exact S|]. split; [exact V|].
  unfold fs_to_u64_arr, fs_from_u64. rewrite (read_stored _ _ S), V. unfold big_words.
  rewrite (Z.mod_small v) by lia. rewrite (Z.div_small v (2 ^ 64)) by lia.
  rewrite (Z.div_small v (2 ^ 128)), (Z.div_small v (2 ^ 192)) by (split; [lia|]; eapply Z.lt_trans; [apply H|reflexivity]). reflexivity.
Qed.
Lemma C82_null_proof : exists x, stored fs_null x /\ val x = (2 ^ 256 - 1) mod r /\ x = fr_null /\
  (forall l y, stored l y -> (fs_is_null l = true <-> y = x)) /\
  exists u, words u /\ integer u < r /\ fs_is_null (fs_from_u64_arr u) = true.
Proof.
  assert (S : stored fs_null (fr_of (2 ^ 256 - 1))).
  { replace fs_null with (pc_fr_into_blst_fr (fr_of (2 ^ 256 - 1))) by (vm_compute; reflexivity). apply store_ok. }
  exists (fr_of (2 ^ 256 - 1)). split; [exact S|]. split; [reflexivity|]. split; [reflexivity|]. split.
  - intros l y Hl. unfold fs_is_null. exact (proj1 (C82_equals_proof l fs_null y _ Hl S)).
  - destruct (C82_roundtrip_proof _ _ S) as (A & B & C). exists (fs_to_u64_arr fs_null). split; [exact A|]. split; [rewrite B; apply val_range|].
    rewrite C. unfold fs_is_null. exact (proj2 (proj1 (C82_equals_proof fs_null fs_null _ _ S S)) eq_refl).
Qed.
Lemma C82_division_proof (K : fld) (a b : K) :
  (b = f0 -> ark_fr_div a b = Panic /\ ark_inverse b = Panic) /\
  (b <> f0 -> exists c d, ark_fr_div a b = Ok c /\ fmul b c = a /\ ark_inverse b = Ok d /\ fmul b d = f1) /\
  ark_eucl_inverse b = Panic.
Proof.
  unfold ark_fr_div, lib_fdiv, ark_inverse. split; [|split; [|reflexivity]]; intros H.
  - apply feqb_spec in H. now rewrite H.
  - destruct (feqb b f0) eqn:F; [apply feqb_spec in F; contradiction|]. cbn [bind]. exists (fmul a (finv b)), (finv b).
    split; [reflexivity|]. split; [now apply cancel_l|]. split; [reflexivity|now apply inv_r].
Qed.
Lemma C82_helpers_proof (K : fld) (M : gmod K) (g : M) n (p : list M) (c : list K) len :
  (exists l, ark_make_data g n = Ok l /\ length l = n /\ forall i, (i < n)%nat -> nth_error l i = Some (smul (fnat (S i)) g)) /\
  ((len <= length p)%nat -> (len <= length c)%nat ->
     ark_g1_lincomb p c len = Ok (gsum len (fun i => smul (nth i c f0) (nth i p g0)))) /\
  ((length p < len)%nat \/ (length c < len)%nat -> ark_g1_lincomb p c len = Panic).
Proof.
  split; [|split].
  - rewrite ark_make_data_spec. eexists. split; [reflexivity|]. split; [apply length_map_seq|]. intros i Hi. exact (nth_error_map_seq (fun i => smul (fnat (S i)) g) n i Hi).
  - apply ark_g1_lincomb_spec.
  - intros H. unfold ark_g1_lincomb, for_range. rewrite Nat.sub_0_r.
    set (n0 := Nat.min (length p) (length c)). replace len with (n0 + S (len - n0 - 1))%nat by lia. rewrite for_app.
    assert (E := ark_g1_lincomb_spec p c n0 ltac:(lia) ltac:(lia)). unfold ark_g1_lincomb, for_range in E. rewrite Nat.sub_0_r in E.
    rewrite E. cbn [bind for_]. destruct (Nat.le_gt_cases (length p) (length c)).
    + rewrite idx_panic by lia. reflexivity.
    + rewrite (idx_ok p _ g0) by lia. cbn [bind]. rewrite idx_panic by lia. reflexivity.
Qed.
