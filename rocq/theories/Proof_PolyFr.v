(** * Proof_PolyFr: the polynomial theorems at the concrete field and root table *)
From Coq Require Import List Arith Lia ZArith NArith Field Ring.
From Verif Require Import Base Fld Poly Zr ZrTables Loops Model_Utils Proof_Utils Model_FFT Spec Proof_FFT Model_Poly Proof_Poly1 Proof_Poly2.
Import ListNotations.

Lemma C14_proof (a b : list Fr) (len : nat) :
  (a <> [] -> b <> [] ->
     exists c, mul_direct a b len = Ok c /\ length c = len /\
       forall k, k < len -> nth_error c k = Some (convol a b k)) /\
  (a = [] \/ b = [] -> mul_direct a b len = Ok []).
Proof.
  split; [|apply mul_direct_empty]. intros Ha Hb. eexists. split; [now apply mul_direct_spec|].
  split; [apply length_map_seq|]. intros k Hk. rewrite nth_error_map_seq by auto. reflexivity.
Qed.

Lemma C14_pointwise_proof (a b : list Fr) (x : Fr) (len : nat) :
  length a + length b - 1 <= len -> a <> [] -> b <> [] ->
  match mul_direct a b len with Ok c => peval c x = fmul (peval a x) (peval b x) | _ => False end.
Proof.
  intros L Ha Hb. rewrite mul_direct_spec by auto.
  rewrite <- peval_pmul. apply peval_ext. intros k. rewrite coef_pmul, coef_map_seq.
  destruct (Nat.ltb_spec k len); auto. symmetry. apply convol_over. lia.
Qed.

Lemma C15_proof (a b : list Fr) (len : nat) :
  a <> [] -> b <> [] -> fits (length a + length b - 1) ->
  exists c, mul_fft blst_table a b len = Ok c /\ length c = len /\
    forall k, k < len -> nth_error c k = Some (convol a b k).
Proof.
  intros Ha Hb F. eexists. split; [apply mul_fft_spec; auto using blst_table_ok, blst_table_length|].
  split; [apply length_map_seq|]. intros k Hk. rewrite nth_error_map_seq by auto. reflexivity.
Qed.

Lemma C15_threshold_proof (a b : list Fr) (len : nat) :
  fits (length a + length b - 1) -> poly_mul blst_table a b len = mul_direct a b len.
Proof.
  intros F. destruct a as [|x a]; [reflexivity|]. destruct b as [|y b].
  - unfold poly_mul. cbn [length Nat.ltb Nat.leb]. now rewrite Bool.orb_true_r.
  - rewrite mul_direct_spec by discriminate.
    apply poly_mul_spec; auto using blst_table_ok, blst_table_length; discriminate.
Qed.

Lemma C16_proof (p : list Fr) (n : nat) :
  (0 < n -> p <> [] -> coef p 0 <> f0 -> fits (length p + n - 1) -> fits (2 * n) ->
     exists c, poly_inverse blst_table p n = Ok c /\ length c = n /\
       convol p c 0 = f1 /\ forall k, 0 < k < n -> convol p c k = f0) /\
  (n = 0 \/ p = [] \/ coef p 0 = f0 -> poly_inverse blst_table p n = Err).
Proof.
  split; [|apply poly_inverse_errors]. intros Hn Hp Hc F1 F2.
  destruct (poly_inverse_spec blst_table blst_table_ok blst_table_length p n) as (c & E & L & H); auto.
  exists c. split; auto. split; auto. split.
  - rewrite H by lia. reflexivity.
  - intros k Hk. rewrite H by lia. destruct k; [lia|reflexivity].
Qed.

Lemma C17_proof (a b : list Fr) :
  (b <> [] -> coef b (length b - 1) <> f0 ->
     exists q, long_div a b = Ok q /\ euclid a b q /\ forall q', euclid a b q' -> q' = q) /\
  (b = [] \/ coef b (length b - 1) = f0 -> long_div a b = Err).
Proof.
  split; [|apply long_div_errors]. intros Nb Hl.
  destruct (long_div_spec a b Nb Hl) as (q & E & H). exists q. split; auto. split; auto.
  intros q' H'. eapply euclid_fun; eauto.
Qed.

Lemma C18_fast_proof (a b : list Fr) : a <> [] -> fits (2 * length a) ->
  fast_div blst_table a b = long_div a b.
Proof.
  intros Na F. destruct b as [|y b0] eqn:Eb; [reflexivity|]. rewrite <- Eb in *.
  assert (Nb : b <> []) by (rewrite Eb; discriminate). clear Eb.
  destruct (feqb (coef b (length b - 1)) f0) eqn:Z.
  - apply feqb_spec in Z. rewrite fast_div_errors, long_div_errors by auto. reflexivity.
  - apply feqb_false in Z.
    destruct (long_div_spec a b Nb Z) as (q & -> & H).
    destruct (fast_div_spec blst_table blst_table_ok blst_table_length a b) as (q' & -> & H'); auto.
    f_equal. eapply euclid_fun; eauto.
Qed.

Lemma C18_div_proof (a b : list Fr) : fits (2 * length a) ->
  poly_div blst_table a b = long_div a b.
Proof.
  intros F. unfold poly_div. destruct (Nat.leb_spec (length a) (length b)); auto.
  destruct (Nat.ltb_spec (length b) 128); auto. cbn [orb]. apply C18_fast_proof; auto.
  intros ->. simpl in *. lia.
Qed.

Lemma C18_empty_proof (b : list Fr) : b <> [] -> coef b (length b - 1) <> f0 ->
  fast_div blst_table [] b = Panic /\ long_div [] b = Ok [].
Proof.
  intros Nb Z. split; [now apply fast_div_empty|].
  destruct (long_div_spec [] b Nb Z) as (q & E & L & _). rewrite E. f_equal.
  destruct b; [congruence|]. destruct q; [reflexivity|simpl in L; lia].
Qed.

Lemma five_neq_0 : fr_of 5 <> (f0 : Fr).
Proof. intros H. apply (f_equal val) in H. vm_compute in H. discriminate. Qed.
Lemma fnat5 : (fnat 5 : Fr) = fr_of 5.
Proof. rewrite fnat_Fr. reflexivity. Qed.

Lemma C19_scale_proof (p : list Fr) :
  (let* q := poly_scale p in poly_unscale q) = Ok p /\
  (let* q := poly_unscale p in poly_scale q) = Ok p.
Proof. apply poly_scale_unscale. rewrite fnat5. apply five_neq_0. Qed.

Section Eff.
Context {K : fld}.
Add Field Kfpf : (fld_field K).
Local Open Scope fld_scope.
Lemma peval_geometric (p : list K) (c x : K) :
  peval (map (fun i => nth i p 0 * c ^ (S i)) (seq 0 (length p))) x = c * peval p (c * x).
Proof.
  rewrite (peval_sum_n _ _ (length p)) by (now rewrite length_map_seq).
  rewrite (peval_sum_n p _ (length p)) by auto.
  rewrite <- sum_mul_l. apply sum_ext. intros i Hi. rewrite coef_map_seq.
  destruct (Nat.ltb_spec i (length p)); [|lia]. unfold coef. rewrite fpow_mul_base. cbn [fpow]. ring.
Qed.
Lemma scale_effect_eq (p : list K) (five x : K) :
  finv five * peval p (finv five * x) = (1 * finv five) * peval p (x * finv five).
Proof. replace (x * finv five) with (finv five * x) by ring. ring. Qed.
End Eff.

Lemma C19_effect_proof (p : list Fr) :
  exists q u, poly_scale p = Ok q /\ poly_unscale p = Ok u /\
    forall x : Fr, peval q x = fmul (fdiv f1 (fr_of 5)) (peval p (fdiv x (fr_of 5))) /\
                   peval u x = fmul (fr_of 5) (peval p (fmul (fr_of 5) x)).
Proof.
  eexists. eexists. split; [apply poly_scale_spec|]. split; [apply poly_unscale_spec|].
  intros x. rewrite !peval_geometric, fnat5. unfold fdiv. split; [|reflexivity].
  apply scale_effect_eq.
Qed.
