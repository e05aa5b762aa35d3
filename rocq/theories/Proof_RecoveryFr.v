(** * Proof_RecoveryFr: recovery at the concrete scalar field; backs [Properties_Recovery] *)
From Coq Require Import List Arith Lia Bool NArith ZArith Field.
From Verif Require Import Base Fld Poly Loops Model_Utils Proof_Utils Model_FFT Spec Spec_More Proof_FFT Zr ZrTables Proof_FFTFr.
From Verif Require Import Model_Poly Proof_PolyFr Model_ZeroPoly Proof_Zero3 Proof_Zero4 Model_Recovery Proof_Recovery.
Import ListNotations.

Lemma filter_map_length {A B} (f : B -> bool) (g : A -> B) l : length (filter f (map g l)) = length (filter (fun x => f (g x)) l).
Proof. induction l; cbn [map filter]; auto. destruct (f (g a)); cbn [length]; auto. Qed.

Lemma gaps_count {K : fld} (samples : list (option K)) :
  length (gaps (fun i => nth i samples None) (length samples)) = missing_count samples.
Proof.
  unfold missing_count. transitivity (length (filter (fun o => match o with None => true | Some _ => false end) (map (fun i => nth i samples None) (seq 0 (length samples))))).
  - rewrite filter_map_length. reflexivity.
  - now rewrite <- (list_map_nth samples None).
Qed.

Lemma gaps_count_null {K : fld} (null : K) (samples : list K) :
  length (gaps (fun i => if feqb (nth i samples null) null then None else Some (nth i samples null)) (length samples))
  = length (filter (fun v => feqb v null) samples).
Proof.
  transitivity (length (filter (fun v => feqb v null) (map (fun i => nth i samples null) (seq 0 (length samples))))); [|now rewrite <- (list_map_nth samples null)].
  rewrite filter_map_length. unfold gaps. f_equal. apply filter_ext.
  intros i. destruct (feqb (nth i samples null) null); reflexivity.
Qed.

Lemma five0 : (fnat 5 : Fr) <> f0.
Proof. rewrite fnat5. apply five_neq_0. Qed.
Lemma five1 k : k < 32 -> fpow (fnat 5 : Fr) (2 ^ k) <> f1.
Proof. rewrite fnat5. apply five_pow2_neq_1. Qed.

Lemma C19_table_proof tl (p : list Fr) : 0 < tl -> length p <= tl ->
  (let* q := scale_poly tl p (length p) in unscale_poly tl q (length q)) = Ok p /\
  (let* q := unscale_poly tl p (length p) in scale_poly tl q (length q)) = Ok p.
Proof. apply table_unscale_scale. apply five0. Qed.

Section Cm.
Context {K : fld}.
Add Field Kfcm : (fld_field K).
Lemma fdiv_comm5 (c x : K) : fmul (finv c) x = fdiv x c.
Proof. unfold fdiv. ring. Qed.
Lemma single_eval (v x : K) : peval [v] x = v.
Proof. cbn [peval]. ring. Qed.
End Cm.

Lemma C19_table_effect_proof tl (p : list Fr) : 0 < tl -> length p <= tl ->
  exists q u, scale_poly tl p (length p) = Ok q /\ unscale_poly tl p (length p) = Ok u /\
    forall x : Fr, peval q x = peval p (fdiv x (fr_of 5)) /\ peval u x = peval p (fmul (fr_of 5) x).
Proof.
  intros H0 H. eexists. eexists. split; [now apply scale_poly_spec|]. split; [now apply unscale_poly_spec|].
  intros x. rewrite !peval_geom0, fnat5. now rewrite fdiv_comm5.
Qed.

Lemma tl16 m : m <= 16 -> 2 ^ m <= factor_table_len.
Proof. intros H. unfold factor_table_len. apply Nat.pow_le_mono_r; lia. Qed.

Lemma nth_error_nth2 {A} (l : list A) i d v : nth_error l i = Some v -> nth i l d = v.
Proof. apply nth_error_nth. Qed.

Lemma C24_gen_tl tl k s m (samples : list (option Fr)) :
  fft_settings_new blst_table k = Ok s -> m <= k -> 2 ^ m <= tl -> length samples = 2 ^ m ->
  0 < missing_count samples < 2 ^ m -> missing_count samples <= 63 * (2 ^ m / 64 + 1) ->
  exists p data, length p = 2 ^ m - missing_count samples /\ recover_opt tl s samples = Ok data /\
    length data = 2 ^ m /\
    (forall i, i < 2 ^ m -> nth_error data i = Some (peval p (fpow (root m) i))) /\
    (forall i v, nth_error samples i = Some (Some v) -> peval p (fpow (root m) i) = v) /\
    (forall q, length q <= 2 ^ m - missing_count samples ->
       (forall i v, nth_error samples i = Some (Some v) -> peval q (fpow (root m) i) = v) -> forall j, coef q j = coef p j).
Proof.
  intros HN Hm H16 L Hu Hub. destruct (new_inv k s HN) as (Hk & HS).
  set (sm := fun i => nth i samples None).
  assert (EG : length (gaps sm (2 ^ m)) = missing_count samples) by (rewrite <- L; apply gaps_count).
  destruct (recover_interp s k (root k) m _ HS Hk Hm (le_n _) sm) as (D & LD & HD). rewrite root_pow in HD by auto.
  assert (R := recover_opt_spec s k (root k) m tl HS Hk Hm H16 five0 (five1 m ltac:(lia)) samples D L).
  cbv zeta in R. fold sm in R. rewrite EG in R. rewrite root_pow in R by auto.
  specialize (R Hu Hub ltac:(lia) HD).
  assert (HP : forall i v, nth_error samples i = Some (Some v) -> sm i = Some v /\ i < 2 ^ m).
  { intros i v Hi. split; [apply (nth_error_nth2 samples i None), Hi|]. rewrite <- L. apply nth_error_Some. congruence. }
  exists D. eexists. split; [lia|]. split; [exact R|]. rewrite length_map_seq. split; [auto|].
  split; [intros i Hi; now rewrite nth_error_map_seq by auto|].
  split; [intros i v Hi; apply HP in Hi as (Hi & Li); now apply HD|].
  intros q Lq Hq.
  set (P := filter (fun i => match sm i with None => false | Some _ => true end) (seq 0 (2 ^ m))).
  assert (LP : length P = 2 ^ m - missing_count samples).
  { assert (X := filter_split_length (fun i => match sm i with None => true | Some _ => false end) (seq 0 (2 ^ m))).
    rewrite seq_length in X. fold (gaps sm (2 ^ m)) in X. rewrite EG in X.
    replace P with (filter (fun x => negb (match sm x with None => true | Some _ => false end)) (seq 0 (2 ^ m))); [lia|].
    unfold P. apply filter_ext. intros i. destruct (sm i); reflexivity. }
  assert (pr : primitive (root m) (2 ^ m)) by (apply root_primitive; lia).
  apply (interp_unique (map (fpow (root m)) P)).
  - assert (NP := primitive_NoDup _ _ pr). revert NP. unfold P. clear. generalize (seq 0 (2 ^ m)) as l. intros l.
    induction l as [|a l IH]; intros ND; [constructor|]. inversion ND as [|? ? H1 H2]; subst. cbn [filter]. destruct (sm a); auto.
    cbn [map]. constructor; auto. intros Hin. apply H1. apply in_map_iff in Hin as (x & Ex & Hx). apply filter_In in Hx as (Hx & _).
    rewrite <- Ex. now apply in_map.
  - rewrite map_length. lia.
  - rewrite map_length. lia.
  - intros x Hx. apply in_map_iff in Hx as (i & <- & Hi). apply filter_In in Hi as (Hi & Ei). apply in_seq in Hi.
    destruct (sm i) as [v|] eqn:E; [|discriminate].
    rewrite (HD i v) by (auto; lia). apply Hq. rewrite (nth_error_nth' samples None) by lia. f_equal. exact E.
Qed.

Lemma C24_gen_proof k s m (samples : list (option Fr)) :
  fft_settings_new blst_table k = Ok s -> m <= k -> m <= 16 -> length samples = 2 ^ m ->
  0 < missing_count samples < 2 ^ m -> missing_count samples <= 63 * (2 ^ m / 64 + 1) ->
  exists p data, length p = 2 ^ m - missing_count samples /\ recover_opt factor_table_len s samples = Ok data /\
    length data = 2 ^ m /\
    (forall i, i < 2 ^ m -> nth_error data i = Some (peval p (fpow (root m) i))) /\
    (forall i v, nth_error samples i = Some (Some v) -> peval p (fpow (root m) i) = v) /\
    (forall q, length q <= 2 ^ m - missing_count samples ->
       (forall i v, nth_error samples i = Some (Some v) -> peval q (fpow (root m) i) = v) -> forall j, coef q j = coef p j).
Proof. intros HN Hm H16. apply (C24_gen_tl factor_table_len k); auto. now apply tl16. Qed.

Lemma C24_half_tl tl k s m (p : list Fr) (samples : list (option Fr)) :
  fft_settings_new blst_table k = Ok s -> m <= k -> 2 ^ m <= tl -> length samples = 2 ^ m -> 2 * length p <= 2 ^ m ->
  (forall i v, nth_error samples i = Some (Some v) -> v = peval p (fpow (root m) i)) ->
  0 < missing_count samples -> 2 * missing_count samples <= 2 ^ m ->
  recover_opt tl s samples = Ok (map (fun i => peval p (fpow (root m) i)) (seq 0 (2 ^ m))).
Proof.
  intros HN Hm H16 L Lp HV H0 H2. destruct (new_inv k s HN) as (Hk & HS).
  assert (EG : length (gaps (fun i => nth i samples None) (2 ^ m)) = missing_count samples) by (rewrite <- L; apply gaps_count).
  assert (R := recover_opt_spec s k (root k) m tl HS Hk Hm H16 five0 (five1 m ltac:(lia)) samples p L).
  cbv zeta in R. rewrite EG in R. rewrite root_pow in R by auto. apply R.
  - lia.
  - assert (D := Nat.div_mod (2 ^ m) 64 ltac:(lia)). assert (B := Nat.mod_upper_bound (2 ^ m) 64 ltac:(lia)). lia.
  - lia.
  - intros i v Hi E. symmetry. apply HV. rewrite (nth_error_nth' samples None) by lia. f_equal. exact E.
Qed.

Lemma C24_proof k s m (p : list Fr) (samples : list (option Fr)) :
  fft_settings_new blst_table k = Ok s -> m <= k -> m <= 16 -> length samples = 2 ^ m -> 2 * length p <= 2 ^ m ->
  (forall i v, nth_error samples i = Some (Some v) -> v = peval p (fpow (root m) i)) ->
  0 < missing_count samples -> 2 * missing_count samples <= 2 ^ m ->
  recover_opt factor_table_len s samples = Ok (map (fun i => peval p (fpow (root m) i)) (seq 0 (2 ^ m))).
Proof. intros HN Hm H16. apply (C24_half_tl factor_table_len k); auto. now apply tl16. Qed.

Lemma C24_null_proof k s m (p : list Fr) (samples : list Fr) :
  fft_settings_new blst_table k = Ok s -> m <= k -> m <= 16 -> length samples = 2 ^ m -> 2 * length p <= 2 ^ m ->
  (forall i v, nth_error samples i = Some v -> v = fr_null \/ v = peval p (fpow (root m) i)) ->
  let missing := length (filter (fun v => feqb v fr_null) samples) in
  0 < missing -> 2 * missing <= 2 ^ m ->
  recover_null fr_null factor_table_len s samples (2 ^ m) = Ok (map (fun i => peval p (fpow (root m) i)) (seq 0 (2 ^ m))).
Proof.
  intros HN Hm H16 L Lp HV missing H0 H2. destruct (new_inv k s HN) as (Hk & HS).
  assert (EG := gaps_count_null fr_null samples). rewrite L in EG. fold missing in EG.
  assert (R := recover_null_spec s k (root k) m factor_table_len HS Hk Hm (tl16 m H16) five0 (five1 m ltac:(lia)) fr_null samples p L).
  cbv zeta in R. rewrite EG in R. rewrite root_pow in R by auto. apply R.
  - lia.
  - assert (D := Nat.div_mod (2 ^ m) 64 ltac:(lia)). assert (B := Nat.mod_upper_bound (2 ^ m) 64 ltac:(lia)). lia.
  - lia.
  - intros i v Hi E. destruct (feqb (nth i samples fr_null) fr_null) eqn:F; [discriminate|]. injection E as <-.
    destruct (HV i (nth i samples fr_null)) as [Q|Q].
    + rewrite (nth_error_nth' samples fr_null) by lia. reflexivity.
    + rewrite (proj2 (feqb_spec _ (nth i samples fr_null) fr_null) Q) in F. discriminate.
    + symmetry. exact Q.
Qed.

(** more samples than table entries *)
Section Big.
Context {K : fld}.
Local Open Scope fld_scope.
Lemma recover_big_panics (s : fft_settings K) k w m tl (samples : list (option K)) :
  settings_ok s k w -> (k < 32)%nat -> (m <= k)%nat -> (0 < tl < 2 ^ m)%nat -> length samples = (2 ^ m)%nat ->
  (0 < missing_count samples < 2 ^ m)%nat -> (missing_count samples <= 63 * (2 ^ m / 64 + 1))%nat ->
  recover_opt tl s samples = Panic.
Proof.
  intros HS Hk Hm Htl L Hu Hub. unfold recover_opt. rewrite L, is_pow2_pow. cbn [negb].
  set (sm := fun i => nth i samples None).
  assert (EG : length (gaps sm (2 ^ m)) = missing_count samples) by (rewrite <- L; apply gaps_count).
  rewrite (missing_spec _ None), L.
  rewrite <- EG in Hu, Hub.
  assert (ZP := zp_ok s k w m _ HS Hk Hm (le_n _) sm Hu Hub).
  unfold gaps in ZP at 1. unfold sm in ZP at 1. rewrite ZP. cbn [unwrap bind].
  rewrite check_loop.
  2: { intros i Hi. rewrite (idx_ok samples i None) by lia. cbn [bind].
       rewrite (idx_ok _ i 0) by (rewrite length_map_seq; auto). cbn [bind]. rewrite nth_map_seq by auto.
       rewrite (zero_at s k w m _ HS Hk Hm (le_n _) sm) by auto. unfold sm. destruct (nth i samples None); reflexivity. }
  cbn [bind].
  rewrite (push_loop _ (fun i => match sm i with None => 0 | Some v => v * vanish (map (fpow (w ^ (2 ^ (k - m)))) (gaps sm (2 ^ m))) ((w ^ (2 ^ (k - m))) ^ i) end)).
  2: { intros i l Hi. rewrite (idx_ok samples i None) by lia. cbn [bind]. fold (sm i). destruct (sm i); auto.
       rewrite (idx_ok _ i 0) by (rewrite length_map_seq; auto). cbn [bind]. now rewrite nth_map_seq by auto. }
  cbn [bind]. unfold recover_core.
  match goal with |- context [fft_fr s ?e true] => destruct (ifft_fr_interpolates s k w m e HS Hm ltac:(apply length_map_seq)) as (P & EP & LP & _) end.
  rewrite EP. cbn [unwrap bind]. unfold scale_poly at 1. rewrite factor_table_ok by lia. cbn [bind].
  rewrite <- LP at 1. rewrite apply_factors_panic by lia. reflexivity.
Qed.

Lemma recover_null_pair (s : fft_settings K) k w tl (null v : K) :
  settings_ok s k w -> (k < 32)%nat -> (1 <= k)%nat -> (2 <= tl)%nat -> fnat 5 <> (0 : K) -> (fnat 5 : K) ^ 2 <> 1 ->
  v <> null -> recover_null null tl s [null; v] 2 = Ok [v; v].
Proof.
  intros HS Hk H1 Htl H5 H5n Hv.
  assert (N1 : feqb null null = true) by (now apply feqb_spec).
  assert (N2 : feqb v null = false) by (destruct (feqb v null) eqn:F; auto; apply feqb_spec in F; congruence).
  assert (R := recover_null_spec s k w 1 tl HS Hk H1 Htl H5 H5n null [null; v] [v] eq_refl).
  cbv zeta in R. unfold gaps in R. cbn [seq filter nth length Nat.pow Nat.mul Nat.add] in R. rewrite N1, N2 in R.
  cbn [length] in R. rewrite R; auto.
  - cbn [Nat.pow Nat.mul Nat.add seq map]. now rewrite !single_eval.
  - change (2 / 64)%nat with 0%nat. lia.
  - intros i x Hi E. rewrite single_eval.
    destruct i as [|[|i]]; [| |lia]; cbn [nth] in E; rewrite ?N1, ?N2 in E; congruence.
Qed.
End Big.

Lemma C24_big_proof k s m (samples : list (option Fr)) :
  fft_settings_new blst_table k = Ok s -> m <= k -> 16 < m -> length samples = 2 ^ m ->
  0 < missing_count samples < 2 ^ m -> missing_count samples <= 63 * (2 ^ m / 64 + 1) ->
  recover_opt factor_table_len s samples = Panic.
Proof.
  intros HN Hm H16 L Hu Hub. destruct (new_inv k s HN) as (Hk & HS).
  apply (recover_big_panics s k (root k) m); auto. unfold factor_table_len. split; [apply pow2_pos|].
  apply Nat.pow_lt_mono_r; lia.
Qed.

Lemma C25_proof tl s (samples : list (option Fr)) data :
  recover_opt tl s samples = Ok data -> forall i v, nth_error samples i = Some (Some v) -> nth_error data i = Some v.
Proof. apply recover_opt_agrees. Qed.
Lemma C25_null_proof tl s (samples : list Fr) n data :
  recover_null fr_null tl s samples n = Ok data ->
  forall i v, i < n -> nth_error samples i = Some v -> v <> fr_null -> nth_error data i = Some v.
Proof. apply recover_null_agrees. Qed.

Lemma C26_proof tl (s : fft_settings Fr) (vs : list Fr) m : length vs = 2 ^ m ->
  recover_opt tl s (map Some vs) = Panic /\ (~ In fr_null vs -> recover_null fr_null tl s vs (2 ^ m) = Panic).
Proof. intros L. split; [now apply (recover_opt_complete tl s vs m)|]. intros H. now apply recover_null_complete. Qed.

Lemma C27_proof k s (v : Fr) : fft_settings_new blst_table k = Ok s -> 1 <= k -> v <> fr_null ->
  recover_null fr_null factor_table_len s [fr_null; v] 2 = Ok [v; v] /\
  recover_opt factor_table_len s [Some fr_null; Some v] = Panic.
Proof.
  intros HN H1 Hv. destruct (new_inv k s HN) as (Hk & HS). split.
  - apply (recover_null_pair s k (root k)); auto.
    + apply (tl16 1). lia.
    + apply five0.
    + apply (five1 1). lia.
  - apply (recover_opt_complete _ s [fr_null; v] 1). reflexivity.
Qed.

Lemma C47_proof k s m : fft_settings_new blst_table k = Ok s -> 2 <= m <= k -> m <= 16 ->
  exists (samples : list (option Fr)) (out : list Fr),
    length samples = 2 ^ m /\ missing_count samples = 1 /\
    (forall q : list Fr, 2 * length q <= 2 ^ m -> exists i v, nth_error samples i = Some (Some v) /\ peval q (fpow (root m) i) <> v) /\
    recover_opt factor_table_len s samples = Ok out.
Proof.
  intros HN Hm H16.
  set (h := 2 ^ (m - 1)). assert (Eh : 2 ^ m = 2 * h) by (unfold h; replace m with (S (m - 1)) at 1 by lia; reflexivity).
  assert (Hh : 2 <= h) by (unfold h; replace 2 with (2 ^ 1) at 1 by reflexivity; apply Nat.pow_le_mono_r; lia).
  set (p := repeat (f0 : Fr) h ++ [f1]).
  set (samples := None :: map (fun i => Some (peval p (fpow (root m) i))) (seq 1 (2 ^ m - 1))).
  assert (L : length samples = 2 ^ m) by (unfold samples; cbn [length]; rewrite map_length, seq_length; lia).
  assert (MC : missing_count samples = 1).
  { unfold missing_count, samples. cbn [filter length]. f_equal. rewrite filter_map_length.
    clear. induction (seq 1 (2 ^ m - 1)); auto. }
  destruct (C24_gen_proof k s m samples HN ltac:(lia) H16 L ltac:(lia) ltac:(lia)) as (P & data & LP & R & _ & _ & _ & UQ).
  assert (NE : forall i, 1 <= i < 2 ^ m -> nth_error samples i = Some (Some (peval p (fpow (root m) i)))).
  { intros i Hi. unfold samples. destruct i; [lia|]. cbn [nth_error]. rewrite nth_error_map.
    rewrite (nth_error_nth' _ 0) by (rewrite seq_length; lia). rewrite seq_nth by lia. reflexivity. }
  exists samples, data. split; auto. split; auto. split; [|exact R].
  intros q Lq.
  assert (ALL : (forall i v, nth_error samples i = Some (Some v) -> peval q (fpow (root m) i) = v) \/
      exists i v, nth_error samples i = Some (Some v) /\ peval q (fpow (root m) i) <> v).
  { set (f := fun i => match nth_error samples i with Some (Some v) => feqb (peval q (fpow (root m) i)) v | _ => true end).
    destruct (forallb f (seq 0 (2 ^ m))) eqn:F.
    - left. intros i v Hi. rewrite forallb_forall in F. assert (Li : i < 2 ^ m) by (rewrite <- L; apply nth_error_Some; congruence).
      assert (Fi := F i ltac:(apply in_seq; lia)). unfold f in Fi. rewrite Hi in Fi. now apply feqb_spec in Fi.
    - right. assert (X : existsb (fun i => negb (f i)) (seq 0 (2 ^ m)) = true).
      { clear -F. induction (seq 0 (2 ^ m)) as [|a l IH]; cbn [forallb existsb] in *; [discriminate|]. destruct (f a); cbn [negb orb andb] in *; auto. }
      apply existsb_exists in X as (i & Hi & Fi). unfold f in Fi. destruct (nth_error samples i) as [[v|]|] eqn:E; try discriminate.
      exists i, v. split; auto. intros Q. rewrite (proj2 (feqb_spec _ _ _) Q) in Fi. discriminate. }
  destruct ALL as [ALL|X]; auto. exfalso.
  assert (Lpp : length p = h + 1) by (unfold p; rewrite app_length, repeat_length; reflexivity).
  assert (C1 := UQ p ltac:(lia)). assert (C2 := UQ q ltac:(lia) ALL h).
  rewrite <- C1 in C2.
  - rewrite coef_over in C2 by lia. unfold p in C2. rewrite coef_app, repeat_length, Nat.ltb_irrefl, Nat.sub_diag in C2.
    apply (@f1_neq_0 Fr). exact (eq_sym C2).
  - intros i v Hi. assert (Li : i < 2 ^ m) by (rewrite <- L; apply nth_error_Some; congruence).
    destruct i; [discriminate|]. rewrite NE in Hi by lia. congruence.
Qed.
