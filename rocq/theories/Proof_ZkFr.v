(** * Proof_ZkFr: the zkcrypto backend at the concrete scalar field and root table *)
From Coq Require Import List Arith Lia ZArith NArith Bool Field Ring.
From Verif Require Import Base Fld Poly Zr ZrTables Loops Model_Utils Proof_Utils Model_FFT Spec Spec_More Proof_FFT Proof_FFTFr
  Model_Das Proof_DasFr Model_Poly Proof_Poly1 Proof_Poly2 Proof_PolyFr Model_ZeroPoly Proof_Zero1 Proof_Zero2 Proof_Zero3 Proof_Zero4
  Model_Recovery Proof_Recovery Proof_RecoveryFr Proof_MclFr Model_Zk Model_ZkZero Proof_Zk Proof_ZkZero.
Import ListNotations.

Lemma two0 : (fnat 2 : Fr) <> f0.
Proof. rewrite fnat_Fr. intros H. apply (f_equal val) in H. vm_compute in H. discriminate. Qed.

Lemma zk_table_blst : zk_table = blst_table.
Proof. unfold zk_table, blst_table. now rewrite (proj1 (proj2 tables_same)). Qed.

Lemma zk_new_blst k : zk_fft_settings_new zk_table k = fft_settings_new blst_table k.
Proof. unfold zk_fft_settings_new. now rewrite zk_table_blst. Qed.

Lemma zfft s (data : list Fr) inverse : zk_fft_fr s data inverse = fft_fr s data inverse.
Proof. apply zk_fft_fr_eq. exact two0. Qed.
Lemma zfftg (M : gmod Fr) s (data : list M) inverse : zk_fft_g1 s data inverse = fft_g1 s data inverse.
Proof. apply zk_fft_g1_eq. exact two0. Qed.
Lemma zdas s (val : list Fr) : zk_das_fft_extension s val = das_fft_extension s val.
Proof. apply zk_das_eq. exact two0. Qed.

Lemma C65_settings_proof scale :
  (scale < 32 ->
   exists s w, zk_fft_settings_new zk_table scale = Ok s /\
     max_width s = 2 ^ scale /\ primitive w (2 ^ scale) /\ root_of_unity s = w /\
     length (expanded_roots s) = 2 ^ scale + 1 /\ length (reverse_roots s) = 2 ^ scale + 1 /\
     forall i, i <= 2 ^ scale ->
       nth_error (expanded_roots s) i = Some (fpow w i) /\
       nth_error (reverse_roots s) i = Some (fpow w (2 ^ scale - i)) /\
       fmul (fpow w i) (fpow w (2 ^ scale - i)) = f1) /\
  (32 <= scale -> zk_fft_settings_new zk_table scale = Err).
Proof. rewrite zk_new_blst. apply C05_proof. Qed.

Lemma C65_fr_proof k s (data : list Fr) :
  zk_fft_settings_new zk_table k = Ok s ->
  (forall m, m <= k -> length data = 2 ^ m ->
     exists out, zk_fft_fr s data false = Ok out /\ length out = 2 ^ m /\
       forall i, i < 2 ^ m -> nth_error out i = Some (peval data (fpow (root m) i))) /\
  (acceptable s (length data) ->
     (let* f := zk_fft_fr s data false in zk_fft_fr s f true) = Ok data /\
     (let* f := zk_fft_fr s data true in zk_fft_fr s f false) = Ok data) /\
  (~ acceptable s (length data) -> forall inverse, zk_fft_fr s data inverse = Err).
Proof.
  rewrite zk_new_blst. intros E. repeat split.
  - intros m Hm L. setoid_rewrite zfft. now apply (C07_proof k).
  - rewrite zfft. destruct (C08_proof k s data E H) as [A _]. destruct (fft_fr s data false); cbn [bind] in *; try discriminate. now rewrite zfft.
  - rewrite zfft. destruct (C08_proof k s data E H) as [_ A]. destruct (fft_fr s data true); cbn [bind] in *; try discriminate. now rewrite zfft.
  - intros H inverse. rewrite zfft. now apply (fft_fr_total k).
Qed.

Lemma C65_g1_proof (M : gmod Fr) k s m (data : list M) :
  zk_fft_settings_new zk_table k = Ok s -> m <= k -> length data = 2 ^ m ->
  exists out, zk_fft_g1 s data false = Ok out /\ length out = 2 ^ m /\
    (forall i, i < 2 ^ m ->
       nth_error out i = Some (gsum (2 ^ m) (fun j => smul (fpow (root m) (i * j)) (nth j data g0)))) /\
    zk_fft_g1 s out true = Ok data /\
    (exists inv, zk_fft_g1 s data true = Ok inv /\ zk_fft_g1 s inv false = Ok data).
Proof. rewrite zk_new_blst. intros E Hm L. setoid_rewrite zfftg. now apply (C10_proof M k). Qed.

Lemma C65_g1_args_proof (M : gmod Fr) k s (data : list M) inverse :
  zk_fft_settings_new zk_table k = Ok s -> ~ acceptable s (length data) -> zk_fft_g1 s data inverse = Err.
Proof. rewrite zk_new_blst. intros E H. rewrite zfftg. now apply (fft_g1_total M k). Qed.

Lemma C65_das_proof k s m (evens : list Fr) :
  zk_fft_settings_new zk_table k = Ok s -> m < k -> length evens = 2 ^ m ->
  exists odds p, zk_das_fft_extension s evens = Ok odds /\ length odds = 2 ^ m /\ length p = 2 ^ m /\
    (forall i, i < 2 ^ m ->
       nth_error evens i = Some (peval p (fpow (root (S m)) (2 * i))) /\
       nth_error odds i = Some (peval p (fpow (root (S m)) (2 * i + 1)))) /\
    zk_fft_fr s (interleave evens odds) true = Ok (p ++ repeat f0 (2 ^ m)) /\
    (forall odds' q, length odds' = 2 ^ m -> length q = 2 ^ m ->
       zk_fft_fr s (interleave evens odds') true = Ok (q ++ repeat f0 (2 ^ m)) -> odds' = odds).
Proof. rewrite zk_new_blst. intros E Hm L. setoid_rewrite zfft. setoid_rewrite zdas. now apply (C11_proof k). Qed.

Lemma C65_das_args_proof k s (evens : list Fr) :
  zk_fft_settings_new zk_table k = Ok s ->
  ~ ((exists m, length evens = 2 ^ m) /\ 2 * length evens <= max_width s) -> zk_das_fft_extension s evens = Err.
Proof. rewrite zk_new_blst. intros E. rewrite zdas. now apply (C12_proof k). Qed.

(** ** the other two constructors *)
Section NoRoots.
Context {K : fld}.
Lemma fast_no_roots fuel : forall m (ret data : list K) stride rs, length ret = 2 ^ S m -> (2 ^ S m - 1) * stride < length data -> S m < fuel ->
  fft_fr_fast_ fuel ret data stride [] rs = Panic.
Proof.
  induction fuel as [|fuel IH]; intros m ret data stride rs L D F; [lia|]. cbn [fft_fr_fast_].
  assert (P0 := pow2_pos m). rewrite Nat.pow_succ_r' in *.
  assert (H2 : length ret / 2 = 2 ^ m) by (rewrite L, Nat.mul_comm; apply Nat.div_mul; lia). rewrite H2.
  destruct (Nat.ltb_spec 0 (2 ^ m)); [|lia].
  assert (L1 : length (firstn (2 ^ m) ret) = 2 ^ m) by (rewrite firstn_length; lia).
  assert (L2 : length (skipn (2 ^ m) ret) = 2 ^ m) by (rewrite skipn_length; lia).
  destruct m as [|m].
  - change (2 ^ 0) with 1 in *. destruct fuel as [|fuel']; [lia|]. cbn [fft_fr_fast_]. rewrite L1, L2. change (1 / 2) with 0. cbn [Nat.ltb Nat.leb].
    rewrite (idx_ok data 0 f0) by lia. cbn [bind]. rewrite upd_ok by lia. cbn [bind].
    unfold slice_from. destruct (Nat.leb_spec stride (length data)); [|lia]. cbn [bind].
    rewrite (idx_ok (skipn stride data) 0 f0) by (rewrite skipn_length; lia). cbn [bind]. rewrite upd_ok by lia. cbn [bind].
    unfold for_range. cbn [Nat.sub for_]. rewrite (idx_ok (_ ++ _) _ f0) by (rewrite app_length, !set_length; lia). reflexivity.
  - rewrite (IH m) by (auto; nia). reflexivity.
Qed.
End NoRoots.

Lemma C65_from_scale_proof k s (data : list Fr) m inverse :
  zk_from_scale zk_table k = Ok s -> 0 < m <= k -> length data = 2 ^ m -> zk_fft_fr s data inverse = Panic.
Proof.
  unfold zk_from_scale. destruct (_ <=? _); [discriminate|]. intros E Hm L. apply Ok_inj in E. subst s.
  rewrite zfft. unfold fft_fr. cbn [max_width reverse_roots expanded_roots]. rewrite L.
  assert (2 ^ m <= 2 ^ k) by (apply Nat.pow_le_mono_r; lia).
  destruct (Nat.ltb_spec (2 ^ k) (2 ^ m)); [lia|]. rewrite is_pow2_pow. cbn [negb].
  replace (if inverse then [] else []) with (@nil Fr) by (now destruct inverse).
  unfold fft_fr_fast. destruct m as [|m]; [lia|]. assert (P0 := pow2_pos (S m)).
  rewrite (fast_no_roots _ m); auto; rewrite ?repeat_length; try lia.
  assert (S m < 2 ^ S m) by (apply Nat.pow_gt_lin_r; lia). lia.
Qed.

Lemma C65_new_fft_settings_proof k (data : list Fr) inverse : zk_fft_fr (zk_new_fft_settings k) data inverse = Err.
Proof.
  rewrite zfft. unfold fft_fr. cbn [zk_new_fft_settings zk_fft_settings_default max_width].
  destruct data as [|x data]; [reflexivity|]. reflexivity.
Qed.

(** ** polynomials *)
Lemma zmul_fft a b len : zk_poly_mul_fft zk_table len a b = mul_fft blst_table a b len.
Proof. rewrite zk_table_blst. apply zk_poly_mul_fft_eq. exact two0. Qed.
Lemma zmul a b len : zk_poly_mul zk_table a b len = poly_mul blst_table a b len.
Proof. rewrite zk_table_blst. apply zk_poly_mul_eq. exact two0. Qed.

Lemma C66_mul_proof (a b : list Fr) (len : nat) : a <> [] -> b <> [] -> fits (length a + length b - 1) ->
  exists c, zk_poly_mul zk_table a b len = Ok c /\ zk_mul_direct a b len = Ok c /\ zk_poly_mul_fft zk_table len a b = Ok c /\
    length c = len /\ forall k, k < len -> nth_error c k = Some (convol a b k).
Proof.
  intros Ha Hb F. destruct (C14_proof a b len) as [(c & E & L & H) _]; auto. exists c.
  rewrite zmul, zmul_fft, C15_threshold_proof by auto. split; [exact E|]. split; [exact E|].
  destruct (C15_proof a b len Ha Hb F) as (d & Ed & Ld & Hd). rewrite Ed. split; [|auto]. f_equal.
  apply (nth_ext' f0); [lia|]. intros i Hi. rewrite Ld in Hi.
  rewrite (nth_error_nth _ _ _ (H i Hi)). apply nth_error_nth. now apply Hd.
Qed.

Lemma C66_mul_empty_proof (a b : list Fr) (len : nat) : a = [] \/ b = [] ->
  zk_poly_mul zk_table a b len = Ok [] /\ zk_mul_direct a b len = Ok [].
Proof.
  intros H. assert (E : mul_direct a b len = Ok []) by now apply mul_direct_empty. split; [|exact E].
  unfold zk_poly_mul, zk_mul_direct. destruct (_ || _ || _) eqn:C; auto.
  exfalso. destruct H as [-> | ->]; cbn [length Nat.ltb Nat.leb orb] in C; [discriminate|].
  rewrite orb_true_r in C. discriminate.
Qed.

Lemma C66_inverse_proof (p : list Fr) (n : nat) :
  (0 < n -> p <> [] -> coef p 0 <> f0 -> fits (length p + n - 1) -> fits (2 * n) ->
     exists c, zk_poly_inverse zk_table p n = Ok c /\ length c = n /\
       convol p c 0 = f1 /\ forall k, 0 < k < n -> convol p c k = f0) /\
  (p = [] \/ coef p 0 = f0 -> zk_poly_inverse zk_table p n = Err).
Proof.
  rewrite zk_table_blst. split.
  - intros Hn. rewrite zk_poly_inverse_eq by (try exact two0; lia). revert Hn. apply C16_proof.
  - intros H. destruct n as [|n].
    + rewrite zk_poly_inverse_0. assert (E : coef p 0 = f0) by (destruct H as [->|H]; [apply coef_nil|exact H]).
      rewrite E, feqb_refl. reflexivity.
    + rewrite zk_poly_inverse_eq by (try exact two0; lia). apply C16_proof. tauto.
Qed.

Lemma C66_inverse_empty_proof (p : list Fr) : coef p 0 <> f0 -> zk_poly_inverse zk_table p 0 = Panic.
Proof. intros H. rewrite zk_poly_inverse_0. apply feqb_false in H. now rewrite H. Qed.

Lemma C66_long_proof (a b : list Fr) : a <> [] -> coef b (length b - 1) <> f0 ->
  exists q, zk_long_div a b = Ok q /\ euclid a b q /\ forall q', euclid a b q' -> q' = q.
Proof.
  intros Ha Hb. rewrite zk_long_div_eq by auto. destruct (C17_proof a b) as [H _]. apply H; auto.
  intros ->. apply Hb. reflexivity.
Qed.

Lemma C66_fast_proof (a b : list Fr) : a <> [] -> coef b (length b - 1) <> f0 -> fits (2 * length a) ->
  zk_fast_div zk_table a b = zk_long_div a b.
Proof. intros Ha Hb F. rewrite zk_table_blst, zk_fast_div_eq, zk_long_div_eq by (auto; exact two0). now apply C18_fast_proof. Qed.

Lemma C66_div_proof (a b : list Fr) : fits (2 * length a) -> (exists i, coef a i <> f0) -> (exists i, coef b i <> f0) ->
  exists a' b' q, zk_poly_div zk_table a b = Ok q /\ (exists z, a = a' ++ repeat f0 z) /\ (exists z, b = b' ++ repeat f0 z) /\
    last a' f0 <> f0 /\ last b' f0 <> f0 /\ euclid a' b' q.
Proof. intros F Ha Hb. rewrite zk_table_blst. now apply zk_poly_div_spec; auto using two0, blst_table_ok, blst_table_length. Qed.

Lemma C66_div_fail_proof (a b : list Fr) : fits (2 * length a) ->
  ((forall i, coef b i = f0) -> zk_poly_div zk_table a b = Err) /\
  ((exists i, coef b i <> f0) -> (forall i, coef a i = f0) -> zk_poly_div zk_table a b = Panic).
Proof.
  intros F. rewrite zk_table_blst.
  destruct (zk_poly_div_spec two0 blst_table blst_table_length blst_table_ok a b F) as (A & B & _). auto.
Qed.

Lemma C66_zero_lead_proof (a b : list Fr) : a <> [] -> b <> [] -> coef b (length b - 1) = f0 ->
  zk_long_div a b = Ok (repeat f0 (length a + 1 - length b)) /\
  (2 <= length b <= length a -> zk_fast_div zk_table a b = Panic).
Proof.
  intros Ha Hb Z. split.
  - rewrite zk_long_div_zero_lead by auto. unfold poly_quotient_length.
    destruct (Nat.leb_spec (length b) (length a)); do 2 f_equal; lia.
  - intros L. now apply zk_fast_div_zero_lead; auto using two0.
Qed.

(** ** scaling *)
Lemma zscale (p : list Fr) : zk_poly_scale p = poly_scale p.
Proof. apply zk_poly_scale_eq. exact five0. Qed.
Lemma C67_scale_proof (p : list Fr) :
  exists q u, zk_poly_scale p = Ok q /\ zk_poly_unscale p = Ok u /\ zk_poly_unscale q = Ok p /\ zk_poly_scale u = Ok p /\
    forall x : Fr, peval q x = fmul (fdiv f1 (fr_of 5)) (peval p (fdiv x (fr_of 5))) /\
                   peval u x = fmul (fr_of 5) (peval p (fmul (fr_of 5) x)).
Proof.
  destruct (C19_effect_proof p) as (q & u & E1 & E2 & H). destruct (C19_scale_proof p) as [A B].
  rewrite E1 in A. rewrite E2 in B. exists q, u. unfold zk_poly_unscale. rewrite !zscale. auto 10.
Qed.

(** ** vanishing polynomials *)
Lemma C68_partial_proof k s m (idxs : list nat) :
  zk_fft_settings_new zk_table k = Ok s -> m <= k -> Forall (fun i => i < 2 ^ m) idxs ->
  (idxs <> [] -> exists p, zk_zero_partial s idxs (2 ^ (k - m)) = Ok p /\ length p = length idxs + 1 /\
     (forall j, coef p j = coef (vanish_poly (map (fpow (root m)) idxs)) j) /\
     (forall x, peval p x = vanish (map (fpow (root m)) idxs) x) /\
     coef p (length idxs) = f1 /\
     (forall i, i < 2 ^ m -> (peval p (fpow (root m) i) = f0 <-> In i idxs))) /\
  (idxs = [] -> zk_zero_partial s idxs (2 ^ (k - m)) = Err).
Proof. rewrite zk_new_blst, zk_zero_partial_eq. apply C20_proof. Qed.

Lemma degsum_ls (ps : list (list Fr)) : degsum ps + 1 = 1 + list_sum (map (fun p => length p - 1) ps).
Proof. induction ps as [|p ps IH]; [reflexivity|]. unfold degsum in *. cbn [map list_sum fold_right] in *. unfold list_sum in *. lia. Qed.

Lemma C68_reduce_proof k s dom (ps : list (list Fr)) :
  zk_fft_settings_new zk_table k = Ok s -> ps <> [] -> Forall (fun p => p <> []) ps ->
  let len := 1 + list_sum (map (fun p => length p - 1) ps) in
  ((exists m, dom = 2 ^ m) /\ len <= dom <= max_width s ->
     exists c, zk_reduce_partials s dom ps = Ok c /\ length c = len /\
       (forall j, coef c j = coef (fold_right pmul [f1] ps) j) /\
       (forall x, peval c x = fold_right fmul f1 (map (fun p => peval p x) ps))) /\
  ((forall m, dom <> 2 ^ m) \/ dom < len -> zk_reduce_partials s dom ps = Err) /\
  ((exists m, dom = 2 ^ m) -> len <= dom -> max_width s < dom -> zk_reduce_partials s dom ps = Panic).
Proof.
  rewrite zk_new_blst. intros E Hn HF len. destruct (new_inv k s E) as (Hk & HS). split; [|split].
  - intros H. destruct (C21_proof k s dom ps E Hn HF) as [A _]. destruct (A H) as (c & Ec & R). exists c. split; [|exact R].
    apply (reduce_carries two0). exact Ec.
  - intros H. eapply zk_reduce_errors; eauto. rewrite degsum_ls. exact H.
  - intros (m & ->) L W. eapply zk_reduce_wide; eauto using two0; [rewrite degsum_ls; exact L|].
    destruct HS as (HW & _). now rewrite <- HW.
Qed.

Lemma C68_zero_poly_proof k s m (missing : list nat) :
  zk_fft_settings_new zk_table k = Ok s -> m <= k ->
  0 < length missing < 2 ^ m -> length missing <= 63 * (2 ^ m / 64 + 1) ->
  Forall (fun i => i < 2 ^ m) missing ->
  exists ev zp, zk_zero_poly s (2 ^ m) missing = Ok (ev, zp) /\
    length ev = 2 ^ m /\ length zp = 2 ^ m /\
    (forall j, coef zp j = coef (vanish_poly (map (fpow (root m)) missing)) j) /\
    (forall x, peval zp x = vanish (map (fpow (root m)) missing) x) /\
    coef zp (length missing) = f1 /\
    (forall i, i < 2 ^ m -> nth_error ev i = Some (peval zp (fpow (root m) i))) /\
    (forall i, i < 2 ^ m -> (nth_error ev i = Some f0 <-> In i missing)).
Proof.
  rewrite zk_new_blst. intros E Hm H1 H2 HF. destruct (C22_proof k s m missing E Hm H1 H2 HF) as (ev & zp & Ez & R).
  exists ev, zp. split; [|exact R]. destruct (new_inv k s E) as (Hk & _).
  apply (zero_poly_carries two0); [|exact Ez]. apply (pow2_N_le m 57). lia.
Qed.

Lemma C68_args_proof (s : fft_settings Fr) d (missing : list nat) :
  (missing = [] -> zk_zero_poly s d missing = Ok ([], [])) /\
  (missing <> [] -> d <= length missing \/ max_width s < d \/ (forall m, d <> 2 ^ m) -> zk_zero_poly s d missing = Err).
Proof. apply zk_zero_poly_args. Qed.

Lemma C68_fails_proof k s m (missing : list nat) :
  zk_fft_settings_new zk_table k = Ok s -> m <= k ->
  63 * (2 ^ m / 64 + 1) < length missing < 2 ^ m -> Forall (fun i => i < 2 ^ m) missing ->
  zk_zero_poly s (2 ^ m) missing = Err.
Proof.
  rewrite zk_new_blst. intros E Hm H HF. destruct (new_inv k s E) as (Hk & HS).
  eapply zk_zero_poly_fails; eauto using two0.
Qed.

(** ** recovery *)
Lemma zrec k s m (samples : list (option Fr)) : fft_settings_new blst_table k = Ok s -> m <= k -> length samples = 2 ^ m ->
  zk_recover s samples = unwrap (recover_opt (2 ^ m) s samples).
Proof.
  intros E Hm L. destruct (new_inv k s E) as (Hk & HS).
  apply (zk_recover_spec two0 s k (root k) m HS Hk Hm); auto; try exact five0; apply five1; lia.
Qed.

Lemma C69_proof k s m (p : list Fr) (samples : list (option Fr)) :
  zk_fft_settings_new zk_table k = Ok s -> m <= k -> length samples = 2 ^ m -> 2 * length p <= 2 ^ m ->
  (forall i v, nth_error samples i = Some (Some v) -> v = peval p (fpow (root m) i)) ->
  0 < missing_count samples -> 2 * missing_count samples <= 2 ^ m ->
  zk_recover s samples = Ok (map (fun i => peval p (fpow (root m) i)) (seq 0 (2 ^ m))).
Proof.
  rewrite zk_new_blst. intros E Hm L Lp HV H0 H2. rewrite (zrec k s m) by auto.
  rewrite (C24_half_tl (2 ^ m) k s m p) by auto. reflexivity.
Qed.

Lemma C69_gen_proof k s m (samples : list (option Fr)) :
  zk_fft_settings_new zk_table k = Ok s -> m <= k -> length samples = 2 ^ m ->
  0 < missing_count samples < 2 ^ m -> missing_count samples <= 63 * (2 ^ m / 64 + 1) ->
  exists p data, length p = 2 ^ m - missing_count samples /\ zk_recover s samples = Ok data /\
    length data = 2 ^ m /\
    (forall i, i < 2 ^ m -> nth_error data i = Some (peval p (fpow (root m) i))) /\
    (forall i v, nth_error samples i = Some (Some v) -> peval p (fpow (root m) i) = v) /\
    (forall q, length q <= 2 ^ m - missing_count samples ->
       (forall i v, nth_error samples i = Some (Some v) -> peval q (fpow (root m) i) = v) -> forall j, coef q j = coef p j).
Proof.
  rewrite zk_new_blst. intros E Hm L H0 H2. rewrite (zrec k s m) by auto.
  destruct (C24_gen_tl (2 ^ m) k s m samples E Hm (le_n _) L H0 H2) as (p & d & L1 & E1 & R).
  exists p, d. rewrite E1. auto.
Qed.

Lemma C69_agrees_proof k s m (samples : list (option Fr)) data :
  zk_fft_settings_new zk_table k = Ok s -> m <= k -> length samples = 2 ^ m -> zk_recover s samples = Ok data ->
  forall i v, nth_error samples i = Some (Some v) -> nth_error data i = Some v.
Proof.
  rewrite zk_new_blst. intros E Hm L. rewrite (zrec k s m) by auto. intros R.
  destruct (recover_opt (2 ^ m) s samples) as [d| | |] eqn:Ed; try discriminate. apply Ok_inj in R. subst d.
  now apply (C25_proof (2 ^ m) s).
Qed.

Lemma C69_complete_proof k s m (vs : list Fr) : zk_fft_settings_new zk_table k = Ok s -> m <= k -> length vs = 2 ^ m ->
  zk_recover s (map Some vs) = Panic.
Proof.
  rewrite zk_new_blst. intros E Hm L. rewrite (zrec k s m) by (rewrite ?map_length; auto).
  now rewrite (proj1 (C26_proof (2 ^ m) s vs m L)).
Qed.

Lemma C69_lengths_proof (s : fft_settings Fr) (samples : list (option Fr)) :
  (forall m, length samples <> 2 ^ m) \/ max_width s < length samples -> zk_recover s samples = Panic.
Proof.
  destruct (zk_recover_lengths s samples) as [A B]. intros [H|H]; [now apply A|].
  destruct (std_is_pow2 (length samples)) eqn:P.
  - apply std_is_pow2_spec in P as (m & P). apply (B m P). now rewrite <- P.
  - apply A. intros m P'. apply not_true_iff_false in P. apply P. apply std_is_pow2_spec. eauto.
Qed.

(** ** normal form and division by a linear factor *)
Lemma C67_from_coefficients_proof (p : list Fr) :
  exists q, zk_from_coefficients p = Ok q /\ (exists z, p = q ++ repeat f0 z) /\ (q = [] \/ last q f0 <> f0).
Proof. rewrite (proj1 (zk_from_coefficients_eq p)). apply zk_truncate_spec. Qed.

Section Lin.
Context {K : fld}.
Add Field Kfzl : (fld_field K).
Local Open Scope fld_scope.
Lemma linear_factor (x z : K) (q : list K) : forall (p : list K) (c : K), coef p 0 = c - z * coef q 0 ->
  (forall k, coef p (S k) = coef q k - z * coef q (S k)) -> peval p x = (x - z) * peval q x + c.
Proof.
  induction q as [|a q IH]; intros p c H0 H.
  - rewrite (peval_ext p [c]); [simpl; ring|]. intros [|k].
    + rewrite H0, coef_nil. change (coef [c] 0) with c. ring.
    + rewrite H, !coef_nil, coef_over by (simpl; lia). ring.
  - assert (E : peval p x = coef p 0 + x * peval (tl p) x) by (destruct p as [|b p]; [rewrite coef_nil|]; simpl; [ring|reflexivity]).
    rewrite E, (IH (tl p) a), H0.
    + change (coef (a :: q) 0) with a. simpl. ring.
    + replace (coef (tl p) 0) with (coef p 1) by (destruct p; reflexivity). rewrite H. reflexivity.
    + intros k. replace (coef (tl p) (S k)) with (coef p (S (S k))) by (destruct p; [now rewrite !coef_nil|reflexivity]). rewrite H. reflexivity.
Qed.
End Lin.

Lemma C67_ruffini_proof (p : list Fr) (z : Fr) : last p f0 <> f0 \/ (forall i, coef p i = f0) ->
  exists q, zk_ruffini p z = Ok q /\ (q = [] \/ last q f0 <> f0) /\
    (forall x, peval p x = fadd (fmul (fsub x z) (peval q x)) (peval p z)) /\
    coef p 0 = fsub (peval p z) (fmul z (coef q 0)) /\
    (forall k, coef p (S k) = fsub (coef q k) (fmul z (coef q (S k)))).
Proof.
  intros H. destruct (zk_ruffini_spec p z H) as (q & E & N & A & B). exists q. split; [exact E|]. split; [exact N|].
  split; [|auto]. intros x. now apply linear_factor.
Qed.

Lemma near_total_proof : exists missing : list nat, NoDup missing /\ Forall (fun i => i < 2 ^ 13) missing /\
  63 * (2 ^ 13 / 64 + 1) < length missing < 2 ^ 13.
Proof.
  assert (E : 2 ^ 13 = 128 * 64) by reflexivity. exists (seq 0 (127 * 64)). rewrite E, seq_length, Nat.div_mul by lia.
  split; [apply seq_NoDup|]. split; [|lia]. apply Forall_forall. intros i Hi. apply in_seq in Hi. lia.
Qed.
