(** * Proof_MclFr: backing lemmas for [Properties_Mcl] *)
From Coq Require Import List Arith Lia Bool NArith ZArith Field.
From Verif Require Import Base Fld Poly Loops Model_Utils Proof_Utils Model_FFT Spec Proof_FFT Tables Zr ZrTables Proof_FFTFr
  Model_Das Proof_Das Proof_DasFr Model_Mcl Spec_Mcl Proof_Mcl.
Import ListNotations.

(** ** Threads *)
Section Threads.
Context {K : fld}.

Definition steps_left (t : thread K) : nat :=
  match t with
  | NCheck _ => 5 | NTable _ => 4 | NInit _ => 3 | NDefault _ => 2 | NRead _ => 1
  | KTable _ _ => 4 | KInit _ => 3 | KDefault _ => 2 | KRead _ => 1
  | Finished _ => 0
  end.

Lemma step_left pr5 t g : steps_left (fst (thread_step pr5 t g)) <= steps_left t - 1.
Proof. destruct t; simpl; try lia. destruct (_ && _); simpl; lia. Qed.

Definition good_new (pr5 : list K) (k : nat) (t : thread K) (g : globals K) : Prop :=
  match t with
  | NCheck k' | NTable k' => k' = k
  | NInit k' | NDefault k' | NRead k' => k' = k /\ g_table g = pr5
  | Finished r => r = idx pr5 k
  | _ => False
  end.

Definition good_custom (table : list K) (k : nat) (t : thread K) (g : globals K) : Prop :=
  match t with
  | KTable table' k' => k' = k /\ table' = table
  | KInit k' | KDefault k' | KRead k' => k' = k /\ g_table g = table
  | Finished r => r = if length table <=? k then Err else idx table k
  | _ => False
  end.

Lemma nth_error_set {A} (l : list A) i x j y :
  nth_error l i = Some y -> nth_error (set l i x) j = if j =? i then Some x else nth_error l j.
Proof.
  revert i j; induction l; intros [|i] [|j] H; simpl in *; try discriminate; auto.
Qed.

(** a family of thread predicates preserved by every step lifts to every schedule *)
Lemma run_invariant pr5 (good : nat -> thread K -> globals K -> Prop) (G : globals K -> Prop) scales :
  (forall i j k k' t t' g, nth_error scales i = Some k -> nth_error scales j = Some k' ->
     G g -> good k t g -> good k' t' g ->
     G (snd (thread_step pr5 t g)) /\ good k (fst (thread_step pr5 t g)) (snd (thread_step pr5 t g)) /\
     good k' t' (snd (thread_step pr5 t g))) ->
  forall sched ts g, length ts = length scales -> G g ->
  (forall i k, nth_error scales i = Some k -> exists t, nth_error ts i = Some t /\ good k t g) ->
  forall ts' g', run_threads pr5 sched ts g = (ts', g') ->
  length ts' = length scales /\ G g' /\
  forall i k, nth_error scales i = Some k -> exists t t', nth_error ts i = Some t /\ nth_error ts' i = Some t' /\
    good k t' g' /\ steps_left t' <= steps_left t - count_occ Nat.eq_dec sched i.
Proof.
  intros HS. induction sched as [|i sched IH]; intros ts g HL HG HT ts' g' E.
  - cbn [run_threads] in E. injection E as <- <-. split; [auto|split; [auto|]].
    intros i k Hi. destruct (HT i k Hi) as (t & A & B). exists t, t. simpl. repeat split; auto. lia.
  - cbn [run_threads] in E. destruct (nth_error ts i) as [t|] eqn:Et.
    + destruct (thread_step pr5 t g) as [t1 g1] eqn:Es.
      assert (Hi : exists k, nth_error scales i = Some k).
      { destruct (nth_error scales i) eqn:X; eauto. apply nth_error_None in X.
        assert (i < length ts) by (apply nth_error_Some; congruence). lia. }
      destruct Hi as (k & Hk). destruct (HT i k Hk) as (t0 & A & B). rewrite Et in A. injection A as <-.
      assert (S1 : forall j k' t', nth_error scales j = Some k' -> good k' t' g ->
                 G g1 /\ good k t1 g1 /\ good k' t' g1).
      { intros j k' t' Hj Ht'. assert (X := HS i j k k' t t' g Hk Hj HG B Ht'). now rewrite Es in X. }
      destruct (IH (set ts i t1) g1) with (ts' := ts') (g' := g') as (L & G' & I); auto.
      * now rewrite set_length.
      * apply (S1 i k t Hk B).
      * intros j k' Hj. rewrite (nth_error_set ts i t1 j t Et). destruct (Nat.eqb_spec j i) as [->|N].
        -- exists t1. split; auto. rewrite Hk in Hj. injection Hj as <-. apply (S1 i k t Hk B).
        -- destruct (HT j k' Hj) as (t' & A' & B'). exists t'. split; auto. apply (S1 j k' t' Hj B').
      * split; [auto|split; [auto|]]. intros j k' Hj. destruct (I j k' Hj) as (u & u' & U1 & U2 & U3 & U4).
        rewrite (nth_error_set ts i t1 j t Et) in U1. cbn [count_occ].
        destruct (Nat.eqb_spec j i) as [->|N].
        -- injection U1 as <-. exists t, u'. repeat split; auto.
           destruct (Nat.eq_dec i i) as [_|]; [|contradiction].
           assert (X := step_left pr5 t g). rewrite Es in X. simpl in X. lia.
        -- exists u, u'. repeat split; auto. destruct (Nat.eq_dec i j); [congruence|]. lia.
    + destruct (IH ts g HL HG HT ts' g' E) as (L & G' & I). split; [auto|split; [auto|]].
      intros j k Hj. destruct (I j k Hj) as (u & u' & U1 & U2 & U3 & U4). exists u, u'. repeat split; auto.
      cbn [count_occ]. destruct (Nat.eq_dec i j) as [->|]; [congruence|auto].
Qed.

Lemma steps_left_0 (t : thread K) : steps_left t = 0 -> exists r : res K, t = Finished r.
Proof. destruct t; simpl; try lia. eauto. Qed.

Lemma threads_new (pr5 : list K) scales sched ts g :
  run_threads pr5 sched (map new_thread scales) globals0 = (ts, g) ->
  forall i k, nth_error scales i = Some k ->
    (forall r, nth_error ts i = Some (Finished r) -> r = idx pr5 k) /\
    (5 <= count_occ Nat.eq_dec sched i -> nth_error ts i = Some (Finished (idx pr5 k))).
Proof.
  intros E i k Hk.
  destruct (run_invariant pr5 (good_new pr5) (consistent pr5) scales) with (sched := sched)
    (ts := map (@new_thread K) scales) (g := @globals0 K) (ts' := ts) (g' := g) as (L & G & I); auto.
  - intros a b k1 k2 t t' g0 _ _ HG H1 H2. unfold consistent in *.
    destruct t; cbn [thread_step fst snd good_new g_table g_init g_default] in *; try contradiction.
    + destruct (g_init g0 && g_default g0); cbn [good_new]; auto.
    + subst. repeat split; auto. destruct t'; cbn [good_new g_table] in *; tauto.
    + destruct H1. subst. repeat split; auto.
    + destruct H1. subst. repeat split; auto.
    + destruct H1. subst. repeat split; auto.
    + subst. auto.
  - now rewrite map_length.
  - apply globals0_consistent.
  - intros a b Hb. exists (new_thread b). split; [now apply map_nth_error|reflexivity].
  - destruct (I i k Hk) as (t & t' & A & B & C & D).
    rewrite (map_nth_error _ i scales Hk) in A. injection A as <-. cbn [steps_left new_thread] in D. split.
    + intros r Hr. rewrite B in Hr. injection Hr as ->. exact C.
    + intros Hc. destruct (steps_left_0 t') as (r & ->); [lia|]. rewrite B. now rewrite <- C.
Qed.

Lemma threads_custom (pr5 table : list K) scales sched ts g0 g :
  run_threads pr5 sched (map (custom_thread table) scales) g0 = (ts, g) ->
  forall i k, nth_error scales i = Some k ->
    (forall r, nth_error ts i = Some (Finished r) -> r = if length table <=? k then Err else idx table k) /\
    (4 <= count_occ Nat.eq_dec sched i ->
       nth_error ts i = Some (Finished (if length table <=? k then Err else idx table k))).
Proof.
  intros E i k Hk.
  destruct (run_invariant pr5 (good_custom table) (fun _ => True) scales) with (sched := sched)
    (ts := map (@custom_thread K table) scales) (g := g0) (ts' := ts) (g' := g) as (L & G & I); auto.
  - intros a b k1 k2 t t' g1 _ _ HG H1 H2.
    destruct t; cbn [thread_step fst snd good_custom g_table g_init g_default] in *; try contradiction.
    + destruct H1. subst. repeat split; auto. destruct t'; cbn [good_custom g_table] in *; tauto.
    + destruct H1. subst. repeat split; auto.
    + destruct H1. subst. repeat split; auto.
    + destruct H1. subst. repeat split; auto.
    + subst. auto.
  - now rewrite map_length.
  - intros a b Hb. exists (custom_thread table b). split; [now apply map_nth_error|now split].
  - destruct (I i k Hk) as (t & t' & A & B & C & D).
    rewrite (map_nth_error _ i scales Hk) in A. injection A as <-. cbn [steps_left custom_thread] in D. split.
    + intros r Hr. rewrite B in Hr. injection Hr as ->. exact C.
    + intros Hc. destruct (steps_left_0 t') as (r & ->); [lia|]. rewrite B. now rewrite <- C.
Qed.

(** two threads, one of each kind: the table of the custom call leaks into the other
    call and stays *)
Definition bad_schedule : list nat := [0; 0; 0; 1; 1; 1; 0; 0; 1].

Lemma bad_schedule_run pr5 (table : list K) k j :
  run_threads pr5 bad_schedule [new_thread k; custom_thread table j] globals0 =
  ([Finished (idx table k); Finished (if length table <=? j then Err else idx table j)], mkG table true true).
Proof. reflexivity. Qed.

Lemma corrupted_new fuel pr5 (table : list K) k :
  fst (mcl_new fuel pr5 k (mkG table true true)) = (let* root := idx table k in mcl_build fuel k root) /\
  snd (mcl_new fuel pr5 k (mkG table true true)) = mkG table true true.
Proof. split; reflexivity. Qed.
End Threads.

(** ** Settings over the concrete field *)
Lemma pr5_length : length mcl_pr5_table = 32. Proof. reflexivity. Qed.
Lemma pr7_length : length mcl_pr7_table = 32. Proof. reflexivity. Qed.

Lemma mcl_new_history fuel (h : list (call Fr)) k :
  (k < 32 -> 2 ^ k <= fuel ->
   fst (run_call fuel mcl_pr5_table (CNew k) (run_calls fuel mcl_pr5_table h globals0)) = fft_settings_new mcl_pr5_table k) /\
  (32 <= k -> fst (run_call fuel mcl_pr5_table (CNew k) (run_calls fuel mcl_pr5_table h globals0)) = Panic).
Proof.
  rewrite (run_call_history _ _ _ _ globals0);
    [|apply run_calls_consistent, globals0_consistent|apply globals0_consistent].
  cbn [run_call]. unfold mcl_new. cbn [fst]. rewrite init_globals_table by apply globals0_consistent. split.
  - intros Hk Hf. rewrite (idx_ok _ _ f0) by (now rewrite pr5_length). cbn [bind].
    apply mcl_build_blst; auto using mcl_pr5_table_ok.
  - intros Hk. rewrite idx_panic by (now rewrite pr5_length). reflexivity.
Qed.

Lemma mcl_custom_history fuel (h : list (call Fr)) (table : list Fr) k :
  table_ok table -> (k < length table -> 2 ^ k <= fuel) ->
  fst (run_call fuel mcl_pr5_table (CCustom (map Some table) k) (run_calls fuel mcl_pr5_table h globals0)) =
  fft_settings_new table k.
Proof.
  intros HT Hf. cbn [run_call]. unfold mcl_new_custom. rewrite parse_all_some. cbn [fst g_table].
  destruct (Nat.leb_spec (length table) k).
  - symmetry. now apply fft_settings_new_err.
  - rewrite (idx_ok _ _ f0) by auto. cbn [bind]. now apply mcl_build_blst; auto.
Qed.

Lemma mcl_trait_new_eq fuel scale g : (as_u8 scale < 32 -> 2 ^ as_u8 scale <= fuel) ->
  fst (mcl_trait_new fuel mcl_pr7_table scale g) = fft_settings_new mcl_pr7_table (as_u8 scale).
Proof.
  intros Hf. unfold mcl_trait_new, mcl_new_custom. rewrite parse_all_some. cbn [fst g_table].
  destruct (Nat.leb_spec (length mcl_pr7_table) (as_u8 scale)).
  - symmetry. now apply fft_settings_new_err.
  - rewrite (idx_ok _ _ f0) by auto. cbn [bind]. apply mcl_build_blst; auto using mcl_pr7_table_ok.
Qed.

Lemma table_new_inv (table : list Fr) k s : table_ok table -> length table = 32 ->
  fft_settings_new table k = Ok s -> k < 32 /\ settings_ok s k (nth k table f0).
Proof.
  intros HT HL H. destruct (Nat.lt_ge_cases k 32) as [L|L].
  - split; auto. destruct (fft_settings_new_ok table k HT) as (s' & E & S); [now rewrite HL|].
    rewrite E in H. now injection H as <-.
  - rewrite fft_settings_new_err in H by (rewrite HL; auto). discriminate.
Qed.

Lemma pow2_N_le k n : k <= n -> (N.of_nat (2 ^ k) <= 2 ^ N.of_nat n)%N.
Proof. intros H. rewrite Nat2N.inj_pow. apply N.pow_le_mono_r; lia. Qed.

Lemma pow2_N_lt k n : k < n -> (N.of_nat (2 ^ k) < 2 ^ N.of_nat n)%N.
Proof. intros H. rewrite Nat2N.inj_pow. apply N.pow_lt_mono_r; lia. Qed.


Lemma Ok_inj {A} (x y : A) : Ok x = Ok y -> x = y.
Proof. intros E. now injection E. Qed.

(** more fuel never changes a result *)
Lemma while_mono {S} (cond : S -> bool) body : forall f f' s x,
  while_ f cond body s = Ok x -> f <= f' -> while_ f' cond body s = Ok x.
Proof.
  induction f; intros f' s x E H; [discriminate|]. destruct f'; [lia|]. cbn [while_] in *.
  destruct (cond s); auto. apply bind_inv in E as (y & E1 & E2). rewrite E1. cbn [bind]. apply IHf; auto. lia.
Qed.

Lemma mcl_build_mono {K : fld} f f' k (w : K) s : mcl_build f k w = Ok s -> f <= f' -> mcl_build f' k w = Ok s.
Proof.
  unfold mcl_build, mcl_expand. intros E H. apply bind_inv in E as (l & E1 & E2).
  apply bind_inv in E1 as (x & E0 & E1). rewrite (while_mono _ _ f f' _ x E0 H). cbn [bind].
  apply Ok_inj in E1. now subst l.
Qed.

(** settings produced by one of the mcl constructors, after any history of calls, on
    the embedded tables; [k] is the effective scale and [w] the root *)
Lemma mcl_made_ok s k w : mcl_made s k w -> k < 32 /\ settings_ok s k w.
Proof.
  intros [(fuel & h & H & ->)|(fuel & g & scale & H & -> & ->)].
  - destruct (Nat.lt_ge_cases k 32) as [L|L].
    2:{ assert (X := proj2 (mcl_new_history fuel h k) L). cbn [run_call] in X. rewrite X in H. discriminate. }
    split; auto. unfold mcl_new in H. cbn [fst] in H.
    rewrite init_globals_table in H by (apply run_calls_consistent, globals0_consistent).
    rewrite (idx_ok _ _ f0) in H by (now rewrite pr5_length). cbn [bind] in H.
    apply (mcl_build_mono _ (fuel + 2 ^ k)) in H; [|lia].
    destruct (mcl_build_ok (fuel + 2 ^ k) k (nth k mcl_pr5_table f0)) as (s' & E & S).
    + apply mcl_pr5_table_ok. now rewrite pr5_length.
    + lia.
    + rewrite E in H. apply Ok_inj in H. now subst.
  - set (k := as_u8 scale) in *. unfold mcl_trait_new, mcl_new_custom in H. rewrite parse_all_some in H. cbn [fst g_table] in H.
    fold k in H. rewrite pr7_length in H.
    destruct (Nat.leb_spec 32 k) as [L|L]; [discriminate|]. split; auto.
    rewrite (idx_ok _ _ f0) in H by (now rewrite pr7_length). cbn [bind] in H.
    apply (mcl_build_mono _ (fuel + 2 ^ k)) in H; [|lia].
    destruct (mcl_build_ok (fuel + 2 ^ k) k (nth k mcl_pr7_table f0)) as (s' & E & S).
    + apply mcl_pr7_table_ok. now rewrite pr7_length.
    + lia.
    + rewrite E in H. apply Ok_inj in H. now subst.
Qed.

Section Generic.
Context {K : fld}.
Add Field Kfmf : (fld_field K).
Local Open Scope fld_scope.

Lemma peval_self_dft (w : K) n (data : list K) : (length data <= n)%nat ->
  dft (M := self_mod K) w n data = map (fun i => peval data (w ^ i)) (seq 0 n).
Proof.
  intros HL. unfold dft. apply map_ext_seq. intros i Hi. rewrite (peval_sum_n data _ n HL).
  rewrite gsum_self. apply sum_ext. intros j Hj. unfold coef. rewrite <- fpow_mul.
  change (@eq K (w ^ (i * j) * nth j data 0) (nth j data 0 * w ^ (i * j))). ring.
Qed.

Lemma dft_pad (w : K) n (data : list K) m : (length data + m <= n)%nat ->
  dft (M := self_mod K) w n (data ++ repeat 0 m) = dft (M := self_mod K) w n data.
Proof.
  intros H. rewrite !peval_self_dft by (rewrite ?app_length, ?repeat_length; lia).
  apply map_ext. intros i. rewrite (peval_sum_n (data ++ _) _ n), (peval_sum_n data _ n)
    by (rewrite ?app_length, ?repeat_length; lia).
  apply sum_ext. intros j Hj. f_equal. unfold coef.
  destruct (Nat.lt_ge_cases j (length data)).
  - now rewrite app_nth1.
  - rewrite app_nth2 by lia. rewrite nth_repeat_same. now rewrite nth_overflow.
Qed.

Lemma mcl_fft_forward s k (w : K) (data : list K) :
  settings_ok s k w -> (k < 32)%nat -> (length data <= max_width s)%nat ->
  exists m out, (m <= k)%nat /\ (length data <= 2 ^ m)%nat /\ (m = 0 \/ 2 ^ (m - 1) < length data)%nat /\
    mcl_fft s data false = Ok out /\ length out = (2 ^ m)%nat /\
    forall i, (i < 2 ^ m)%nat -> nth_error out i = Some (peval data ((w ^ (2 ^ (k - m))) ^ i)).
Proof.
  intros HS Hk HL. assert (E0 := proj1 HS). rewrite E0 in HL.
  destruct (mcl_fft_pad s k w data false HS HL) as (m & H1 & H2 & H3 & H4).
  { change (2 ^ 63)%N with (2 ^ N.of_nat 63)%N. apply pow2_N_le. lia. }
  exists m. rewrite H4, (mcl_inplace_spec s k w m) by (auto; rewrite app_length, repeat_length; lia).
  change (gcar K (self_mod K)) with (car K).
  rewrite dft_pad by lia. rewrite peval_self_dft by auto.
  eexists. repeat split; auto.
  - apply length_map_seq.
  - intros i Hi. now rewrite nth_error_map_seq.
Qed.

Lemma mcl_fft_exact s k (w : K) m (data : list K) inverse :
  settings_ok s k w -> (k < 32)%nat -> (m <= k)%nat -> length data = (2 ^ m)%nat ->
  mcl_fft s data inverse = mcl_inplace_fft s data inverse.
Proof.
  intros HS Hk Hm HL. assert (P := pow2_pos m).
  destruct (mcl_fft_pad s k w data inverse HS) as (m' & H1 & H2 & H3 & H4).
  { rewrite HL. apply Nat.pow_le_mono_r; lia. }
  { change (2 ^ 63)%N with (2 ^ N.of_nat 63)%N. apply pow2_N_le. lia. }
  rewrite HL in H2, H3. apply pow2_le_inv in H2.
  assert (m' = m).
  { destruct H3 as [->|H3]; [lia|]. apply Nat.pow_lt_mono_r_iff in H3; lia. }
  subst m'. rewrite H4, HL, Nat.sub_diag. cbn [repeat]. now rewrite app_nil_r.
Qed.

Lemma mcl_roundtrip s k (w : K) m (data : list K) :
  settings_ok s k w -> (k < 32)%nat -> (m <= k)%nat -> (m < 31)%nat -> length data = (2 ^ m)%nat ->
  (let* f := mcl_fft s data false in mcl_fft s f true) = Ok data /\
  (let* f := mcl_fft s data true in mcl_fft s f false) = Ok data.
Proof.
  intros HS Hk Hm H31 HL.
  assert (HB : (N.of_nat (2 ^ m) < 2 ^ 31)%N) by (change (2 ^ 31)%N with (2 ^ N.of_nat 31)%N; now apply pow2_N_lt).
  assert (E : forall d inv, length d = (2 ^ m)%nat -> mcl_fft s d inv = fft_fr s d inv).
  { intros d inv Hd. rewrite (mcl_fft_exact s k w m) by auto. now apply (mcl_inplace_blst s k w m). }
  destruct (fft_fr_roundtrip s k w m data HS Hm HL) as [R1 R2].
  rewrite (E data false HL), (E data true HL). split.
  - apply bind_inv in R1 as (f & F1 & F2). rewrite F1. cbn [bind].
    rewrite E; auto. rewrite fft_fr_self, (fft_g1_spec (M := self_mod K) s k w m) in F1 by auto.
    apply Ok_inj in F1. rewrite <- F1. apply (dft_length (M := self_mod K)).
  - apply bind_inv in R2 as (f & F1 & F2). rewrite F1. cbn [bind].
    rewrite E; auto. rewrite fft_fr_self, (ifft_g1_spec (M := self_mod K) s k w m) in F1 by auto.
    apply Ok_inj in F1. rewrite <- F1. rewrite map_length. apply (dft_length (M := self_mod K)).
Qed.

(** at length 2^31 the inverse transform comes out negated *)
Lemma mcl_inverse_negated s (w : K) m (data : list K) :
  settings_ok s m w -> m = 31%nat -> length data = (2 ^ m)%nat ->
  (let* f := mcl_fft s data false in mcl_fft s f true) = Ok (map fneg data).
Proof.
  intros HS Em HL. assert (Hm : (m <= m)%nat) by lia.
  assert (HB : (N.of_nat (2 ^ m) = 2 ^ 31)%N) by (rewrite Nat2N.inj_pow, Em; reflexivity).
  destruct (fft_fr_roundtrip s m w m data HS Hm HL) as [R1 _].
  assert (Nz : fnat (2 ^ m) <> (0 : K)).
  { apply (primitive_fnat_neq_0 w m). apply HS. }
  rewrite fft_fr_self in R1. rewrite (fft_g1_spec (M := self_mod K) s m w m) in R1 by auto. cbn [bind] in R1.
  rewrite (mcl_fft_exact s m w m) by (auto; lia).
  rewrite (mcl_inplace_spec s m w m) by auto. cbn [bind].
  set (f := dft (M := self_mod K) (w ^ 2 ^ (m - m)) (2 ^ m) data) in *.
  assert (Lf : length f = (2 ^ m)%nat) by apply (dft_length (M := self_mod K)).
  rewrite (mcl_fft_exact s m w m) by (auto; lia).
  rewrite (mcl_inplace_spec s m w m) by auto.
  rewrite fft_fr_self, (ifft_g1_spec (M := self_mod K) s m w m) in R1 by auto.
  apply Ok_inj in R1. f_equal. rewrite <- R1. change (gcar K (self_mod K)) with (car K).
  rewrite map_map. apply map_ext. intros x. rewrite mcl_inv_len_edge by auto.
  change (@eq K (- finv (fnat (2 ^ m)) * x) (- (finv (fnat (2 ^ m)) * x))). ring.
Qed.

Lemma mcl_fft_long s (data : list K) inv : (max_width s < length data)%nat -> mcl_fft s data inv = Err.
Proof. intros H. unfold mcl_fft. apply Nat.ltb_lt in H. now rewrite H. Qed.

Lemma mcl_fft_g1_errors (M : gmod K) s (data : list M) inv :
  (max_width s < length data)%nat \/ (data <> [] /\ forall m, length data <> 2 ^ m)%nat -> mcl_fft_g1 s data inv = Err.
Proof.
  intros H. unfold mcl_fft_g1. destruct (Nat.ltb_spec (max_width s) (length data)); auto.
  destruct H as [H|[H1 H2]]; [lia|].
  assert (length data <> 0)%nat by (destruct data; simpl; congruence).
  rewrite mcl_is_power_of_2_spec by lia. cbn [bind].
  destruct (is_power_of_two (N.of_nat (length data))) eqn:P; auto.
  change (is_pow2 (length data) = true) in P. apply is_pow2_spec in P as (m & P). now apply H2 in P.
Qed.

Lemma mcl_fft_g1_empty (M : gmod K) s inv : mcl_fft_g1 (M := M) s [] inv = Panic.
Proof. unfold mcl_fft_g1. cbn [length]. destruct (_ <? 0)%nat eqn:E; [apply Nat.ltb_lt in E; lia|reflexivity]. Qed.

(** slow and fast low-level transforms *)
Lemma mcl_slow_fast (w : K) m (ret1 ret2 data roots : list K) rs :
  primitive w (2 ^ m) -> length data = (2 ^ m)%nat -> length ret1 = (2 ^ m)%nat -> length ret2 = (2 ^ m)%nat ->
  (forall i, (i < 2 ^ m)%nat -> nth_error roots (i * rs) = Some (w ^ i)) ->
  exists out, mcl_fft_fr_fast ret1 data 1 roots rs = Ok out /\ mcl_fft_fr_slow ret2 data 1 roots rs = Ok out /\
    length out = (2 ^ m)%nat /\ forall i, (i < 2 ^ m)%nat -> nth_error out i = Some (peval data (w ^ i)).
Proof.
  intros Hw HL H1 H2 HR. assert (P := pow2_pos m).
  assert (HR' : forall i, (i < 2 ^ m)%nat -> idx roots (i * rs) = Ok (w ^ i)).
  { intros i Hi. unfold idx. now rewrite HR. }
  exists (map (fun i => peval data (w ^ i)) (seq 0 (2 ^ m))).
  rewrite <- peval_self_dft by lia. rewrite <- (dval_dft (M := self_mod K)).
  split; [|split; [|split]].
  - unfold mcl_fft_fr_fast. apply (mcl_fft_rec m); auto.
    + rewrite H1. assert (m < 2 ^ m)%nat by (apply Nat.pow_gt_lin_r; lia). lia.
    + lia.
    + intros Hm. apply primitive_half; auto using pow2_pos.
      replace (2 * 2 ^ (m - 1))%nat with (2 ^ m)%nat; auto.
      replace m with (S (m - 1)) at 1 by lia. reflexivity.
  - unfold mcl_fft_fr_slow. rewrite mcl_simple_self by lia.
    apply (mcl_simple_g1_spec (M := self_mod K)); auto; try lia; try (intros _; apply Hw).
    change (gcar K (self_mod K)) with (car K). lia.
  - apply length_map_seq.
  - intros i Hi. rewrite dval_dft, peval_self_dft by lia. now rewrite nth_error_map_seq.
Qed.

(** the transform reads only the [2^m]-th root *)
Lemma fft_scale_independent s s' k k' (w w' : K) m (data : list K) inv :
  settings_ok s k w -> settings_ok s' k' w' -> (m <= k)%nat -> (m <= k')%nat -> length data = (2 ^ m)%nat ->
  w ^ (2 ^ (k - m)) = w' ^ (2 ^ (k' - m)) -> fft_fr s data inv = fft_fr s' data inv.
Proof.
  intros HS HS' Hm Hm' HL E. rewrite !fft_fr_self. destruct inv.
  - rewrite (ifft_g1_spec (M := self_mod K) s k w m), (ifft_g1_spec (M := self_mod K) s' k' w' m) by auto.
    now rewrite !fpow_inv, E.
  - rewrite (fft_g1_spec (M := self_mod K) s k w m), (fft_g1_spec (M := self_mod K) s' k' w' m) by auto.
    now rewrite E.
Qed.

Lemma peval_x n (x : K) : peval (0 :: 1 :: repeat 0 n) x = x.
Proof.
  assert (H : peval (repeat 0 n) x = 0) by (induction n; simpl; [reflexivity|]; rewrite IHn; ring).
  cbn [peval]. rewrite H. ring.
Qed.

Lemma peval3_1 (a b c : K) : peval [a; b; c] 1 = a + (b + c).
Proof. cbn [peval]. ring. Qed.
End Generic.

(** ** The embedded tables compared *)
Lemma pr5_pow k m : m <= k -> k < 32 -> fpow (nth k mcl_pr5_table (f0 : Fr)) (2 ^ (k - m)) = nth m mcl_pr5_table f0.
Proof.
  intros Hm Hk.
  assert (C : forall i, S i < 32 -> fmul (nth (S i) mcl_pr5_table (f0 : Fr)) (nth (S i) mcl_pr5_table f0) = nth i mcl_pr5_table f0).
  { intros i Hi. apply (check_chain_ok mcl_PR5).
    - vm_compute. reflexivity.
    - exact Hi. }
  assert (H : forall d, m + d < 32 -> fpow (nth (m + d) mcl_pr5_table (f0 : Fr)) (2 ^ d) = nth m mcl_pr5_table f0).
  { induction d; intros Hd.
    - rewrite Nat.add_0_r. change (2 ^ 0) with 1. apply fpow_1.
    - replace (2 ^ S d) with (2 * 2 ^ d) by (simpl; lia).
      rewrite fpow_mul, fpow_2. replace (m + S d) with (S (m + d)) by lia.
      rewrite C by lia. apply IHd. lia. }
  specialize (H (k - m)). replace (m + (k - m)) with k in H by lia. apply H. lia.
Qed.

Definition zat (l : list Z) i : Z := nth i l 0%Z.

Lemma nth_fr_of l i : i < length l -> nth i (map fr_of l) (f0 : Fr) = fr_of (zat l i).
Proof.
  intros H. rewrite (nth_indep _ _ (fr_of 0)) by (now rewrite map_length). apply map_nth.
Qed.

Lemma pr7_high k : 7 <= k < 32 -> nth k mcl_pr7_table (f0 : Fr) = nth k mcl_pr5_table f0.
Proof.
  intros H. unfold mcl_pr7_table, mcl_pr5_table. rewrite !nth_fr_of by (simpl; lia).
  f_equal. assert (E : forallb (fun i => (zat mcl_PR7 i =? zat mcl_PR5 i)%Z) (seq 7 25) = true) by (vm_compute; reflexivity).
  rewrite forallb_forall in E. apply Z.eqb_eq, E, in_seq. lia.
Qed.

Lemma pr7_low k : k < 7 -> nth k mcl_pr7_table (f0 : Fr) = root k.
Proof.
  intros H. unfold mcl_pr7_table, root, blst_table, table_of. rewrite !nth_fr_of by (simpl; lia).
  f_equal. assert (E : forallb (fun i => (zat mcl_PR7 i =? zat (map limbs_val blst_SCALE2_ROOT_OF_UNITY) i)%Z) (seq 0 7) = true)
    by (vm_compute; reflexivity).
  rewrite forallb_forall in E. apply Z.eqb_eq, E, in_seq. lia.
Qed.

Lemma pr5_root_differs m : 3 <= m < 32 -> nth m mcl_pr5_table (f0 : Fr) <> root m.
Proof.
  intros H. unfold mcl_pr5_table, root, blst_table, table_of. rewrite !nth_fr_of by (simpl; lia).
  assert (E : forallb (fun i => negb (zat mcl_PR5 i mod r =? zat (map limbs_val blst_SCALE2_ROOT_OF_UNITY) i mod r)%Z) (seq 3 29) = true)
    by (vm_compute; reflexivity).
  rewrite forallb_forall in E. assert (Hi : In m (seq 3 29)) by (apply in_seq; lia).
  apply E, negb_true_iff, Z.eqb_neq in Hi. intros X. apply Hi. now apply to_Fr_eq.
Qed.

(** the root used at size [2^m] by the trait settings of scale [k] *)
Lemma pr7_fold k m : m <= k -> k < 32 ->
  fpow (nth k mcl_pr7_table (f0 : Fr)) (2 ^ (k - m)) = if k <? 7 then root m else nth m mcl_pr5_table f0.
Proof.
  intros Hm Hk. destruct (Nat.ltb_spec k 7).
  - rewrite pr7_low by auto. apply root_pow; lia.
  - rewrite pr7_high by lia. now apply pr5_pow.
Qed.

(** the vector of the polynomial X *)
Definition poly_X (n : nat) : list Fr := f0 :: f1 :: repeat f0 (n - 2).

Lemma poly_X_fft s k (w : Fr) m : settings_ok s k w -> 1 <= m -> m <= k ->
  exists out, fft_fr s (poly_X (2 ^ m)) false = Ok out /\ nth_error out 1 = Some (fpow w (2 ^ (k - m))).
Proof.
  intros HS H1 Hm. assert (P : 2 <= 2 ^ m) by (change 2 with (2 ^ 1) at 1; apply Nat.pow_le_mono_r; lia).
  assert (HL : length (poly_X (2 ^ m)) = 2 ^ m).
  { unfold poly_X. cbn [length]. rewrite repeat_length. lia. }
  rewrite (fft_fr_spec s k w m) by auto. eexists. split; [reflexivity|].
  rewrite nth_error_map_seq by lia. f_equal. rewrite fpow_1. apply peval_x.
Qed.

Lemma C53_blst_proof k k' s s' (data : list Fr) inv :
  fft_settings_new blst_table k = Ok s -> fft_settings_new blst_table k' = Ok s' ->
  acceptable s (length data) -> acceptable s' (length data) -> fft_fr s data inv = fft_fr s' data inv.
Proof.
  intros H H' A A'. destruct (new_inv k s H) as (Hk & HS). destruct (new_inv k' s' H') as (Hk' & HS').
  destruct (acceptable_m k s _ H A) as (m & E & Hm). destruct (acceptable_m k' s' _ H' A') as (m' & E' & Hm').
  assert (m = m') by (apply (Nat.pow_inj_r 2); lia). subst m'.
  apply (fft_scale_independent s s' k k' (root k) (root k') m); auto.
  now rewrite !root_pow.
Qed.

Lemma mcl_trait_made fuel scale g s : fst (mcl_trait_new fuel mcl_pr7_table scale g) = Ok s ->
  as_u8 scale < 32 /\ settings_ok s (as_u8 scale) (nth (as_u8 scale) mcl_pr7_table f0).
Proof. intros H. apply mcl_made_ok. right. eauto 10. Qed.

Lemma mcl_X_fft s k (w : Fr) m : settings_ok s k w -> k < 32 -> 1 <= m -> m < 31 -> m <= k ->
  exists out, mcl_fft s (poly_X (2 ^ m)) false = Ok out /\ nth_error out 1 = Some (fpow w (2 ^ (k - m))).
Proof.
  intros HS Hk H1 H31 Hm. assert (P : 2 <= 2 ^ m) by (change 2 with (2 ^ 1) at 1; apply Nat.pow_le_mono_r; lia).
  assert (HL : length (poly_X (2 ^ m)) = 2 ^ m).
  { unfold poly_X. cbn [length]. rewrite repeat_length. lia. }
  rewrite (mcl_fft_exact s k w m), (mcl_inplace_blst s k w m) by
    (auto; change (2 ^ 31)%N with (2 ^ N.of_nat 31)%N; now apply pow2_N_lt).
  now apply poly_X_fft.
Qed.

Lemma C53_mcl_proof fuel g k s fuel' g' k' s' m :
  fst (mcl_trait_new fuel mcl_pr7_table (N.of_nat k) g) = Ok s ->
  fst (mcl_trait_new fuel' mcl_pr7_table (N.of_nat k') g') = Ok s' ->
  3 <= m -> m <= k -> k < 7 -> 7 <= k' -> k' < 32 ->
  mcl_fft s (poly_X (2 ^ m)) false <> mcl_fft s' (poly_X (2 ^ m)) false.
Proof.
  intros H H' Hm Hmk Hk Hk' H32.
  assert (U : forall n, n < 32 -> as_u8 (N.of_nat n) = n).
  { intros n Hn. unfold as_u8. rewrite N.mod_small by lia. apply Nat2N.id. }
  apply mcl_trait_made in H as [_ HS]. apply mcl_trait_made in H' as [_ HS'].
  rewrite U in HS by lia. rewrite U in HS' by lia.
  destruct (mcl_X_fft s k _ m HS) as (o & E & N1); try lia.
  destruct (mcl_X_fft s' k' _ m HS') as (o' & E' & N2); try lia.
  rewrite E, E'. intros X. apply Ok_inj in X. subst o'. rewrite N1 in N2.
  rewrite !pr7_fold in N2 by lia.
  destruct (Nat.ltb_spec k 7); [|lia]. destruct (Nat.ltb_spec k' 7); [lia|].
  injection N2 as N2. symmetry in N2. revert N2. apply pr5_root_differs. lia.
Qed.

(** agreement with the other backends *)
Lemma C56_agree_proof fuel g k : k < 7 -> 2 ^ k <= fuel ->
  fst (mcl_trait_new fuel mcl_pr7_table (N.of_nat k) g) = fft_settings_new blst_table k.
Proof.
  intros Hk Hf. assert (U : as_u8 (N.of_nat k) = k).
  { unfold as_u8. rewrite N.mod_small by lia. apply Nat2N.id. }
  rewrite mcl_trait_new_eq by (now rewrite U). rewrite U. unfold fft_settings_new.
  rewrite pr7_length, blst_table_length. destruct (Nat.leb_spec 32 k); [lia|].
  rewrite (idx_ok _ _ f0) by (rewrite pr7_length; lia). rewrite (idx_ok blst_table _ f0) by (rewrite blst_table_length; lia).
  cbn [bind]. rewrite pr7_low by auto. reflexivity.
Qed.

Lemma C56_differ_proof fuel g k s t m :
  fst (mcl_trait_new fuel mcl_pr7_table (N.of_nat k) g) = Ok s -> fft_settings_new blst_table k = Ok t ->
  7 <= k -> 3 <= m -> m < 31 -> m <= k ->
  mcl_fft s (poly_X (2 ^ m)) false <> fft_fr t (poly_X (2 ^ m)) false.
Proof.
  intros H H' Hk Hm H31 Hmk. destruct (new_inv k t H') as (K32 & HT).
  assert (U : as_u8 (N.of_nat k) = k).
  { unfold as_u8. rewrite N.mod_small by lia. apply Nat2N.id. }
  apply mcl_trait_made in H as [_ HS]. rewrite U in HS.
  destruct (mcl_X_fft s k _ m HS) as (o & E & N1); try lia.
  destruct (poly_X_fft t k _ m HT) as (o' & E' & N2); try lia.
  rewrite E, E'. intros X. apply Ok_inj in X. subst o'. rewrite N1 in N2.
  rewrite pr7_fold, root_pow in N2 by lia.
  destruct (Nat.ltb_spec k 7); [lia|].
  injection N2 as N2. revert N2. apply pr5_root_differs. lia.
Qed.

(** ** Property forms *)
Lemma C50_proof fuel scale g :
  let k := as_u8 scale in
  (k < 32 -> 2 ^ k <= fuel ->
   exists s w, fst (mcl_trait_new fuel mcl_pr7_table scale g) = Ok s /\
     max_width s = 2 ^ k /\ primitive w (2 ^ k) /\ root_of_unity s = w /\
     length (expanded_roots s) = 2 ^ k + 1 /\ length (reverse_roots s) = 2 ^ k + 1 /\
     forall i, i <= 2 ^ k -> nth_error (expanded_roots s) i = Some (fpow w i) /\
       nth_error (reverse_roots s) i = Some (fpow w (2 ^ k - i))) /\
  (32 <= k -> fst (mcl_trait_new fuel mcl_pr7_table scale g) = Err).
Proof.
  intros k. split.
  - intros Hk Hf. rewrite mcl_trait_new_eq by auto. fold k.
    destruct (fft_settings_new_ok mcl_pr7_table k mcl_pr7_table_ok) as (s & E & (A & B & C & D & F)).
    { now rewrite pr7_length. }
    exists s, (nth k mcl_pr7_table f0). rewrite D, F, !length_map_seq.
    split; [exact E|]. split; [exact A|]. split; [exact B|]. split; [exact C|]. split; [lia|]. split; [lia|].
    intros i Hi. rewrite !nth_error_map_seq by lia. auto.
  - intros Hk. rewrite mcl_trait_new_eq by (fold k; lia). apply fft_settings_new_err. now rewrite pr7_length.
Qed.

Lemma C50_trunc_proof fuel scale g : fst (mcl_trait_new fuel mcl_pr7_table (scale + 256) g) = fst (mcl_trait_new fuel mcl_pr7_table scale g).
Proof.
  unfold mcl_trait_new, as_u8. replace ((scale + 256) mod 256)%N with (scale mod 256)%N; auto.
  rewrite <- N.add_mod_idemp_r by discriminate. change (256 mod 256)%N with 0%N. now rewrite N.add_0_r.
Qed.

Lemma C51_forward_proof s k w (data : list Fr) : mcl_made s k w ->
  (length data <= max_width s ->
   exists m out, m <= k /\ length data <= 2 ^ m /\ (m = 0 \/ 2 ^ (m - 1) < length data) /\
     primitive (fpow w (2 ^ (k - m))) (2 ^ m) /\
     mcl_fft s data false = Ok out /\ length out = 2 ^ m /\
     forall i, i < 2 ^ m -> nth_error out i = Some (peval data (fpow (fpow w (2 ^ (k - m))) i))) /\
  (max_width s < length data -> forall inv, mcl_fft s data inv = Err).
Proof.
  intros H. apply mcl_made_ok in H as (Hk & HS). split.
  - intros HL. destruct (mcl_fft_forward s k w data HS Hk HL) as (m & out & A & B & C & D & E & F).
    exists m, out. repeat (split; [assumption|]). split; [|auto].
    apply primitive_fold; auto. apply HS.
  - intros HL inv. now apply mcl_fft_long.
Qed.

Lemma C51_inverse_proof s k w m (data : list Fr) : mcl_made s k w -> m <= k -> m < 31 -> length data = 2 ^ m ->
  (let* f := mcl_fft s data false in mcl_fft s f true) = Ok data /\
  (let* f := mcl_fft s data true in mcl_fft s f false) = Ok data.
Proof. intros H Hm H31 HL. apply mcl_made_ok in H as (Hk & HS). now apply (mcl_roundtrip s k w m). Qed.

Lemma Fr_neg_1_neq : fneg (f1 : Fr) <> f1.
Proof. intros E. apply (f_equal val) in E. vm_compute in E. discriminate. Qed.

Lemma C51_refuted_proof : exists s w n (data out : list Fr), mcl_made s 31 w /\ length data = n /\ n = max_width s /\
  (let* f := mcl_fft s data false in mcl_fft s f true) = Ok out /\ out <> data.
Proof.
  assert (X : exists m, m = 31) by eauto. destruct X as (m & Em).
  destruct (fft_settings_new_ok mcl_pr7_table m mcl_pr7_table_ok) as (s & E & HS).
  { rewrite pr7_length. lia. }
  assert (U : as_u8 (N.of_nat m) = m).
  { unfold as_u8. rewrite N.mod_small by lia. apply Nat2N.id. }
  assert (HM : mcl_made s m (nth m mcl_pr7_table f0)).
  { right. exists (2 ^ m), globals0, (N.of_nat m). rewrite mcl_trait_new_eq; rewrite U; auto. }
  exists s, (nth m mcl_pr7_table f0), (2 ^ m), (repeat f1 (2 ^ m)), (map fneg (repeat f1 (2 ^ m))).
  split; [rewrite <- Em at 1; exact HM|]. split; [apply repeat_length|]. split; [symmetry; apply HS|]. split.
  - apply (mcl_inverse_negated s (nth m mcl_pr7_table f0) m); auto. apply repeat_length.
  - assert (P := pow2_pos m). destruct (2 ^ m) as [|n]; [lia|]. cbn [repeat map].
    intros Y. apply (f_equal (fun l => nth 0 l f0)) in Y. cbn [nth] in Y. exact (Fr_neg_1_neq Y).
Qed.

Lemma C52_proof (M : gmod Fr) s k w (data : list M) : mcl_made s k w ->
  (forall m, m <= k -> length data = 2 ^ m ->
   exists out, mcl_fft_g1 s data false = Ok out /\ length out = 2 ^ m /\
     (forall i, i < 2 ^ m -> nth_error out i =
        Some (gsum (2 ^ m) (fun j => smul (fpow (fpow w (2 ^ (k - m))) (i * j)) (nth j data g0)))) /\
     (m < 31 -> mcl_fft_g1 s out true = Ok data)) /\
  (max_width s < length data \/ (data <> [] /\ forall m, length data <> 2 ^ m) ->
   forall inv, mcl_fft_g1 s data inv = Err) /\
  (data = [] -> forall inv, mcl_fft_g1 s data inv = Panic).
Proof.
  intros H. apply mcl_made_ok in H as (Hk & HS). split; [|split].
  - intros m Hm HL. rewrite (mcl_fft_g1_spec s k w m) by auto. eexists. split; [reflexivity|].
    rewrite dft_length. split; auto. split.
    + intros i Hi. unfold dft. now rewrite nth_error_map_seq.
    + intros H31. destruct (fft_g1_roundtrip s k w m data HS Hm HL) as [R _].
      rewrite (fft_g1_spec s k w m) in R by auto. cbn [bind] in R.
      rewrite (mcl_fft_g1_blst s k w m); auto using dft_length.
      change (2 ^ 31)%N with (2 ^ N.of_nat 31)%N. now apply pow2_N_lt.
  - intros HE inv. now apply mcl_fft_g1_errors.
  - intros -> inv. apply mcl_fft_g1_empty.
Qed.

Lemma C54_proof s k w (evens : list Fr) : mcl_made s k w ->
  (forall m, m < k -> length evens = 2 ^ m ->
   exists odds p, mcl_trait_das s evens = Ok odds /\ length odds = 2 ^ m /\ length p = 2 ^ m /\
     let u := fpow w (2 ^ (k - S m)) in primitive u (2 ^ S m) /\
     forall i, i < 2 ^ m ->
       nth_error evens i = Some (peval p (fpow u (2 * i))) /\
       nth_error odds i = Some (peval p (fpow u (2 * i + 1)))) /\
  (~ ((exists m, length evens = 2 ^ m) /\ 2 * length evens <= max_width s) ->
     mcl_das_fft_extension s evens = Err /\ mcl_trait_das s evens = Panic).
Proof.
  intros H. apply mcl_made_ok in H as (Hk & HS). unfold mcl_trait_das.
  rewrite (mcl_das_extension_blst s k w evens HS ltac:(lia)). split.
  - intros m Hm HL. assert (E := das_extension_eq s k w m evens HS Hm HL). cbv zeta in E. rewrite E.
    set (u := fpow w (2 ^ (k - S m))) in *.
    assert (Hu : primitive u (2 ^ S m)) by (apply primitive_fold; auto; apply HS).
    assert (Hu2 : primitive u (2 * 2 ^ m)) by (replace (2 * 2 ^ m) with (2 ^ S m) by (simpl; lia); exact Hu).
    eexists. exists (das_poly u (2 ^ m) evens). split; [reflexivity|]. split; [apply length_map_seq|].
    split; [apply das_poly_length|]. split; [exact Hu|]. intros i Hi. split.
    + rewrite (nth_error_nth' _ f0) by lia. f_equal. symmetry. now apply das_poly_evens.
    + now rewrite nth_error_map_seq.
  - intros HN. assert (E : das_fft_extension s evens = Err).
    { unfold das_fft_extension. destruct (Nat.eqb_spec (length evens) 0); auto.
      destruct (is_pow2 (length evens)) eqn:P; cbn [negb]; auto.
      apply is_pow2_spec in P. destruct (Nat.ltb_spec (max_width s) (length evens * 2)); auto.
      exfalso. apply HN. split; auto. lia. }
    rewrite E. auto.
Qed.

Lemma C55_refuted_proof : exists x : Fr, mcl_fr_pow x 0 <> Ok (fpow x 0).
Proof.
  exists f0. rewrite mcl_fr_pow_spec. cbn [Nat.eqb]. intros E. apply Ok_inj in E.
  apply (f_equal val) in E. vm_compute in E. discriminate.
Qed.

Lemma C55_proof (K : fld) (x : K) n : 1 <= n -> mcl_fr_pow x n = Ok (fpow x n).
Proof. intros H. rewrite mcl_fr_pow_spec. destruct (Nat.eqb_spec n 0); [lia|reflexivity]. Qed.

Lemma C46_concurrent_refuted_proof :
  exists (k : nat) (table : list Fr) (sched : list nat) root g,
    run_threads mcl_pr5_table sched [new_thread k; custom_thread table k] globals0 = ([Finished (Ok root); Finished (Ok root)], g) /\
    idx mcl_pr5_table k <> Ok root /\
    (forall fuel h, fst (mcl_new fuel mcl_pr5_table k (run_calls fuel mcl_pr5_table (map CNew h) g)) = mcl_build fuel k root).
Proof.
  exists 6, mcl_pr7_table, bad_schedule, (nth 6 mcl_pr7_table f0), (mkG mcl_pr7_table true true).
  split; [|split].
  - rewrite bad_schedule_run. rewrite pr7_length. change (32 <=? 6) with false. cbn iota.
    rewrite (idx_ok _ _ f0) by (rewrite pr7_length; lia). reflexivity.
  - rewrite (idx_ok _ _ f0) by (rewrite pr5_length; lia). intros E. apply Ok_inj in E.
    rewrite pr7_low in E by lia. revert E. apply pr5_root_differs. lia.
  - intros fuel h.
    assert (X : run_calls fuel mcl_pr5_table (map CNew h) (mkG mcl_pr7_table true true) = mkG mcl_pr7_table true true)
      by (induction h; cbn [map run_calls run_call]; auto).
    rewrite X. unfold mcl_new. cbn [fst init_globals g_init g_default andb g_table].
    rewrite (idx_ok _ _ f0) by (rewrite pr7_length; lia). reflexivity.
Qed.

(** ** Remaining property forms and examples *)
Lemma as_u8_small n : n < 256 -> as_u8 (N.of_nat n) = n.
Proof. intros H. unfold as_u8. rewrite N.mod_small by lia. apply Nat2N.id. Qed.

Lemma mcl_trait_small k fuel g : k < 32 -> 2 ^ k <= fuel ->
  exists s, fst (mcl_trait_new fuel mcl_pr7_table (N.of_nat k) g) = Ok s /\ mcl_made s k (nth k mcl_pr7_table f0) /\
    max_width s = 2 ^ k.
Proof.
  intros Hk Hf. destruct (fft_settings_new_ok mcl_pr7_table k mcl_pr7_table_ok) as (s & E & HS).
  { now rewrite pr7_length. }
  assert (X : fst (mcl_trait_new fuel mcl_pr7_table (N.of_nat k) g) = Ok s).
  { rewrite mcl_trait_new_eq; rewrite as_u8_small by lia; auto. }
  exists s. split; [exact X|]. split; [|apply HS].
  right. exists fuel, g, (N.of_nat k). rewrite as_u8_small by lia. auto.
Qed.

Lemma ex_intro2_made k : k < 32 -> exists s w, mcl_made s k w.
Proof. intros H. destruct (mcl_trait_small k (2 ^ k) globals0 H (Nat.le_refl _)) as (s & _ & A & _). eauto. Qed.

Lemma C50_ex_proof : (exists s, fst (mcl_trait_new 8 mcl_pr7_table 259 globals0) = Ok s /\ max_width s = 8) /\
  fst (mcl_trait_new 8 mcl_pr7_table 200 globals0) = Err.
Proof.
  split.
  - change 259%N with (N.of_nat 3 + 256)%N. rewrite C50_trunc_proof.
    destruct (mcl_trait_small 3 8 globals0) as (s & A & _ & B); [lia|cbn; lia|]. eauto.
  - apply (C50_proof 8 200 globals0). unfold as_u8. change (200 mod 256)%N with (N.of_nat 200). rewrite Nat2N.id. lia.
Qed.

Lemma C50_large_proof j : 1 <= j -> exists scale s, (N.of_nat (256 * j) <= scale)%N /\
  fst (mcl_trait_new 8 mcl_pr7_table scale globals0) = Ok s.
Proof.
  intros _. exists (N.of_nat (256 * j)).
  assert (X : fst (mcl_trait_new 8 mcl_pr7_table (N.of_nat (256 * j)) globals0) =
              fst (mcl_trait_new 8 mcl_pr7_table (N.of_nat 0) globals0)).
  { clear. induction j; [reflexivity|]. rewrite <- IHj.
    replace (N.of_nat (256 * S j)) with (N.of_nat (256 * j) + 256)%N; [apply C50_trunc_proof|].
    rewrite Nat.mul_succ_r, Nat2N.inj_add. reflexivity. }
  rewrite X. destruct (mcl_trait_small 0 8 globals0) as (s & A & _); [lia|cbn; lia|].
  exists s. split; [apply N.le_refl|exact A].
Qed.

Lemma C51_ex_proof s w (a b c : Fr) : mcl_made s 3 w ->
  exists (u : Fr) out, primitive u 4 /\ mcl_fft s [a; b; c] false = Ok out /\
    nth_error out 0 = Some (fadd a (fadd b c)) /\ length out = 4.
Proof.
  intros H. destruct (C51_forward_proof s 3 w [a; b; c] H) as [F _].
  assert (W : max_width s = 2 ^ 3) by (apply mcl_made_ok in H as (_ & HS); apply HS).
  destruct F as (m & out & A & B & C & D & E & L & V). { rewrite W. cbn. lia. }
  cbn [length] in B, C.
  assert (m = 2).
  { destruct m as [|[|[|m]]]; try (cbn in B; lia); auto. exfalso. destruct C as [C|C]; [lia|].
    cbn [Nat.sub] in C. assert (P := pow2_pos m). cbn [Nat.pow] in C. lia. }
  subst m. exists (fpow w (2 ^ (3 - 2))), out. split; [exact D|]. split; [exact E|]. split; [|exact L].
  rewrite V by (cbn; lia). f_equal. cbn [fpow]. apply peval3_1.
Qed.

Lemma C52_empty_proof : exists (s : fft_settings Fr) w, mcl_made s 0 w /\
  forall (M : gmod Fr) inv, mcl_fft_g1 (M := M) s [] inv = Panic.
Proof.
  destruct (ex_intro2_made 0) as (s & w & H); [lia|]. exists s, w. split; [exact H|].
  intros M inv. apply mcl_fft_g1_empty.
Qed.

Lemma C52_ex_proof (M : gmod Fr) s w (a b c : M) : mcl_made s 2 w ->
  mcl_fft_g1 s [a; b; c] false = Err /\ exists out, mcl_fft_g1 s [a; b; c; a] false = Ok out /\ length out = 4.
Proof.
  intros H. split.
  - apply (C52_proof M s 2 w [a; b; c] H). right. split; [discriminate|]. intros [|[|m]]; cbn [length Nat.pow]; lia.
  - destruct (proj1 (C52_proof M s 2 w [a; b; c; a] H) 2 ltac:(lia) eq_refl) as (out & E & L & _). eauto.
Qed.

Lemma mcl_blst_fft s k (w : Fr) m data inv : settings_ok s k w -> k < 32 -> m <= k -> m < 31 -> length data = 2 ^ m ->
  mcl_fft s data inv = fft_fr s data inv.
Proof.
  intros HS Hk Hm H31 HL. rewrite (mcl_fft_exact s k w m), (mcl_inplace_blst s k w m); auto.
  change (2 ^ 31)%N with (2 ^ N.of_nat 31)%N. rewrite ?HL. now apply pow2_N_lt.
Qed.

Lemma C56_transforms_proof k s m (data : list Fr) inv : fft_settings_new blst_table k = Ok s ->
  m <= k -> m < 31 -> length data = 2 ^ m -> mcl_fft s data inv = fft_fr s data inv.
Proof. intros H Hm H31 HL. destruct (new_inv k s H) as (Hk & HS). now apply (mcl_blst_fft s k (root k) m). Qed.

Lemma C53_ex_proof : exists s s', fst (mcl_trait_new 128 mcl_pr7_table 6 globals0) = Ok s /\
  fst (mcl_trait_new 128 mcl_pr7_table 7 globals0) = Ok s' /\
  mcl_fft s (poly_X 8) false <> mcl_fft s' (poly_X 8) false.
Proof.
  destruct (mcl_trait_small 6 128 globals0) as (s & A & _); [lia|cbn; lia|].
  destruct (mcl_trait_small 7 128 globals0) as (s' & A' & _); [lia|cbn; lia|].
  exists s, s'. split; [exact A|]. split; [exact A'|].
  apply (C53_mcl_proof 128 globals0 6 s 128 globals0 7 s' 3 A A'); lia.
Qed.

Lemma C56_ex_proof : exists s t, fst (mcl_trait_new 128 mcl_pr7_table 7 globals0) = Ok s /\
  fft_settings_new blst_table 7 = Ok t /\ mcl_fft s (poly_X 8) false <> fft_fr t (poly_X 8) false.
Proof.
  destruct (mcl_trait_small 7 128 globals0) as (s & A & _); [lia|cbn; lia|].
  destruct (new_ok 7) as (t & B & _); [lia|].
  exists s, t. split; [exact A|]. split; [exact B|].
  apply (C56_differ_proof 128 globals0 7 s t 3 A B); lia.
Qed.

Lemma C54_never_err_proof s k w (evens : list Fr) : mcl_made s k w -> mcl_trait_das s evens <> Err.
Proof. intros _. unfold mcl_trait_das. destruct (mcl_das_fft_extension s evens); discriminate. Qed.

Lemma C54_ex_proof s w (a b c : Fr) : mcl_made s 3 w ->
  mcl_trait_das s [a; b; c] = Panic /\ exists o1 o2, mcl_trait_das s [a; b] = Ok [o1; o2].
Proof.
  intros H. split.
  - apply (C54_proof s 3 w [a; b; c] H). intros [(m & E) _]. destruct m as [|[|m]]; cbn [length Nat.pow] in E; lia.
  - destruct (proj1 (C54_proof s 3 w [a; b] H) 1 ltac:(lia) eq_refl) as (odds & p & E & L & _).
    destruct odds as [|o1 [|o2 [|]]]; try discriminate. eauto.
Qed.

Lemma mcl_new_made fuel h k s :
  fst (mcl_new fuel mcl_pr5_table k (run_calls fuel mcl_pr5_table h globals0)) = Ok s ->
  k < 32 /\ settings_ok s k (nth k mcl_pr5_table f0).
Proof. intros H. apply mcl_made_ok. left. eauto. Qed.

Lemma C53_mcl_new_proof fuel h k s fuel' h' k' s' m (data : list Fr) :
  fst (mcl_new fuel mcl_pr5_table k (run_calls fuel mcl_pr5_table h globals0)) = Ok s ->
  fst (mcl_new fuel' mcl_pr5_table k' (run_calls fuel' mcl_pr5_table h' globals0)) = Ok s' ->
  m <= k -> m <= k' -> length data = 2 ^ m -> forall inv, mcl_fft s data inv = mcl_fft s' data inv.
Proof.
  intros H H' Hm Hm' HL inv. apply mcl_new_made in H as [Hk HS]. apply mcl_new_made in H' as [Hk' HS'].
  rewrite (mcl_fft_exact s k _ m data inv HS Hk Hm HL), (mcl_fft_exact s' k' _ m data inv HS' Hk' Hm' HL).
  rewrite (mcl_inplace_spec s k _ m data inv HS Hm HL), (mcl_inplace_spec s' k' _ m data inv HS' Hm' HL).
  rewrite !fpow_inv, !pr5_pow by auto. reflexivity.
Qed.
