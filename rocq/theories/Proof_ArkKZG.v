(** * Proof_ArkKZG: commitments and opening proofs of the Arkworks backend *)
From Coq Require Import List Arith Lia Bool ZArith NArith Field.
From Verif Require Import Base Fld Poly Loops Model_Utils Proof_Utils Model_FFT Spec Spec_More Proof_FFT Zr ZrTables Proof_FFTFr.
From Verif Require Import Model_Poly Proof_Poly1 Proof_Poly2 Proof_PolyFr Model_KZG Spec_KZG Proof_KZG Proof_KZGFr Proof_Recovery Proof_MclFr.
From Verif Require Import Model_Ark Proof_Ark Spec_Ark Proof_ArkFr Spec_ZkKZG Proof_ZkKZG Model_ArkKZG Spec_ArkKZG.
Import ListNotations.

Section M0.
Context {K : fld}.
Add Field KF : (fld_field K).
Lemma fpow_S_r (x : K) n : fmul (fpow x n) x = fpow x (S n).
Proof. rewrite fpow_S. ring. Qed.
Lemma fmul_1_r (x : K) : fmul x f1 = x.
Proof. ring. Qed.
Lemma fsub_diag' (x : K) : fsub x x = f0.
Proof. ring. Qed.
Lemma fsub_inj' (a y z : K) : fsub a y = fsub a z -> y = z.
Proof. intros H. transitivity (fsub a (fsub a y)); [ring|]. rewrite H. ring. Qed.
Lemma quot_alg (q b x q' c : K) : fsub (fadd (fmul q (fadd (fneg x) (fmul b (fadd f1 (fmul b f0))))) (fadd c (fmul b f0)))
   (fadd (fmul q' (fadd (fneg x) (fmul x (fadd f1 (fmul x f0))))) (fadd c (fmul x f0))) = fmul (fsub b x) q.
Proof. ring. Qed.
Lemma quot_alg0 (q b x q' : K) : fsub (fadd (fmul q (fadd (fneg x) (fmul b (fadd f1 (fmul b f0))))) f0)
   (fadd (fmul q' (fadd (fneg x) (fmul x (fadd f1 (fmul x f0))))) f0) = fmul (fsub b x) q.
Proof. ring. Qed.
Lemma one_alg (x : K) : fadd (fadd (fmul f1 x) f0) f0 = x.
Proof. ring. Qed.
Lemma fadd_0_l' : fadd f0 f0 = (f0 : K).
Proof. ring. Qed.
End M0.

(** ** seeds *)
Lemma be_bytes8_word z : be_bytes8 z = word_bytes z.
Proof.
  unfold be_bytes8, word_bytes. cbn [le_bytes rev app map].
  rewrite !Z.div_div by lia. cbn [Z.mul Z.pow Z.pow_pos Pos.iter Pos.mul Pos.add Pos.succ Pos.pred_double].
  rewrite Z.div_1_r. reflexivity.
Qed.

Lemma be_bytes8_length z : length (be_bytes8 z) = 8.
Proof. now rewrite be_bytes8_word. Qed.

Lemma seed_slice (x : limbs6) : slice (concat (map be_bytes8 (limb_list x))) 0 32 = Ok (point_seed x).
Proof.
  unfold limb_list, point_seed. cbn [map concat].
  set (a := be_bytes8 (limb0 x)). set (b := be_bytes8 (limb1 x)). set (c := be_bytes8 (limb2 x)). set (d := be_bytes8 (limb3 x)).
  rewrite <- !be_bytes8_word. fold a b c d.
  assert (La : length a = 8) by apply be_bytes8_length. assert (Lb : length b = 8) by apply be_bytes8_length.
  assert (Lc : length c = 8) by apply be_bytes8_length. assert (Ld : length d = 8) by apply be_bytes8_length.
  replace (a ++ b ++ c ++ d ++ be_bytes8 (limb4 x) ++ be_bytes8 (limb5 x) ++ [])
    with ((a ++ b ++ c ++ d) ++ (be_bytes8 (limb4 x) ++ be_bytes8 (limb5 x))) by now rewrite <- !app_assoc, app_nil_r.
  rewrite slice_ok by (rewrite ?app_length; lia). rewrite skipn_O, Nat.sub_0_r, firstn_app, firstn_all2 by (rewrite ?app_length; lia).
  replace (32 - length (a ++ b ++ c ++ d)) with 0 by (rewrite !app_length; lia). now rewrite firstn_O, app_nil_r.
Qed.

Lemma dense_id (p : list Fr) : last p f0 <> f0 -> dense p = p.
Proof.
  intros H. destruct (dense_spec p) as ((z & E) & _). destruct z as [|z].
  - cbn [repeat] in E. rewrite app_nil_r in E. now symmetry.
  - exfalso. apply H. rewrite E. replace (S z) with (z + 1) by lia. rewrite repeat_app, app_assoc. apply last_last.
Qed.

Lemma dense_trimmed (p : list Fr) : (exists i, coef p i <> f0) -> trimmed p (dense p).
Proof.
  intros (i & Hi). destruct (dense_spec p) as (E & [H|H]).
  - exfalso. apply Hi. now apply dense_nil.
  - split; auto.
Qed.

Section P.
Context {P : pairing Fr}.
Variable L : ark_lib P.
Implicit Types (ks : ark_kzg P).

Lemma seed_last (pre : list (ark_point P)) (p : ark_point P) : ark_seed (pre ++ [p]) = Ok (point_seed (snd p)).
Proof.
  unfold ark_seed. rewrite app_length. cbn [length]. rewrite usub_ok by lia. cbn [bind].
  replace (length pre + 1 - 1) with (length pre) by lia.
  rewrite (idx_ok _ _ p) by (rewrite app_length; cbn; lia). cbn [bind].
  rewrite app_nth2, Nat.sub_diag by lia. cbn [nth]. apply seed_slice.
Qed.

Lemma seed_empty : ark_seed (@nil (ark_point P)) = Panic.
Proof. reflexivity. Qed.

(** ** setup *)
Lemma setup_loop {A B} (f : Fr -> A) (g : Fr -> B) (s : Fr) n :
  for_range 0 n (fun _ (st : Fr * list A * list B) =>
      let '(s_pow, s1, s2) := st in Ok (fmul s_pow s, s1 ++ [f s_pow], s2 ++ [g s_pow])) (f1, [], [])
  = Ok (fpow s n, map (fun i => f (fpow s i)) (seq 0 n), map (fun i => g (fpow s i)) (seq 0 n)).
Proof.
  destruct (for_range_inv (fun j (st : Fr * list A * list B) =>
     st = (fpow s j, map (fun i => f (fpow s i)) (seq 0 j), map (fun i => g (fpow s i)) (seq 0 j)))
    (fun _ st => let '(s_pow, s1, s2) := st in Ok (fmul s_pow s, s1 ++ [f s_pow], s2 ++ [g s_pow])) 0 n (f1, [], [])) as (st & E & ->);
    [lia|reflexivity| |exact E].
  intros j t _ ->. eexists. split; [reflexivity|]. rewrite seq_S, !map_app. cbn [map Nat.add].
  rewrite fpow_S_r. reflexivity.
Qed.

Lemma setup_test_spec n (s : Fr) : ark_setup_test L n s =
  Ok (map (fun i => (smul (fpow s i) gen1, lib_x_mul L (fpow s i))) (seq 0 n), map (fun i => smul (fpow s i) gen2) (seq 0 n)).
Proof.
  unfold ark_setup_test, ark_point.
  rewrite (setup_loop (A := (PG1 P * limbs6)%type) (B := PG2 P) (fun c => (smul c gen1, lib_x_mul L c)) (fun c => smul c gen2) s n). reflexivity.
Qed.

Lemma trusted_setup_ark n secret : ark_generate_trusted_setup L n secret =
  if (ark_secret_value secret <? r)%Z then Ok (repeat (g0, lib_x_zero L) n, repeat g0 n) else Panic.
Proof.
  unfold ark_generate_trusted_setup, ark_point. destruct (_ <? _)%Z; [|reflexivity].
  rewrite (setup_loop (A := (PG1 P * limbs6)%type) (B := PG2 P) (fun c => (smul c g0, lib_x_zero L)) (fun c => smul c g0) _ n). cbn [bind]. f_equal. f_equal.
  - generalize 0. induction n; intros a; [reflexivity|]. cbn [seq map repeat]. rewrite smul_0_r, IHn. reflexivity.
  - generalize 0. induction n; intros a; [reflexivity|]. cbn [seq map repeat]. rewrite smul_0_r, IHn. reflexivity.
Qed.

Definition beta_powers (b : Fr) n : list (PG1 P) := map (fun i => smul (fpow b i) gen1) (seq 0 n).

Lemma params_spec d seed : 0 < d -> let b := fst (lib_draw L seed) in exists gg,
  length gg = d + 2 /\
  ark_setup_params L d seed = Ok (mkParams (beta_powers b (d + 1)) gg gen2 (smul b gen2),
    (map (fun i => (smul (fpow b i) gen1, lib_x_mul L (fpow b i))) (seq 0 d), map (fun i => smul (fpow b i) gen2) (seq 0 d))).
Proof.
  intros Hd b. unfold ark_setup_params. destruct (Nat.ltb_spec d 1); [lia|]. subst b.
  destruct (lib_draw L seed) as [b gg]. cbn [fst].
  destruct (for_range_inv (fun j (st : list Fr * Fr) => st = (map (fpow b) (seq 0 (S j)), fpow b (S j)))
    (fun _ st => let (powers, cur) := st in Ok (powers ++ [cur], fmul cur b)) 0 d ([f1], b)) as (st & E & ->).
  - lia.
  - cbn [seq map fpow]. rewrite fmul_1_r. reflexivity.
  - intros j t _ ->. eexists. split; [reflexivity|]. rewrite (seq_S (S j)), map_app. cbn [map Nat.add]. rewrite fpow_S_r. reflexivity.
  - rewrite E. cbn [bind fst]. rewrite !map_map, length_map_seq, usub_ok by lia. cbn [bind].
    rewrite (idx_ok _ _ g0) by (rewrite length_map_seq; lia). cbn [bind unwrap]. rewrite setup_test_spec. cbn [bind].
    eexists. split; [|replace (d + 1) with (S d) by lia; reflexivity]. rewrite app_length, length_map_seq. cbn. lia.
Qed.

Lemma copy_loop {A B} (f : A -> B) (l : list A) n (d : A) : length l = n ->
  for_range 0 n (fun i t => let* p := idx l i in Ok (t ++ [f p])) [] = Ok (map f l).
Proof.
  intros Hl. destruct (for_range_inv (fun j t => t = map f (firstn j l)) (fun i t => let* p := idx l i in Ok (t ++ [f p])) 0 n [])
    as (t & E & ->); [lia|reflexivity| |rewrite E, firstn_all2 by lia; reflexivity].
  intros j t Hj ->. rewrite (idx_ok l j d) by lia. cbn [bind]. eexists. split; [reflexivity|].
  rewrite (firstn_snoc l j d) by lia. now rewrite map_app.
Qed.

Variable HW : lib_root (lib_W L).

Lemma kzg_new_nil sg2 u fs : ark_kzg_new L [] sg2 u fs = Panic.
Proof. reflexivity. Qed.

Lemma kzg_new_ok (pre : list (ark_point P)) (p : ark_point P) sg2 u fs : let b := fst (lib_draw L (point_seed (snd p))) in exists gg,
  length gg = u + 3 /\
  ark_kzg_new L (pre ++ [p]) sg2 u fs = Ok (mkArkKZG fs
    (map (fun i => (smul (fpow b i) gen1, lib_x_mul L (fpow b i))) (seq 0 (u + 1)))
    (map (fun i => smul (fpow b i) gen2) (seq 0 (u + 1))) (u + 1)
    (mkParams (beta_powers b (u + 1)) gg gen2 (smul b gen2))).
Proof.
  intros b. unfold ark_kzg_new. rewrite seed_last. cbn [bind]. unfold ark_point.
  destruct (params_spec (u + 1) (point_seed (snd p)) ltac:(lia)) as (gg & Lg & E). rewrite E. clear E. cbn [unwrap bind]. fold b.
  exists gg. split; [lia|].
  rewrite (copy_loop (A := (PG1 P * limbs6)%type) (fun p => p) _ _ (g0, lib_x_zero L)) by apply length_map_seq. cbn [bind].
  rewrite (copy_loop (A := PG2 P) (fun p => p) _ _ g0) by apply length_map_seq. cbn [bind].
  rewrite (copy_loop (A := (PG1 P * limbs6)%type) (B := PG1 P) fst _ _ (g0, lib_x_zero L)) by apply length_map_seq. cbn [bind].
  rewrite (ark_clone_ok _ blst_table blst_table_ok blst_table_length (aHD _ HW)). cbn [bind ap_powers_of_gamma_g ap_h ap_beta_h]. rewrite !map_id, map_map. cbn [fst]. reflexivity.
Qed.

(** what [ark_made] says about the value *)
Definition shape ks (u : nat) (b : Fr) : Prop :=
  ak_g1 ks = map (fun i => (smul (fpow b i) gen1, lib_x_mul L (fpow b i))) (seq 0 (u + 1)) /\
  ak_g2 ks = map (fun i => smul (fpow b i) gen2) (seq 0 (u + 1)) /\ ak_length ks = u + 1 /\
  ap_powers_of_g (ak_params ks) = beta_powers b (u + 1) /\ length (ap_powers_of_gamma_g (ak_params ks)) = u + 3 /\
  ap_h (ak_params ks) = gen2 /\ ap_beta_h (ak_params ks) = smul b gen2.

Lemma made_inv ks k u b : ark_made L ks k u b ->
  k < 32 /\ shape ks u b /\ settings_ok (ak_fs ks) k (root k) /\ fft_settings_new blst_table k = Ok (ak_fs ks).
Proof.
  intros (fs & pre & p & sg2 & Hfs & Hk & ->). rewrite (anew _ HW) in Hfs.
  destruct (new_inv k fs Hfs) as (K32 & HS). destruct (kzg_new_ok pre p sg2 u fs) as (gg & Lg & E). rewrite E in Hk. injection Hk as <-.
  split; auto. split; [|split; auto]. repeat split; auto.
Qed.

Lemma made_exists k u (pre : list (ark_point P)) (p : ark_point P) sg2 : k < 32 -> exists fs ks, ark_settings_new (lib_W L) k = Ok fs /\ ark_kzg_new L (pre ++ [p]) sg2 u fs = Ok ks /\
  ark_made L ks k u (fst (lib_draw L (point_seed (snd p)))) /\ ak_fs ks = fs.
Proof.
  intros Hk. destruct (new_ok k Hk) as (fs & E & _). rewrite <- (anew _ HW) in E.
  destruct (kzg_new_ok pre p sg2 u fs) as (gg & Lg & E2).
  exists fs. eexists. split; [exact E|]. split; [exact E2|]. split; [|reflexivity]. exists fs, pre, p, sg2. eauto.
Qed.

(** ** trim and the library's commitment *)
Lemma powers_pos u : 0 < u -> 0 < ark_powers u <= u + 1.
Proof. unfold ark_powers. destruct (Nat.eqb_spec u 2); lia. Qed.

Lemma beta_powers_length b n : length (beta_powers b n) = n.
Proof. apply length_map_seq. Qed.

Lemma beta_powers_firstn b n m : m <= n -> firstn m (beta_powers b n) = beta_powers b m.
Proof.
  intros H. unfold beta_powers. rewrite firstn_map. replace n with (m + (n - m)) by lia. rewrite seq_app, firstn_app, seq_length, Nat.sub_diag.
  rewrite firstn_O, app_nil_r, firstn_all2 by (rewrite seq_length; lia). reflexivity.
Qed.

Lemma trim_spec ks u b : shape ks u b ->
  (u = 0 -> ark_trim_degree (ak_params ks) = Panic) /\
  (0 < u -> exists d, ark_trim_degree (ak_params ks) = Ok d /\
     ark_trim (ak_params ks) d = Ok (beta_powers b (ark_powers u), (gen1, gen2, smul b gen2))).
Proof.
  intros (_ & _ & _ & G & GG & H & B). unfold ark_trim_degree. rewrite G, beta_powers_length. split.
  - intros ->. reflexivity.
  - intros Hu. exists (u - 1). rewrite usub_ok by lia. cbn [bind]. rewrite usub_ok by lia.
    split; [f_equal; lia|]. unfold ark_trim. rewrite G, H, B.
    assert (E : (if u - 1 =? 1 then u - 1 + 1 else u - 1) + 1 = ark_powers u).
    { unfold ark_powers. destruct (Nat.eqb_spec (u - 1) 1), (Nat.eqb_spec u 2); lia. }
    rewrite E. assert (PP := powers_pos u Hu).
    rewrite slice_ok by (rewrite ?beta_powers_length; lia). cbn [bind]. rewrite skipn_O, Nat.sub_0_r, beta_powers_firstn by lia.
    match goal with |- context [for_range 0 _ ?bd []] =>
      destruct (for_range_inv (fun _ (_ : list (PG1 P)) => True) bd 0 (ark_powers u) []) as (l & E2 & _) end; [lia|exact I| |].
    { intros j t Hj _. rewrite (idx_ok _ _ g0) by lia. cbn [bind]. eauto. }
    rewrite E2. cbn [bind]. rewrite (idx_ok _ _ g0) by (rewrite beta_powers_length; lia). cbn [bind].
    rewrite (idx_ok _ _ g0) by lia. cbn [bind]. unfold beta_powers at 2. rewrite nth_map_seq by lia. rewrite fpow_0, smul_1. reflexivity.
Qed.

Lemma skip_zeros_spec (p : list Fr) : exists z, z <= length p /\ (forall i, i < z -> coef p i = f0) /\ ark_skip_zeros p = Ok (z, skipn z p).
Proof.
  unfold ark_skip_zeros.
  match goal with |- context [while_ _ ?c ?bd _] =>
    destruct (while_inv (fun n => n <= length p /\ forall i, i < n -> coef p i = f0) (fun n => length p - n) c bd (S (length p)) 0)
      as (z & E & (Hz & HI) & _) end.
  - split; [lia|intros i Hi; lia].
  - lia.
  - intros n (Hn & HI) C. apply andb_prop in C as (C1 & C2). apply Nat.ltb_lt in C1.
    rewrite (nth_error_nth' p f0) in C2 by auto. rewrite (idx_ok p n f0) by auto. cbn [bind]. exists (n + 1).
    split; [reflexivity|]. split; [|lia]. split; [lia|]. intros i Hi. destruct (Nat.eq_dec i n) as [->|]; [|apply HI; lia].
    now apply feqb_spec in C2.
  - exists z. split; [auto|]. split; [auto|]. rewrite E. cbn [bind]. rewrite slice_from_ok by auto. reflexivity.
Qed.

Lemma commit_powers_spec b n (p : list Fr) : 0 < n ->
  ark_commit_powers (beta_powers b n) p = if length p <=? n then Ok (smul (peval p b) gen1) else Err.
Proof.
  intros Hn. unfold ark_commit_powers, ark_check_degree. rewrite beta_powers_length.
  destruct (Nat.leb_spec (length p) n), (Nat.ltb_spec n (length p - 1 + 1)); try lia; [|reflexivity]. cbn [bind].
  destruct (skip_zeros_spec p) as (z & Hz & HI & E). rewrite E. cbn [bind fst snd].
  rewrite slice_from_ok by (rewrite beta_powers_length; lia). cbn [bind]. f_equal.
  unfold lib_msm. rewrite !skipn_length, beta_powers_length, Nat.min_r by lia.
  rewrite peval_sum, <- gsum_scal. replace (length p) with (z + (length p - z)) at 2 by lia. rewrite gsum_split.
  rewrite (gsum_0 z) by (intros i Hi; rewrite HI by lia; rewrite mul0l; apply smul_0_l). rewrite gadd_0_l.
  apply gsum_ext. intros i Hi. rewrite !nth_skipn'. unfold beta_powers. rewrite nth_map_seq by lia. rewrite smul_smul. reflexivity.
Qed.

Definition below (p : list Fr) (d : nat) : Prop := forall i, d <= i -> coef p i = f0.

Lemma below_dense p d : below p d <-> length (dense p) <= d.
Proof.
  split.
  - intros H. destruct (Nat.le_gt_cases (length (dense p)) d) as [|G]; auto. exfalso.
    destruct (dense_spec p) as (_ & [E|E]); [rewrite E in G; cbn in G; lia|]. apply E. rewrite last_coef, dense_coef. apply H. lia.
  - intros H i Hi. rewrite <- dense_coef. apply coef_over. lia.
Qed.

Lemma peval_dense (p : list Fr) x : peval (dense p) x = peval p x.
Proof. apply peval_ext. intros i. apply dense_coef. Qed.

Lemma peval_zero (p : list Fr) x : (forall i, coef p i = f0) -> peval p x = f0.
Proof. intros H. rewrite peval_sum. apply sum_0. intros i _. rewrite H. apply mul0l. Qed.

Lemma commit_inner_spec ks u b (p : list Fr) : shape ks u b ->
  (length p <= u + 1 -> below p (ark_powers u) -> ark_commit_inner ks p = Ok (smul (peval p b) gen1)) /\
  (u + 1 < length p -> ark_commit_inner ks p = Err) /\
  (~ below p (ark_powers u) -> unwrap (ark_commit_inner ks p) = Panic).
Proof.
  intros S. pose proof S as (_ & _ & LE & _). unfold ark_commit_inner. rewrite LE. split; [|split].
  - intros H B. destruct (Nat.ltb_spec (u + 1) (length p)); [lia|]. destruct (lib_is_zero (dense p)) eqn:Z.
    + pose proof (proj1 (lib_is_zero_dense p) Z) as Z'. rewrite peval_zero, smul_0_l by auto. reflexivity.
    + destruct (trim_spec ks u b S) as (_ & T). destruct (Nat.eq_dec u 0) as [->|U].
      { exfalso. assert (lib_is_zero (dense p) = true); [|congruence]. apply (lib_is_zero_dense p). intros i. apply B. cbn. lia. }
      destruct T as (d & -> & T); [lia|]. cbn [bind]. rewrite T. cbn [unwrap bind fst].
      rewrite commit_powers_spec by (apply powers_pos; lia). apply below_dense in B. destruct (Nat.leb_spec (length (dense p)) (ark_powers u)); [|lia].
      cbn [unwrap]. now rewrite peval_dense.
  - intros H. destruct (Nat.ltb_spec (u + 1) (length p)); [reflexivity|lia].
  - intros B. destruct (Nat.ltb_spec (u + 1) (length p)); [reflexivity|]. destruct (lib_is_zero (dense p)) eqn:Z.
    { exfalso. apply B. intros i _. revert i. now apply (lib_is_zero_dense p). }
    destruct (trim_spec ks u b S) as (T0 & T). destruct (Nat.eq_dec u 0) as [->|U].
    { now rewrite T0. }
    destruct T as (d & -> & T); [lia|]. cbn [bind]. rewrite T. cbn [unwrap bind fst].
    rewrite commit_powers_spec by (apply powers_pos; lia). destruct (Nat.leb_spec (length (dense p)) (ark_powers u)); [|reflexivity].
    exfalso. apply B. now apply below_dense.
Qed.

Lemma below_length p d : length p <= d -> below p d.
Proof. intros H i Hi. apply coef_over. lia. Qed.

Lemma C79_commit_gen ks u b (p : list Fr) : shape ks u b ->
  (length p <= u + 1 -> below p (ark_powers u) -> ark_commit_to_poly ks p = Ok (smul (peval p b) gen1)) /\
  (u + 1 < length p \/ ~ below p (ark_powers u) -> ark_commit_to_poly ks p = Panic).
Proof.
  intros S. destruct (commit_inner_spec ks u b p S) as (A & B & C). unfold ark_commit_to_poly. split.
  - intros H1 H2. now rewrite A.
  - intros [H|H]; [now rewrite B|now apply C].
Qed.

(** ** division *)
Lemma top_nonzero (a b q : list Fr) : euclid a b q -> last a f0 <> f0 -> 0 < length b <= length a -> last q f0 <> f0.
Proof.
  intros (Lq & rr & Lr & HE) Ha Hb. assert (0 < length q) by lia. intros Z. apply Ha.
  rewrite last_coef, HE, (coef_over rr) by lia.
  assert (C : convol q b (length a - 1) = f0).
  { unfold convol. apply sum_0. intros i Hi. destruct (Nat.lt_trichotomy i (length q - 1)) as [H1|[H1|H1]].
    - rewrite (coef_over b) by lia. apply mul0r.
    - rewrite H1, <- last_coef, Z. apply mul0l.
    - rewrite (coef_over q) by lia. apply mul0l. }
  rewrite C. apply fadd_0_l'.
Qed.

Lemma binomial_dense n (c : Fr) : dense (binomial n c) = binomial n c.
Proof. apply dense_id. rewrite last_binomial. apply f1_neq_0. Qed.

Lemma binomial_nonzero n (c : Fr) : 0 < n -> exists i, coef (binomial n c) i <> f0.
Proof. intros H. exists n. rewrite binomial_monic by auto. apply f1_neq_0. Qed.

Lemma binomial_ne n (c : Fr) : binomial n c <> [].
Proof. discriminate. Qed.

Lemma binomial_lead n (c : Fr) : 0 < n -> coef (binomial n c) (length (binomial n c) - 1) <> f0.
Proof. intros H. rewrite binomial_length by auto. replace (S n - 1) with n by lia. rewrite binomial_monic by auto. apply f1_neq_0. Qed.

Lemma long_div_binomial (p : list Fr) n c : 0 < n -> (exists i, coef p i <> f0) ->
  exists q, ark_long_div p (binomial n c) = Ok q /\ euclid (dense p) (binomial n c) q.
Proof.
  intros Hn Hp. destruct (ark_long_div_spec p (binomial n c)) as (_ & _ & H). rewrite binomial_dense in H.
  apply H; auto. now apply binomial_nonzero.
Qed.

(** the quotient's coefficients start below [d] exactly when those of [p] start below [d + n] *)
Lemma quotient_below (p q : list Fr) n c d : 0 < n -> (exists i, coef p i <> f0) ->
  quotient p (binomial n c) q -> (below q d <-> below p (d + n)).
Proof.
  intros Hn Hp (rr & Lr & HE). destruct (long_div_binomial p n c Hn Hp) as (q' & _ & Q'). pose proof Q' as (Lq & r' & Lr' & HE').
  assert (EQ : forall k, coef q k = coef q' k).
  { refine (proj1 (euclid_unique (binomial n c) q rr q' r' (binomial_ne n c) (binomial_lead n c Hn) Lr Lr' _)).
    intros k. rewrite <- HE, <- HE'. symmetry. apply dense_coef. }
  rewrite binomial_length in Lq by auto. destruct (dense_trimmed p Hp) as (_ & LD).
  rewrite (below_dense p). split.
  - intros B. destruct (Nat.le_gt_cases (length (dense p)) (d + n)) as [|G]; auto. exfalso.
    assert (T := top_nonzero _ _ _ Q' LD). rewrite binomial_length in T by auto. specialize (T ltac:(lia)).
    apply T. rewrite last_coef, <- EQ. apply B. lia.
  - intros H i Hi. rewrite EQ. apply coef_over. lia.
Qed.

(** ** single proofs *)
Lemma open_spec b n (p : list Fr) x : 0 < n ->
  (below p n -> (exists i, coef p i <> f0) -> exists q, euclid (dense p) [fneg x; f1] q /\ ark_open (beta_powers b n) (dense p) x = Ok (smul (peval q b) gen1)) /\
  ((forall i, coef p i = f0) -> ark_open (beta_powers b n) (dense p) x = Ok g0) /\
  (~ below p n -> ark_open (beta_powers b n) (dense p) x = Err).
Proof.
  intros Hn. unfold ark_open, ark_check_degree. rewrite beta_powers_length.
  assert (EB : [fneg x; f1] = binomial 1 x) by reflexivity. rewrite EB.
  assert (ED : lib_div (dense p) (binomial 1 x) = ark_long_div p (binomial 1 x)) by (unfold ark_long_div; now rewrite binomial_dense).
  rewrite ED. split; [|split].
  - intros B Hp. apply below_dense in B. destruct (Nat.ltb_spec n (length (dense p) - 1 + 1)) as [H|H].
    { destruct (dense p) eqn:E; cbn [length] in *; [|lia]. destruct Hp as (i & Hi). elim Hi. now apply dense_nil. }
    cbn [bind]. destruct (long_div_binomial p 1 x) as (q & -> & Q); [lia|auto|]. cbn [bind].
    exists q. split; auto. rewrite commit_powers_spec by auto. destruct Q as (Lq & _). rewrite binomial_length in Lq by lia.
    destruct (Nat.leb_spec (length q) n); [reflexivity|lia].
  - intros Z. assert (E : dense p = []) by now apply dense_nil. rewrite E. cbn [length]. destruct (Nat.ltb_spec n (0 - 1 + 1)); [lia|]. cbn [bind].
    destruct (ark_long_div_spec p (binomial 1 x)) as (-> & _); auto. cbn [bind]. rewrite commit_powers_spec by auto. cbn [length Nat.leb peval]. now rewrite smul_0_l.
  - intros B. destruct (Nat.ltb_spec n (length (dense p) - 1 + 1)) as [H|H]; [reflexivity|]. exfalso. apply B. apply below_dense. lia.
Qed.

Lemma C79_single_gen ks u b (p : list Fr) x : shape ks u b ->
  (u = 0 -> ark_compute_proof_single ks p x = Panic) /\
  (0 < u -> (forall i, coef p i = f0) -> ark_compute_proof_single ks p x = Ok g0) /\
  (0 < u -> (exists i, coef p i <> f0) -> below p (ark_powers u) ->
     exists q, euclid (dense p) [fneg x; f1] q /\ ark_compute_proof_single ks p x = Ok (smul (peval q b) gen1)) /\
  (~ below p (ark_powers u) -> ark_compute_proof_single ks p x = Panic).
Proof.
  intros S. destruct (trim_spec ks u b S) as (T0 & T1). unfold ark_compute_proof_single.
  assert (T : 0 < u -> (let* d := ark_trim_degree (ak_params ks) in let* t := unwrap (ark_trim (ak_params ks) d) in unwrap (ark_open (fst t) (dense p) x))
     = unwrap (ark_open (beta_powers b (ark_powers u)) (dense p) x)).
  { intros U. destruct (T1 U) as (d & -> & E). cbn [bind]. rewrite E. reflexivity. }
  split; [|split; [|split]].
  - intros E. now rewrite (T0 E).
  - intros U Z. rewrite T by auto. destruct (open_spec b (ark_powers u) p x) as (_ & -> & _); auto. apply powers_pos; auto.
  - intros U N B. rewrite T by auto. destruct (open_spec b (ark_powers u) p x) as (A & _ & _); [apply powers_pos; auto|].
    destruct (A B N) as (q & Q & ->). eauto.
  - intros B. destruct (Nat.eq_dec u 0) as [E|U]; [now rewrite (T0 E)|]. rewrite T by lia.
    destruct (open_spec b (ark_powers u) p x) as (_ & _ & ->); auto. apply powers_pos. lia.
Qed.

Lemma pe_check (a c : PG1 P) (z : Fr) : geqb (pe a gen2) (pe c (smul z gen2)) = true <-> a = smul z c.
Proof.
  rewrite (geqb_spec _ (PGT P)), <- pairings_verify_spec. unfold pairings_verify. rewrite (geqb_spec _ (PGT P)), pe_neg_l. split.
  - intros ->. now rewrite gadd_comm, gadd_neg_r.
  - intros E. rewrite gadd_comm in E. symmetry. now apply gsub_0.
Qed.

Lemma C79_check_gen ks u b com proof x y : shape ks u b ->
  (0 < u -> exists v, ark_check_proof_single ks com proof x y = Ok v /\ (v = true <-> gsub com (smul y gen1) = smul (fsub b x) proof)) /\
  (u = 0 -> ark_check_proof_single ks com proof x y = Panic).
Proof.
  intros S. destruct (trim_spec ks u b S) as (T0 & T1). unfold ark_check_proof_single. split.
  - intros U. destruct (T1 U) as (d & -> & E). cbn [bind]. rewrite E. cbn [unwrap bind]. eexists. split; [reflexivity|].
    rewrite gsub_smul. apply pe_check.
  - intros E. now rewrite (T0 E).
Qed.

Lemma C79_complete_gen ks u b (p : list Fr) x : shape ks u b -> 0 < u -> length p <= u + 1 -> below p (ark_powers u) ->
  exists com proof, ark_commit_to_poly ks p = Ok com /\ ark_compute_proof_single ks p x = Ok proof /\
    ark_check_proof_single ks com proof x (peval p x) = Ok true /\
    forall y, y <> peval p x -> ark_check_proof_single ks com proof x y = Ok false.
Proof.
  intros S U LP B. destruct (C79_commit_gen ks u b p S) as (A & _). exists (smul (peval p b) gen1).
  destruct (C79_single_gen ks u b p x S) as (_ & Z & N & _).
  assert (Q : exists q, ark_compute_proof_single ks p x = Ok (smul (peval q b) gen1) /\ fsub (peval p b) (peval p x) = fmul (fsub b x) (peval q b)).
  { destruct (iszero_dec p) as [E|E].
    - exists []. rewrite (Z U E). cbn [peval]. rewrite smul_0_l, !(peval_zero p) by auto. split; [reflexivity|]. symmetry. rewrite mul0r. symmetry. apply fsub_diag'.
    - destruct (N U E B) as (q & Q & ->). exists q. split; [reflexivity|].
      destruct (euclid_eval _ _ _ Q) as (rr & Lr & HE). pose proof (HE b) as Hb. pose proof (HE x) as Hx. rewrite !peval_dense in *.
      destruct rr as [|c [|? ?]]; cbn [length] in Lr; try lia; cbn [peval] in Hb, Hx; rewrite Hb, Hx; [apply quot_alg0|apply quot_alg]. }
  destruct Q as (q & Q & EQ). exists (smul (peval q b) gen1). split; [auto|]. split; [auto|].
  assert (V : forall y, exists v, ark_check_proof_single ks (smul (peval p b) gen1) (smul (peval q b) gen1) x y = Ok v /\ (v = true <-> y = peval p x)).
  { intros y. destruct (C79_check_gen ks u b (smul (peval p b) gen1) (smul (peval q b) gen1) x y S) as (C & _). destruct (C U) as (v & E & Hv).
    exists v. split; auto. rewrite Hv, gsub_smul, smul_smul, <- EQ. split.
    - intros H. apply smul_gen_inj in H; [|apply gen1_neq_0]. now apply fsub_inj' in H.
    - now intros ->. }
  split.
  - destruct (V (peval p x)) as (v & -> & Hv). f_equal. now apply Hv.
  - intros y Hy. destruct (V y) as (v & -> & Hv). f_equal. destruct v; auto. exfalso. now apply Hy, Hv.
Qed.

(** ** multi proofs *)
Lemma ark_divisor n (c : Fr) : 0 < n ->
  exists d, upd (repeat f0 (n + 1)) 0 (fneg c) = Ok d /\ for_range 1 n (fun i d => upd d i f0) d = Ok d /\ upd d n f1 = Ok (binomial n c).
Proof.
  intros Hn. rewrite upd_ok by (rewrite repeat_length; lia). eexists. split; [reflexivity|].
  destruct (for_range_inv (fun _ d => d = set (repeat f0 (n + 1)) 0 (fneg c)) (fun i d => upd d i f0) 1 n
     (set (repeat f0 (n + 1)) 0 (fneg c))) as (d & E & Hd); [lia|reflexivity| |].
  - intros j t Hj ->. rewrite upd_ok by (rewrite set_length, repeat_length; lia). eexists. split; [reflexivity|].
    apply nth_ext with (d := f0) (d' := f0); [now rewrite !set_length|]. intros i Hi. rewrite !set_length, repeat_length in Hi.
    rewrite nth_set by (rewrite set_length, repeat_length; lia). destruct (Nat.eqb_spec i j); [|reflexivity].
    rewrite nth_set_other by (rewrite ?repeat_length; lia). now rewrite nth_repeat_same.
  - rewrite E, Hd. split; [reflexivity|]. rewrite upd_ok by (rewrite set_length, repeat_length; lia). f_equal.
    apply nth_ext with (d := f0) (d' := f0); [rewrite !set_length, repeat_length, binomial_length; lia|].
    intros i Hi. rewrite !set_length, repeat_length in Hi. unfold binomial.
    destruct (Nat.eq_dec i n) as [->|In].
    + rewrite nth_set_same by (rewrite set_length, repeat_length; lia). rewrite app_assoc, app_nth2; rewrite app_length, repeat_length; cbn [length]; [|lia].
      replace (n - (1 + (n - 1))) with 0 by lia. reflexivity.
    + rewrite nth_set_other by (rewrite ?set_length, ?repeat_length; lia). destruct i as [|i].
      * now rewrite nth_set_same by (rewrite repeat_length; lia).
      * rewrite nth_set_other by (rewrite ?repeat_length; lia). rewrite nth_repeat_same. cbn [app nth].
        rewrite app_nth1 by (rewrite repeat_length; lia). now rewrite nth_repeat_same.
Qed.

Lemma compute_multi_unfold ks (p : list Fr) x n : 0 < n ->
  ark_compute_proof_multi L ks p x n =
  let* q := unwrap (ark_poly_div (lib_W L) p (binomial n (fpow x n))) in unwrap (ark_commit_inner ks q).
Proof.
  intros Hn. unfold ark_compute_proof_multi. destruct (ark_divisor n (fpow x n) Hn) as (d & E1 & E2 & E3).
  rewrite E1. cbn [bind]. rewrite E2. cbn [bind]. rewrite E3. reflexivity.
Qed.

Lemma compute_multi_nonzero ks u b (p : list Fr) x n : shape ks u b -> fits (2 * length p) -> 0 < n -> (exists i, coef p i <> f0) ->
  (below p (ark_powers u + n) -> n < 127 \/ length p <= n + 1 \/ length p <= u + 1 + n ->
     exists q, euclid (dense p) (binomial n (fpow x n)) q /\ ark_compute_proof_multi L ks p x n = Ok (smul (peval q b) gen1)) /\
  (~ below p (ark_powers u + n) \/ (127 <= n /\ u + 1 + n < length p) -> ark_compute_proof_multi L ks p x n = Panic).
Proof.
  intros S F Hn Hp. rewrite compute_multi_unfold by auto. set (B := binomial n (fpow x n)).
  assert (LB : length B = n + 1) by (unfold B; rewrite binomial_length; lia).
  assert (HBl : coef B (length B - 1) <> f0) by now apply binomial_lead. assert (HBn : B <> []) by discriminate.
  destruct (long_div_binomial p n (fpow x n) Hn Hp) as (q' & _ & Q'). fold B in Q'.
  destruct (ark_poly_div_spec (lib_W L) blst_table blst_table_ok blst_table_length (aHD _ HW) aHC p B HBn HBl Hp) as (q & E & Lq & Q).
  { unfold fits in *. lia. }
  assert (EV : peval q b = peval q' b).
  { apply peval_ext. destruct Q as (rr & Lr & HE), Q' as (_ & r' & Lr' & HE').
    refine (proj1 (euclid_unique B q rr q' r' HBn HBl Lr Lr' _)). intros k. rewrite <- HE, <- HE'. symmetry. apply dense_coef. }
  assert (QB := quotient_below p q n (fpow x n) (ark_powers u) Hn Hp Q).
  destruct (commit_inner_spec ks u b q S) as (C1 & C2 & C3). rewrite E. cbn [unwrap bind]. split.
  - intros HB HL. exists q'. split; [exact Q'|]. rewrite C1; [now rewrite <- EV| |now apply QB].
    destruct (Nat.le_gt_cases (length q) (u + 1)) as [|G]; auto. exfalso.
    assert (LS : n < 127 \/ length p <= n + 1) by (destruct HL as [HL|[HL|HL]]; auto; lia).
    unfold ark_poly_div in E. replace ((length p <=? length B) || (length B <? 128)) with true in E.
    2:{ symmetry. apply orb_true_iff. rewrite Nat.leb_le, Nat.ltb_lt. lia. }
    destruct (long_div_binomial p n (fpow x n) Hn Hp) as (q2 & E2 & (L2 & _)). fold B in E2, L2. rewrite E2 in E. apply Ok_inj in E. subst q2.
    apply below_dense in HB. assert (PU : ark_powers u <= u + 1) by (unfold ark_powers; destruct (Nat.eqb_spec u 2); lia). lia.
  - intros [HB|(H1 & H2)].
    + apply C3. intros X. apply HB. now apply QB.
    + rewrite C2; [reflexivity|]. unfold ark_poly_div in E.
      replace ((length p <=? length B) || (length B <? 128)) with false in E.
      2:{ symmetry. apply orb_false_iff. rewrite Nat.leb_gt, Nat.ltb_ge. lia. }
      destruct (ark_fast_div_spec (lib_W L) blst_table blst_table_ok blst_table_length (aHD _ HW) aHC p B HBn HBl) as (_ & _ & _ & H).
      destruct H as (q2 & E2 & (L2 & _)); auto; [intros ->; cbn in H2; lia|lia|unfold fits in *; lia|].
      rewrite E2 in E. apply Ok_inj in E. subst q2. lia.
Qed.

Lemma commit_inner_zero ks u b (q : list Fr) : shape ks u b -> (forall i, coef q i = f0) -> length q <= u + 1 -> ark_commit_inner ks q = Ok g0.
Proof.
  intros S Z Lq. destruct (commit_inner_spec ks u b q S) as (C1 & _). rewrite C1, (peval_zero q), smul_0_l by (auto; intros i _; auto). reflexivity.
Qed.

Lemma compute_multi_zero ks u b (p : list Fr) x n : shape ks u b -> fits (2 * length p) -> 0 < n -> (forall i, coef p i = f0) ->
  (n < 127 \/ length p <= n + 1 -> ark_compute_proof_multi L ks p x n = Ok g0) /\
  (127 <= n /\ n + 1 < length p < n + 128 -> ark_compute_proof_multi L ks p x n = Panic) /\
  (127 <= n /\ n + 128 <= length p <= u + 1 + n -> ark_compute_proof_multi L ks p x n = Ok g0) /\
  (127 <= n /\ n + 128 <= length p /\ u + 1 + n < length p -> ark_compute_proof_multi L ks p x n = Panic).
Proof.
  intros S F Hn Z. rewrite compute_multi_unfold by auto. set (B := binomial n (fpow x n)).
  assert (LB : length B = n + 1) by (unfold B; rewrite binomial_length; lia).
  assert (HBl : coef B (length B - 1) <> f0) by now apply binomial_lead. assert (HBn : B <> []) by discriminate.
  destruct (ark_poly_div_edges (lib_W L) blst_table blst_table_ok blst_table_length (aHD _ HW) aHC p B) as (A1 & A2 & _).
  assert (HF : 127 <= n -> n + 128 <= length p -> exists q, ark_poly_div (lib_W L) p B = Ok q /\ length q = length p - n /\ forall i, coef q i = f0).
  { intros H1 H2. destruct (ark_fast_div_spec (lib_W L) blst_table blst_table_ok blst_table_length (aHD _ HW) aHC p B HBn HBl) as (_ & _ & _ & H).
    destruct H as (q & E & Q); [intros ->; cbn in H2; lia|lia|unfold fits in *; lia|right; right; lia|].
    exists q. unfold ark_poly_div. replace ((length p <=? length B) || (length B <? 128)) with false.
    2:{ symmetry. apply orb_false_iff. rewrite Nat.leb_gt, Nat.ltb_ge. lia. }
    split; [exact E|]. destruct Q as (Lq & rr & Lr & HE). split; [lia|].
    intros i. rewrite <- (coef_nil i). revert i.
    refine (proj1 (euclid_unique B q rr [] [] HBn HBl Lr _ _)); [cbn; lia|]. intros k. rewrite <- HE, Z, convol_nil_l, coef_nil. symmetry. apply fadd_0_l'. }
  split; [|split; [|split]].
  - intros H. rewrite A1 by (auto; lia). cbn [unwrap bind]. rewrite (commit_inner_zero ks u b []); auto; [|cbn; lia]. intros i. apply coef_nil.
  - intros (H1 & H2). rewrite A2 by (auto; lia). reflexivity.
  - intros (H1 & H2). destruct HF as (q & -> & Lq & Zq); try lia. cbn [unwrap bind]. rewrite (commit_inner_zero ks u b q); auto. lia.
  - intros (H1 & H2 & H3). destruct HF as (q & -> & Lq & Zq); try lia. cbn [unwrap bind].
    destruct (commit_inner_spec ks u b q S) as (_ & -> & _); [reflexivity|lia].
Qed.

Lemma div_one (p : list Fr) : ark_poly_div (lib_W L) p [f1] = Ok (dense p).
Proof.
  unfold ark_poly_div. replace (length [f1] <? 128) with true by reflexivity. rewrite orb_true_r.
  destruct (ark_long_div_spec p [f1]) as (A & _ & C). destruct (iszero_dec p) as [Z|N].
  - rewrite A by auto. f_equal. symmetry. now apply dense_nil.
  - assert (D : dense [f1 : Fr] = [f1]) by (apply dense_id; apply f1_neq_0).
    destruct C as (q & E & Q); auto; [exists 0; apply f1_neq_0|]. rewrite D in Q. rewrite E. f_equal.
    destruct Q as (Lq & rr & Lr & HE). cbn [length] in Lq, Lr. destruct rr; cbn [length] in Lr; [|lia].
    apply coef_ext; [lia|]. intros i Hi. rewrite HE, coef_nil, convol_comm, convol_cons.
    destruct i; rewrite ?convol_nil_l; symmetry; apply one_alg.
Qed.

Lemma compute_multi_n0 ks u b (p : list Fr) x : shape ks u b ->
  (below p (ark_powers u) -> ark_compute_proof_multi L ks p x 0 = Ok (smul (peval p b) gen1)) /\
  (~ below p (ark_powers u) -> ark_compute_proof_multi L ks p x 0 = Panic).
Proof.
  intros S. unfold ark_compute_proof_multi. cbn [Nat.add repeat]. rewrite upd_ok by (cbn; lia). cbn [bind set for_range Nat.sub for_].
  rewrite upd_ok by (cbn; lia). cbn [bind set]. rewrite div_one. cbn [unwrap bind].
  destruct (commit_inner_spec ks u b (dense p) S) as (A & _ & C).
  assert (E : below (dense p) (ark_powers u) <-> below p (ark_powers u)).
  { split; intros H i Hi; [rewrite <- dense_coef|rewrite dense_coef]; auto. }
  split; intros H.
  - rewrite A; [now rewrite peval_dense| |now apply E]. apply below_dense in H. unfold ark_powers in *. destruct (Nat.eqb_spec u 2); lia.
  - apply C. intros X. apply H. now apply E.
Qed.

(** ** multi checks *)
Definition view ks : kzg_settings P := mkKZG (ak_fs ks) (map fst (ak_g1 ks)) (ak_g2 ks).

Lemma view_setup ks u b : shape ks u b -> setup_powers (view ks) b (u + 1).
Proof. intros (A & B & _). split; cbn [view secret_g1 secret_g2]; [rewrite A, map_map; reflexivity|exact B]. Qed.

Lemma check_multi_unfold ks k u b com proof x (ys : list Fr) n j : shape ks u b -> settings_ok (ak_fs ks) k (root k) ->
  fft_settings_new blst_table k = Ok (ak_fs ks) -> j <= k -> length ys = 2 ^ j -> x <> f0 -> 0 < n <= length ys ->
  exists J, fft_fr (ak_fs ks) ys true = Ok J /\ length J = length ys /\
  ark_check_proof_multi L ks com proof x ys n =
    let* sg := idx (ak_g2 ks) n in
    let* is1 := unwrap (ark_commit_inner ks (map (fun i => if (i <? n)%nat then fmul (nth i J f0) (fpow (finv x) i) else nth i J f0) (seq 0 (length J)))) in
    Ok (pairings_verify (gsub com is1) gen2 proof (gsub sg (smul (fpow x n) gen2))).
Proof.
  intros S HF N Hj Ej Hx Hn. pose proof S as (_ & _ & _ & _ & _ & HH & _).
  destruct (ifft_fr_interpolates (ak_fs ks) k (root k) j ys HF Hj Ej) as (J & EJ & LJ & _). exists J. split; [exact EJ|]. split; [congruence|].
  unfold ark_check_proof_multi. rewrite (afft _ HW k _ _ _ N), EJ. cbn [unwrap bind].
  rewrite ark_inverse_ok by auto. cbn [bind]. rewrite coset_loop by lia. cbn [bind].
  rewrite ark_inverse_ok by (apply fpow_neq_0; now apply finv_neq_0). cbn [bind]. rewrite finv_fpow, HH. reflexivity.
Qed.

Lemma check_multi_ok ks k u b com proof x (ys : list Fr) n j : shape ks u b -> settings_ok (ak_fs ks) k (root k) ->
  fft_settings_new blst_table k = Ok (ak_fs ks) -> j <= k -> length ys = 2 ^ j -> x <> f0 -> 0 < n <= length ys -> n <= u -> length ys <= ark_powers u ->
  exists v, ark_check_proof_multi L ks com proof x ys n = Ok v.
Proof.
  intros S HF N Hj Ej Hx Hn Hu Hy. destruct (check_multi_unfold ks k u b com proof x ys n j) as (J & _ & LJ & ->); auto.
  pose proof S as (_ & S2 & _). rewrite (idx_ok _ n g0) by (rewrite S2, length_map_seq; lia). cbn [bind].
  assert (ark_powers u <= u + 1) by (unfold ark_powers; destruct (Nat.eqb_spec u 2); lia).
  destruct (commit_inner_spec ks u b (map (fun i => if (i <? n)%nat then fmul (nth i J f0) (fpow (finv x) i) else nth i J f0) (seq 0 (length J))) S) as (C & _).
  rewrite C; [eexists; reflexivity|rewrite length_map_seq; lia|apply below_length; rewrite length_map_seq; lia].
Qed.

Lemma check_multi_panics ks k u b com proof x (ys : list Fr) n : shape ks u b -> settings_ok (ak_fs ks) k (root k) ->
  fft_settings_new blst_table k = Ok (ak_fs ks) ->
  ~ acceptable (ak_fs ks) (length ys) \/ x = f0 \/ length ys < n \/ u < n \/ u + 1 < length ys ->
  ark_check_proof_multi L ks com proof x ys n = Panic.
Proof.
  intros S HF N H. destruct (fft_fr_total k (ak_fs ks) ys true N) as (Ta & Te).
  assert (AD : acceptable (ak_fs ks) (length ys) \/ ~ acceptable (ak_fs ks) (length ys)).
  { unfold acceptable. destruct (is_pow2 (length ys)) eqn:E.
    - apply is_pow2_spec in E. destruct (Nat.le_gt_cases (length ys) (max_width (ak_fs ks))); [left; auto|right; lia].
    - right. intros (_ & X). apply is_pow2_spec in X. congruence. }
  destruct AD as [A|A].
  2:{ unfold ark_check_proof_multi. rewrite (afft _ HW k _ _ _ N), Te by auto. reflexivity. }
  destruct H as [H|H]; [contradiction|].
  destruct (acceptable_m k _ _ N A) as (j & Ej & Hj).
  destruct (fdec x f0) as [->|Hx].
  { unfold ark_check_proof_multi. rewrite (afft _ HW k _ _ _ N). destruct (ifft_fr_interpolates (ak_fs ks) k (root k) j ys HF Hj Ej) as (J & -> & _).
    cbn [unwrap bind]. unfold ark_inverse. now rewrite feqb_refl. }
  destruct H as [H|H]; [contradiction|]. pose proof S as (_ & S2 & _).
  destruct (Nat.lt_ge_cases (length ys) n) as [B|B].
  { unfold ark_check_proof_multi. rewrite (afft _ HW k _ _ _ N). destruct (ifft_fr_interpolates (ak_fs ks) k (root k) j ys HF Hj Ej) as (J & -> & LJ & _).
    cbn [unwrap bind]. rewrite ark_inverse_ok by auto. cbn [bind]. assert (Pj := pow2_pos j).
    assert (CL := coset_loop J (finv x) (2 ^ j) Pj ltac:(lia)). unfold for_range in *.
    replace (n - 1)%nat with ((2 ^ j - 1) + Datatypes.S (n - 2 ^ j - 1))%nat by lia. rewrite !for_app, CL. cbn [bind for_].
    rewrite idx_panic by (rewrite length_map_seq; lia). reflexivity. }
  destruct (Nat.eq_dec n 0) as [->|Hn].
  { assert (Hl : u + 1 < length ys) by lia. unfold ark_check_proof_multi. rewrite (afft _ HW k _ _ _ N).
    destruct (ifft_fr_interpolates (ak_fs ks) k (root k) j ys HF Hj Ej) as (J & -> & LJ & _).
    cbn [unwrap bind]. rewrite ark_inverse_ok by auto. cbn [bind for_range Nat.sub for_].
    rewrite ark_inverse_ok by now apply finv_neq_0. cbn [bind]. rewrite (idx_ok _ 0 g0) by (rewrite S2, length_map_seq; lia). cbn [bind].
    destruct (commit_inner_spec ks u b J S) as (_ & -> & _); [reflexivity|lia]. }
  destruct (check_multi_unfold ks k u b com proof x ys n j) as (J & _ & LJ & ->); auto; [lia|].
  destruct (Nat.lt_ge_cases u n) as [U|U].
  - rewrite idx_panic by (rewrite S2, length_map_seq; lia). reflexivity.
  - rewrite (idx_ok _ n g0) by (rewrite S2, length_map_seq; lia). cbn [bind].
    destruct (commit_inner_spec ks u b (map (fun i => if (i <? n)%nat then fmul (nth i J f0) (fpow (finv x) i) else nth i J f0) (seq 0 (length J))) S) as (_ & C & _).
    rewrite C; [reflexivity|rewrite length_map_seq; lia].
Qed.

Lemma check_multi_view ks k u b com proof x (ys : list Fr) m : shape ks u b -> settings_ok (ak_fs ks) k (root k) ->
  fft_settings_new blst_table k = Ok (ak_fs ks) -> m <= k -> length ys = 2 ^ m -> x <> f0 -> 2 ^ m <= u ->
  ark_check_proof_multi L ks com proof x ys (2 ^ m) = check_proof_multi (view ks) com proof x ys (2 ^ m).
Proof.
  intros S HF N Hm Em Hx Hu. assert (Pm := pow2_pos m).
  destruct (check_multi_unfold ks k u b com proof x ys (2 ^ m) m) as (J & EJ & LJ & ->); auto; [lia|].
  unfold check_proof_multi. rewrite is_pow2_pow. cbn [negb view kzg_fs secret_g2]. rewrite EJ. cbn [bind].
  rewrite coset_loop by lia. cbn [bind]. rewrite finv_fpow. pose proof S as (_ & S2 & _).
  rewrite (idx_ok _ (2 ^ m) g0) by (rewrite S2, length_map_seq; lia). cbn [bind].
  set (I := map _ _). assert (LI : length I = 2 ^ m) by (unfold I; rewrite length_map_seq; lia).
  assert (ark_powers u = u \/ ark_powers u = u + 1) by (unfold ark_powers; destruct (Nat.eqb_spec u 2); lia).
  destruct (commit_inner_spec ks u b I S) as (C & _). rewrite C by (try apply below_length; lia).
  rewrite (commit_spec (view ks) b (u + 1)) by (try apply view_setup; auto; lia). reflexivity.
Qed.

(** ** the properties *)
Lemma secret_value_eq secret : length secret = 32 -> ark_secret_value secret = secret_value secret.
Proof.
  intros H. do 32 (destruct secret as [|? secret]; [discriminate H|]). destruct secret; [|discriminate H]. clear H.
  unfold ark_secret_value, secret_value, be_value. cbn [firstn skipn rev app le_value seq map nth fold_right].
  repeat match goal with |- context [(2 ^ Z.of_nat ?e)%Z] => let v := eval vm_compute in (2 ^ Z.of_nat e)%Z in change (2 ^ Z.of_nat e)%Z with v end.
  ring.
Qed.

Lemma nth_error_map_seq {A} (f : nat -> A) n i : i < n -> nth_error (map f (seq 0 n)) i = Some (f i).
Proof. intros H. rewrite nth_error_map, (nth_error_nth' (seq 0 n) 0), seq_nth by (rewrite ?seq_length; auto). reflexivity. Qed.

Lemma nth_error_repeat_lt {A} (x : A) n i : i < n -> nth_error (repeat x n) i = Some x.
Proof. intros H. rewrite (nth_error_nth' _ x) by (rewrite repeat_length; auto). now rewrite nth_repeat_same. Qed.

Lemma C78_setup_proof n secret : length secret = 32 ->
  ((r <= secret_value secret)%Z -> ark_generate_trusted_setup L n secret = Panic) /\
  ((secret_value secret < r)%Z -> exists g1s g2s,
     ark_generate_trusted_setup L n secret = Ok (g1s, g2s) /\ length g1s = n /\ length g2s = n /\
     forall i, i < n -> nth_error g1s i = Some (g0, lib_x_zero L) /\ nth_error g2s i = Some g0).
Proof.
  clear HW. intros H. rewrite trusted_setup_ark, (secret_value_eq secret H). destruct (Z.ltb_spec (secret_value secret) r); split; intros H'; try lia; auto.
  do 2 eexists. split; [reflexivity|]. rewrite !repeat_length. split; auto. split; auto. intros i Hi. now rewrite !nth_error_repeat_lt.
Qed.

Lemma C78_new_proof (pre : list (ark_point P)) (p : ark_point P) sg2 u fs : let beta := fst (lib_draw L (point_seed (snd p))) in
  ark_kzg_new L [] sg2 u fs = Panic /\
  exists ks, ark_kzg_new L (pre ++ [p]) sg2 u fs = Ok ks /\ ak_fs ks = fs /\
    ak_length ks = u + 1 /\ length (ak_g1 ks) = u + 1 /\ length (ak_g2 ks) = u + 1 /\ length (ap_powers_of_g (ak_params ks)) = u + 1 /\
    ap_h (ak_params ks) = gen2 /\ ap_beta_h (ak_params ks) = smul beta gen2 /\
    forall i, i <= u ->
      nth_error (ak_g1 ks) i = Some (smul (fpow beta i) gen1, lib_x_mul L (fpow beta i)) /\
      nth_error (ak_g2 ks) i = Some (smul (fpow beta i) gen2) /\
      nth_error (ap_powers_of_g (ak_params ks)) i = Some (smul (fpow beta i) gen1).
Proof.
  intros beta. split; [apply kzg_new_nil|]. destruct (kzg_new_ok pre p sg2 u fs) as (gg & Lg & E). fold beta in E. eexists. split; [exact E|].
  cbn [ak_fs ak_length ak_g1 ak_g2 ak_params ap_powers_of_g ap_h ap_beta_h]. unfold ark_point in *. rewrite !length_map_seq, beta_powers_length.
  do 7 (split; [reflexivity|]). intros i Hi. unfold beta_powers. rewrite !nth_error_map_seq by lia. auto.
Qed.

Lemma C78_seed_proof (pre pre' : list (ark_point P)) (p p' : ark_point P) sg2 sg2' u fs :
  limb0 (snd p) = limb0 (snd p') -> limb1 (snd p) = limb1 (snd p') ->
  limb2 (snd p) = limb2 (snd p') -> limb3 (snd p) = limb3 (snd p') ->
  ark_kzg_new L (pre ++ [p]) sg2 u fs = ark_kzg_new L (pre' ++ [p']) sg2' u fs.
Proof.
  intros H0 H1 H2 H3. assert (E : point_seed (snd p) = point_seed (snd p')) by (unfold point_seed; congruence).
  unfold ark_kzg_new. now rewrite !seed_last, E.
Qed.

Lemma repeat_snoc {A} (x : A) n : 0 < n -> repeat x n = repeat x (n - 1) ++ [x].
Proof. intros H. replace n with (n - 1 + 1) at 1 by lia. now rewrite repeat_app. Qed.

Lemma C78_public_proof n secret sg1 sg2 u k fs : ark_settings_new (lib_W L) k = Ok fs -> length secret = 32 ->
  ark_generate_trusted_setup L n secret = Ok (sg1, sg2) ->
  (n = 0 -> ark_kzg_new L sg1 sg2 u fs = Panic) /\
  (0 < n -> exists ks, ark_kzg_new L sg1 sg2 u fs = Ok ks /\ ark_made L ks k u (fst (lib_draw L (point_seed (lib_x_zero L)))) /\
     forall n' secret' sg1' sg2', 0 < n' -> length secret' = 32 -> ark_generate_trusted_setup L n' secret' = Ok (sg1', sg2') ->
       ark_kzg_new L sg1' sg2' u fs = Ok ks).
Proof.
  intros Hfs _ H.
  assert (SG : forall n secret sg1 sg2, ark_generate_trusted_setup L n secret = Ok (sg1, sg2) -> sg1 = repeat (g0, lib_x_zero L) n).
  { clear. intros n secret sg1 sg2 H. rewrite trusted_setup_ark in H. destruct (_ <? _)%Z; [|discriminate]. now injection H as <- _. }
  rewrite (SG _ _ _ _ H). split.
  - intros ->. apply kzg_new_nil.
  - intros Hn. rewrite repeat_snoc by auto. destruct (kzg_new_ok (repeat (g0, lib_x_zero L) (n - 1)) (g0, lib_x_zero L) sg2 u fs) as (gg & Lg & E).
    eexists. split; [exact E|]. split.
    + exists fs. do 3 eexists. split; [exact Hfs|]. split; [exact E|]. reflexivity.
    + intros n' secret' sg1' sg2' Hn' _ H'. rewrite (SG _ _ _ _ H'), repeat_snoc by auto. rewrite <- E. apply C78_seed_proof; reflexivity.
Qed.

Lemma C78_clone_proof ks k u beta : ark_made L ks k u beta ->
  exists ks', ark_kzg_clone L ks = Ok ks' /\ ak_fs ks' = ak_fs ks /\ ak_length ks = u + 1 /\ ak_length ks' = u + 2 /\
    ark_made L ks' k (u + 1) (fst (lib_draw L (point_seed (lib_x_mul L (fpow beta u))))).
Proof.
  intros H. destruct (made_inv ks k u beta H) as (K32 & S & HS & N). pose proof S as (S1 & _ & S3 & _). unfold ark_kzg_clone.
  rewrite (ark_clone_ok _ blst_table blst_table_ok blst_table_length (aHD _ HW)). cbn [bind]. rewrite S1, S3.
  assert (SQ : seq 0 (u + 1) = seq 0 u ++ [u]) by (rewrite seq_app; reflexivity). rewrite SQ, map_app. cbn [map].
  match goal with |- context [ark_kzg_new L (?pre ++ [?p]) _ _ _] => destruct (kzg_new_ok pre p (ak_g2 ks) (u + 1) (ak_fs ks)) as (gg & Lg & E) end.
  unfold ark_point in *. rewrite E. cbn [unwrap]. eexists. split; [reflexivity|]. cbn [ak_fs ak_length]. split; [reflexivity|]. split; [reflexivity|]. split; [lia|].
  exists (ak_fs ks). do 3 eexists. split; [rewrite (anew _ HW); exact N|]. split; [exact E|]. reflexivity.
Qed.

Lemma C79_commit_proof ks k u beta (p : list Fr) : ark_made L ks k u beta ->
  (length p <= u + 1 -> (forall i, ark_powers u <= i -> coef p i = f0) -> ark_commit_to_poly ks p = Ok (smul (peval p beta) gen1)) /\
  (u + 1 < length p -> ark_commit_to_poly ks p = Panic) /\
  (forall i, ark_powers u <= i -> coef p i <> f0 -> ark_commit_to_poly ks p = Panic).
Proof.
  intros H. destruct (made_inv ks k u beta H) as (_ & S & _). destruct (C79_commit_gen ks u beta p S) as (A & B). split; [exact A|]. split.
  - auto.
  - intros i Hi N. apply B. right. intros X. now apply N, X.
Qed.

Lemma C79_compute_proof ks k u beta (p : list Fr) x : ark_made L ks k u beta ->
  (u = 0 -> ark_compute_proof_single ks p x = Panic) /\
  (0 < u -> (forall i, coef p i = f0) -> ark_compute_proof_single ks p x = Ok g0) /\
  (forall p', 0 < u -> trimmed p p' -> length p' <= ark_powers u ->
     exists q, euclid p' [fneg x; f1] q /\ ark_compute_proof_single ks p x = Ok (smul (peval q beta) gen1)) /\
  (forall p', trimmed p p' -> ark_powers u < length p' -> ark_compute_proof_single ks p x = Panic).
Proof.
  intros H. destruct (made_inv ks k u beta H) as (_ & S & _). destruct (C79_single_gen ks u beta p x S) as (A & B & C & D).
  assert (T : forall p', trimmed p p' -> dense p = p').
  { intros p' T. apply (trimmed_unique p); auto. apply dense_trimmed. now apply (trimmed_nonzero _ p'). }
  split; [exact A|]. split; [exact B|]. split.
  - intros p' U T' HL. rewrite <- (T p' T') in *. apply C; auto; [now apply (trimmed_nonzero _ _ T')|now apply below_dense].
  - intros p' T' HL. apply D. intros X. apply below_dense in X. rewrite (T p' T') in X. lia.
Qed.

Lemma C79_complete_proof ks k u beta (p : list Fr) x : ark_made L ks k u beta -> 0 < u -> length p <= u + 1 ->
  (forall i, ark_powers u <= i -> coef p i = f0) ->
  exists com proof, ark_commit_to_poly ks p = Ok com /\ ark_compute_proof_single ks p x = Ok proof /\
    ark_check_proof_single ks com proof x (peval p x) = Ok true /\
    forall y, y <> peval p x -> ark_check_proof_single ks com proof x y = Ok false.
Proof. intros H. destruct (made_inv ks k u beta H) as (_ & S & _). now apply (C79_complete_gen ks u beta). Qed.

Lemma C79_check_proof ks k u beta com proof x y : ark_made L ks k u beta ->
  (0 < u -> exists v, ark_check_proof_single ks com proof x y = Ok v /\
     (v = true <-> gsub com (smul y gen1) = smul (fsub beta x) proof)) /\
  (u = 0 -> ark_check_proof_single ks com proof x y = Panic).
Proof. intros H. destruct (made_inv ks k u beta H) as (_ & S & _). now apply (C79_check_gen ks u beta). Qed.

Lemma C79_binding_proof ks k u beta com p1 p2 x y1 y2 : ark_made L ks k u beta -> 0 < u -> y1 <> y2 ->
  ark_check_proof_single ks com p1 x y1 = Ok true -> ark_check_proof_single ks com p2 x y2 = Ok true ->
  beta <> x /\ smul (finv (fsub beta x)) gen1 = smul (finv (fsub y2 y1)) (gsub p1 p2).
Proof.
  intros H U N. destruct (made_inv ks k u beta H) as (_ & S & _). assert (V := view_setup ks u beta S).
  assert (E : forall com pr y, ark_check_proof_single ks com pr x y = Ok true -> check_proof_single (view ks) com pr x y = Ok true).
  { intros c pr y E. destruct (C79_check_gen ks u beta c pr x y S) as (A & _). destruct (A U) as (v & E' & Hv). rewrite E in E'. injection E' as <-.
    destruct (check_single_spec (view ks) beta (u + 1) c pr x y V ltac:(lia)) as (w & -> & Hw). f_equal. apply Hw. now apply Hv. }
  intros H1 H2. apply (single_binding (view ks) beta (u + 1) com); auto. lia.
Qed.

Lemma C80_compute_proof ks k u beta (p p' : list Fr) x n : ark_made L ks k u beta -> fits (2 * length p) -> 0 < n -> trimmed p p' ->
  (length p' <= ark_powers u + n -> n < 127 \/ length p <= n + 1 \/ length p <= u + 1 + n ->
     exists q, euclid p' ([fneg (fpow x n)] ++ repeat f0 (n - 1) ++ [f1]) q /\ ark_compute_proof_multi L ks p x n = Ok (smul (peval q beta) gen1)) /\
  (ark_powers u + n < length p' \/ (127 <= n /\ u + 1 + n < length p) -> ark_compute_proof_multi L ks p x n = Panic).
Proof.
  intros H F Hn T. destruct (made_inv ks k u beta H) as (_ & S & _). assert (NZ := trimmed_nonzero _ _ T).
  assert (E : dense p = p') by (apply (trimmed_unique p); auto; now apply dense_trimmed).
  destruct (compute_multi_nonzero ks u beta p x n S F Hn NZ) as (A & B). rewrite <- E, <- (below_dense p). split.
  - exact A.
  - intros [X|X]; apply B; [left; rewrite below_dense; lia|right; exact X].
Qed.

Lemma C80_zero_proof ks k u beta (p : list Fr) x n : ark_made L ks k u beta -> fits (2 * length p) -> 0 < n -> (forall i, coef p i = f0) ->
  (n < 127 \/ length p <= n + 1 -> ark_compute_proof_multi L ks p x n = Ok g0) /\
  (127 <= n /\ n + 1 < length p < n + 128 -> ark_compute_proof_multi L ks p x n = Panic) /\
  (127 <= n /\ n + 128 <= length p <= u + 1 + n -> ark_compute_proof_multi L ks p x n = Ok g0) /\
  (127 <= n /\ n + 128 <= length p /\ u + 1 + n < length p -> ark_compute_proof_multi L ks p x n = Panic).
Proof. intros H. destruct (made_inv ks k u beta H) as (_ & S & _). now apply (compute_multi_zero ks u beta). Qed.

Lemma C80_none_proof ks k u beta (p : list Fr) x : ark_made L ks k u beta ->
  ((forall i, ark_powers u <= i -> coef p i = f0) -> ark_compute_proof_multi L ks p x 0 = Ok (smul (peval p beta) gen1)) /\
  (forall i, ark_powers u <= i -> coef p i <> f0 -> ark_compute_proof_multi L ks p x 0 = Panic).
Proof.
  intros H. destruct (made_inv ks k u beta H) as (_ & S & _). destruct (compute_multi_n0 ks u beta p x S) as (A & B). split; [exact A|].
  intros i Hi N. apply B. intros X. now apply N, X.
Qed.

Lemma C80_check_proof ks k u beta com proof x (ys : list Fr) n : ark_made L ks k u beta ->
  (acceptable (ak_fs ks) (length ys) -> x <> f0 -> 0 < n <= length ys -> n <= u -> length ys <= ark_powers u ->
     exists v, ark_check_proof_multi L ks com proof x ys n = Ok v) /\
  (~ acceptable (ak_fs ks) (length ys) \/ x = f0 \/ length ys < n \/ u < n \/ u + 1 < length ys ->
     ark_check_proof_multi L ks com proof x ys n = Panic).
Proof.
  intros H. destruct (made_inv ks k u beta H) as (K32 & S & HF & N). split.
  - intros A Hx Hn Hu Hy. destruct (acceptable_m k _ _ N A) as (j & Ej & Hj). now apply (check_multi_ok ks k u beta com proof x ys n j).
  - now apply (check_multi_panics ks k u beta).
Qed.

Lemma C80_accept_proof ks k u beta m com proof x (ys I : list Fr) : ark_made L ks k u beta -> m <= k -> length ys = 2 ^ m -> 2 ^ m <= u ->
  x <> f0 -> length I <= 2 ^ m -> (forall i, i < 2 ^ m -> peval I (fmul x (fpow (root m) i)) = nth i ys f0) ->
  exists v, ark_check_proof_multi L ks com proof x ys (2 ^ m) = Ok v /\
    (v = true <-> gsub com (smul (peval I beta) gen1) = smul (fsub (fpow beta (2 ^ m)) (fpow x (2 ^ m))) proof).
Proof.
  intros H Hm Ly Hl Hx LI HI. destruct (made_inv ks k u beta H) as (K32 & S & HF & N).
  rewrite (check_multi_view ks k u beta) by auto. rewrite <- (root_pow k m) in HI by auto.
  apply (check_multi_meaning (view ks) beta (u + 1) k (root k)); auto; [now apply view_setup|lia].
Qed.

Lemma C80_complete_proof ks k u beta m (p : list Fr) x : ark_made L ks k u beta -> m <= k -> 2 ^ m <= u -> fits (2 * length p) -> length p <= u + 1 ->
  (forall i, ark_powers u <= i -> coef p i = f0) -> x <> f0 ->
  (exists i, coef p i <> f0) \/ 2 ^ m < 127 \/ length p <= 2 ^ m + 1 \/ 2 ^ m + 128 <= length p ->
  exists com proof, ark_commit_to_poly ks p = Ok com /\ ark_compute_proof_multi L ks p x (2 ^ m) = Ok proof /\
    ark_check_proof_multi L ks com proof x (map (fun i => peval p (fmul x (fpow (root m) i))) (seq 0 (2 ^ m))) (2 ^ m) = Ok true.
Proof.
  intros H Hm Hl F LP B Hx Hz. destruct (made_inv ks k u beta H) as (K32 & S & HF & N). assert (V := view_setup ks u beta S).
  assert (DL := dense_length p). assert (F' : fits (2 * length (dense p))) by (unfold fits in *; lia). assert (Pm := pow2_pos m).
  destruct (multi_complete blst_table Hdiv_Fr (view ks) beta (u + 1) k (root k) m (dense p) x V HF Hm ltac:(lia) F' ltac:(lia) (or_introl Hx)) as (com & proof & A & Bp & C).
  exists com, proof. split; [|split].
  - rewrite (commit_spec (view ks) beta (u + 1)) in A by (auto; lia). apply Ok_inj in A. subst com. rewrite peval_dense.
    now apply (C79_commit_proof ks k u beta p H).
  - destruct (proof_multi_spec blst_table Hdiv_Fr (view ks) beta (u + 1) m (dense p) x V F') as (q & rr & Hq & Lq & _ & _ & CP & _).
    rewrite CP in Bp by lia. apply Ok_inj in Bp. subst proof. destruct (iszero_dec p) as [Z|NZ].
    + assert (E : dense p = []) by now apply dense_nil. rewrite E in Lq. cbn [length] in Lq. destruct q; [|cbn in Lq; lia]. cbn [peval]. rewrite smul_0_l.
      destruct (compute_multi_zero ks u beta p x (2 ^ m) S F Pm Z) as (A1 & _ & A3 & _). destruct Hz as [Hz|[Hz|[Hz|Hz]]].
      * exfalso. destruct Hz as (i & Hi). apply Hi, Z.
      * apply A1. auto.
      * apply A1. auto.
      * destruct (Nat.lt_ge_cases (2 ^ m) 127); [apply A1; auto|]. apply A3. lia.
    + destruct (compute_multi_nonzero ks u beta p x (2 ^ m) S F Pm NZ) as (A1 & _). destruct A1 as (q' & Q' & E').
      * intros i Hi. apply B. lia.
      * right. right. lia.
      * rewrite E'. f_equal. f_equal. f_equal. apply (euclid_fun (dense p) (binomial (2 ^ m) (fpow x (2 ^ m)))); auto; [apply binomial_ne|now apply binomial_lead].
  - rewrite (check_multi_view ks k u beta _ _ x _ m S HF N Hm (length_map_seq _ _) Hx Hl). rewrite (root_pow k m) in C by auto.
    assert (EM : map (fun i => peval p (fmul x (fpow (root m) i))) (seq 0 (2 ^ m)) = map (fun i => peval (dense p) (fmul x (fpow (root m) i))) (seq 0 (2 ^ m))).
    { apply map_ext. intros i. symmetry. apply peval_dense. }
    rewrite EM. exact C.
Qed.
End P.
