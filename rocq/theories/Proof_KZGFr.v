(** * Proof_KZGFr: commitments and proofs over the concrete scalar field; scalar multiplication *)
From Coq Require Import List Arith Lia Bool ZArith NArith Field.
From Verif Require Import Base Fld Poly Loops Model_Utils Proof_Utils Model_FFT Spec Proof_FFT Zr ZrTables Proof_FFTFr.
From Verif Require Import Model_Poly Proof_PolyFr Model_KZG Spec_KZG Proof_KZG.
Import ListNotations.

Lemma Hdiv_Fr : forall a b : list Fr, fits (2 * length a) -> b <> [] -> coef b (length b - 1) <> f0 ->
  exists q, poly_div blst_table a b = Ok q /\ euclid a b q.
Proof.
  intros a b HF N L. rewrite C18_div_proof by exact HF. destruct (C17_proof a b) as (H & _).
  destruct (H N L) as (q & E & Q & _). eauto.
Qed.

Lemma firstn_map_seq {A} (f : nat -> A) n len : len <= n -> firstn len (map f (seq 0 n)) = map f (seq 0 len).
Proof.
  intros H. rewrite firstn_map. f_equal. replace n with (len + (n - len)) by lia.
  rewrite seq_app, firstn_app, seq_length, Nat.sub_diag, firstn_O, app_nil_r. rewrite <- (seq_length len 0) at 1. apply firstn_all.
Qed.

Section P.
Context {P : pairing Fr}.
Implicit Types (ks : kzg_settings P).

Lemma api_inv ks k n len s : api_setup ks k n len s ->
  k < 32 /\ setup_powers ks s len /\ settings_ok (kzg_fs ks) k (root k) /\ fft_settings_new blst_table k = Ok (kzg_fs ks) /\ 2 ^ k <= len <= n.
Proof.
  intros (secret & fs & sg1 & sg2 & Hfs & Hg & Hk & ->). destruct (new_inv k fs Hfs) as (K32 & HS).
  unfold generate_trusted_setup in Hg. rewrite trusted_setup_spec in Hg. injection Hg as <- <-.
  pose proof HS as (W & _).
  destruct (Nat.le_gt_cases (2 ^ k) len) as [L1|L1].
  2: { rewrite kzg_new_errors in Hk by lia. discriminate. }
  destruct (Nat.le_gt_cases (2 ^ k) n) as [L2|L2].
  2: { rewrite kzg_new_errors in Hk by (rewrite !map_length, seq_length; lia). discriminate. }
  destruct (kzg_new_spec (P := P) blst_table (map (fun i => smul (fpow (fr_from_scalar secret) i) gen1) (seq 0 n))
     (map (fun i => smul (fpow (fr_from_scalar secret) i) gen2) (seq 0 n)) len fs) as (A & B);
     rewrite ?map_length, ?seq_length in *; try lia.
  { exact blst_table_ok. }
  { rewrite blst_table_length. lia. }
  destruct (Nat.le_gt_cases len n) as [L3|L3].
  2: { rewrite B in Hk by lia. discriminate. }
  rewrite A in Hk by lia. injection Hk as <-. cbn [kzg_fs].
  split; auto. split; [split; cbn [secret_g1 secret_g2]; now apply firstn_map_seq|]. split; auto.
Qed.

Lemma api_exists k n len secret : k < 32 -> 2 ^ k <= len <= n -> exists ks, api_setup ks k n len (fr_from_scalar secret).
Proof.
  intros K32 L. destruct (new_ok k K32) as (fs & Hfs & HS). pose proof HS as (W & _).
  destruct (kzg_new_spec (P := P) blst_table (map (fun i => smul (fpow (fr_from_scalar secret) i) gen1) (seq 0 n))
     (map (fun i => smul (fpow (fr_from_scalar secret) i) gen2) (seq 0 n)) len fs) as (A & B);
     rewrite ?map_length, ?seq_length in *; try lia.
  { exact blst_table_ok. }
  { rewrite blst_table_length. lia. }
  specialize (A ltac:(lia) ltac:(lia)). eexists. exists secret, fs. do 2 eexists. split; [exact Hfs|]. split; [apply trusted_setup_spec|]. split; [exact A|reflexivity].
Qed.

Lemma C28_proof ks k n len s (p : list Fr) : api_setup ks k n len s ->
  (length p <= len -> commit_to_poly ks p = Ok (smul (peval p s) gen1)) /\
  (len < length p -> commit_to_poly ks p = Err).
Proof.
  intros H. destruct (api_inv _ _ _ _ _ H) as (_ & S & _). split.
  - now apply commit_spec.
  - intros L. apply commit_err. destruct S as (-> & _). now rewrite map_length, seq_length.
Qed.

Lemma C28_trailing_proof ks (p : list Fr) z : length p + z <= length (secret_g1 ks) ->
  commit_to_poly ks (p ++ repeat f0 z) = commit_to_poly ks p.
Proof. apply commit_trailing. Qed.

Lemma C29_proof ks (a b : Fr) (p q : list Fr) : length p = length q -> length p <= length (secret_g1 ks) ->
  exists Cp Cq, commit_to_poly ks p = Ok Cp /\ commit_to_poly ks q = Ok Cq /\
    commit_to_poly ks (map (fun i => fadd (fmul a (coef p i)) (fmul b (coef q i))) (seq 0 (length p))) = Ok (gadd (smul a Cp) (smul b Cq)).
Proof. apply commit_homomorphic. Qed.

Lemma C30_proof n secret : exists g1s g2s, generate_trusted_setup (P := P) n secret = Ok (g1s, g2s) /\
  length g1s = n /\ length g2s = n /\
  forall i, i < n -> nth_error g1s i = Some (smul (fpow (fr_from_scalar secret) i) gen1) /\
                     nth_error g2s i = Some (smul (fpow (fr_from_scalar secret) i) gen2).
Proof.
  unfold generate_trusted_setup. rewrite trusted_setup_spec. do 2 eexists. split; [reflexivity|].
  rewrite !map_length, !seq_length. split; auto. split; auto. intros i Hi.
  rewrite !nth_error_map, !(nth_error_nth' (seq 0 n) 0), !seq_nth by (rewrite ?seq_length; auto). auto.
Qed.

Lemma C31_proof ks k n len s (p : list Fr) x : api_setup ks k n len s -> fits (2 * length p) -> length p <= len -> 2 <= len ->
  exists com proof, commit_to_poly ks p = Ok com /\ compute_proof_single blst_table ks p x = Ok proof /\
    check_proof_single ks com proof x (peval p x) = Ok true /\
    forall y, y <> peval p x -> check_proof_single ks com proof x y = Ok false.
Proof.
  intros H. destruct (api_inv _ _ _ _ _ H) as (_ & S & _). exact (single_complete blst_table Hdiv_Fr ks s len p x S).
Qed.

Lemma C31_panics_proof ks k n s com proof x y : api_setup ks k n 1 s -> check_proof_single ks com proof x y = Panic.
Proof.
  intros H. destruct (api_inv _ _ _ _ _ H) as (_ & (_ & S) & _). apply check_single_panics. rewrite S, map_length, seq_length. lia.
Qed.

Lemma C32_proof ks k n len s com proof x y : api_setup ks k n len s -> 2 <= len ->
  exists b, check_proof_single ks com proof x y = Ok b /\ (b = true <-> gsub com (smul y gen1) = smul (fsub s x) proof).
Proof. intros H. destruct (api_inv _ _ _ _ _ H) as (_ & S & _). exact (check_single_spec ks s len com proof x y S). Qed.

Lemma C32_binding_proof ks k n len s com p1 p2 x y1 y2 : api_setup ks k n len s -> 2 <= len -> y1 <> y2 ->
  check_proof_single ks com p1 x y1 = Ok true -> check_proof_single ks com p2 x y2 = Ok true ->
  s <> x /\ smul (finv (fsub s x)) gen1 = smul (finv (fsub y2 y1)) (gsub p1 p2).
Proof. intros H. destruct (api_inv _ _ _ _ _ H) as (_ & S & _). exact (single_binding ks s len com p1 p2 x y1 y2 S). Qed.

Lemma C33_proof ks k n len s m (p : list Fr) x : api_setup ks k n len s -> m <= k -> 2 ^ m < len ->
  fits (2 * length p) -> length p <= len -> x <> f0 \/ m = 0 ->
  exists com proof, commit_to_poly ks p = Ok com /\ compute_proof_multi blst_table ks p x (2 ^ m) = Ok proof /\
    check_proof_multi ks com proof x (map (fun i => peval p (fmul x (fpow (root m) i))) (seq 0 (2 ^ m))) (2 ^ m) = Ok true.
Proof.
  intros H Hm Hl HF Hp Hx. destruct (api_inv _ _ _ _ _ H) as (K32 & S & F & _).
  rewrite <- (root_pow k m) by auto. eapply multi_complete; eauto. exact Hdiv_Fr.
Qed.

Lemma C33_zero_proof ks k n len s m (p : list Fr) : api_setup ks k n len s -> m <= k -> 2 ^ m < len ->
  fits (2 * length p) -> length p <= len ->
  exists com proof b, commit_to_poly ks p = Ok com /\ compute_proof_multi blst_table ks p f0 (2 ^ m) = Ok proof /\
    check_proof_multi ks com proof f0 (repeat (peval p f0) (2 ^ m)) (2 ^ m) = Ok b /\
    (b = true <-> peval (firstn (2 ^ m) p) s = peval p f0).
Proof.
  intros H Hm Hl HF Hp. destruct (api_inv _ _ _ _ _ H) as (K32 & S & F & _).
  eapply multi_zero_offset; eauto. exact Hdiv_Fr.
Qed.

Lemma C34_proof ks k n len s m com proof x (ys I : list Fr) : api_setup ks k n len s -> m <= k -> length ys = 2 ^ m -> 2 ^ m < len ->
  x <> f0 \/ m = 0 -> length I <= 2 ^ m ->
  (forall i, i < 2 ^ m -> peval I (fmul x (fpow (root m) i)) = nth i ys f0) ->
  exists b, check_proof_multi ks com proof x ys (2 ^ m) = Ok b /\
    (b = true <-> gsub com (smul (peval I s) gen1) = smul (fsub (fpow s (2 ^ m)) (fpow x (2 ^ m))) proof).
Proof.
  intros H Hm Ly Hl Hx LI HI. destruct (api_inv _ _ _ _ _ H) as (K32 & S & F & _).
  rewrite <- (root_pow k m) in HI by auto. eapply check_multi_meaning; eauto.
Qed.

Lemma C35_compute_proof ks k n len s (p : list Fr) x c : api_setup ks k n len s -> fits (2 * length p) ->
  ((forall m, c <> 2 ^ m) -> compute_proof_multi blst_table ks p x c = Err) /\
  (forall m, c = 2 ^ m -> length p <= len + c -> exists q, euclid p ([fneg (fpow x c)] ++ repeat f0 (c - 1) ++ [f1]) q /\
     compute_proof_multi blst_table ks p x c = Ok (smul (peval q s) gen1)) /\
  (forall m, c = 2 ^ m -> len + c < length p -> compute_proof_multi blst_table ks p x c = Panic).
Proof.
  intros H HF. destruct (api_inv _ _ _ _ _ H) as (K32 & S & _).
  split; [apply proof_multi_errors|]. split; intros m -> L.
  - destruct (proof_multi_spec blst_table Hdiv_Fr ks s len m p x S HF) as (q & r & Hq & _ & _ & _ & CP & _).
    exists q. split; [exact Hq|]. apply CP. lia.
  - destruct (proof_multi_spec blst_table Hdiv_Fr ks s len m p x S HF) as (q & r & Hq & _ & _ & _ & _ & CP). apply CP. lia.
Qed.

Lemma C35_check_proof ks k n len s com proof x (ys : list Fr) c : api_setup ks k n len s ->
  ((forall m, c <> 2 ^ m) \/ ~ acceptable (kzg_fs ks) (length ys) -> check_proof_multi ks com proof x ys c = Err) /\
  (forall m, c = 2 ^ m -> acceptable (kzg_fs ks) (length ys) ->
     (c <= length ys -> c < len -> exists b, check_proof_multi ks com proof x ys c = Ok b) /\
     (length ys < c \/ len <= c -> check_proof_multi ks com proof x ys c = Panic)).
Proof.
  intros H. destruct (api_inv _ _ _ _ _ H) as (K32 & S & F & N & L). split.
  - intros Hc. destruct (is_pow2 c) eqn:Ec.
    + pose proof Ec as Ec'. apply is_pow2_spec in Ec' as (m & ->). destruct Hc as [Hc|Hc]; [now elim (Hc m)|].
      apply check_multi_fft_err. destruct (fft_fr_total k (kzg_fs ks) ys true N) as (_ & E). now apply E.
    + apply check_multi_errors. intros m ->. rewrite is_pow2_pow in Ec. discriminate.
  - intros m -> HA. destruct (acceptable_m k (kzg_fs ks) _ N HA) as (j & Ej & Hj).
    assert (2 ^ j <= 2 ^ k) by (apply Nat.pow_le_mono_r; lia). rewrite Ej. split.
    + intros A B. apply (check_multi_answers ks s len k (root k) m j); auto; try lia. now apply pow2_le_inv.
    + intros A. destruct (Nat.lt_ge_cases (2 ^ j) (2 ^ m)) as [B|B].
      * apply (check_multi_short_panics ks k (root k) m j); auto. apply (Nat.pow_lt_mono_r_iff 2); lia.
      * destruct A as [A|A]; [lia|]. assert (2 ^ m = 2 ^ j) by lia. assert (m = j) by (apply (Nat.pow_inj_r 2); lia). subst m.
        apply (check_multi_setup_panics ks s len k (root k) j); auto.
Qed.

Lemma C35_new_proof (sg1 : list (PG1 P)) (sg2 : list (PG2 P)) len k fs : fft_settings_new blst_table k = Ok fs ->
  (kzg_new blst_table sg1 sg2 len fs = Err <-> length sg1 < 2 ^ k \/ length sg2 < 2 ^ k \/ len < 2 ^ k) /\
  (2 ^ k <= len -> len <= length sg1 -> len <= length sg2 ->
     kzg_new blst_table sg1 sg2 len fs = Ok (mkKZG fs (firstn len sg1) (firstn len sg2))) /\
  (2 ^ k <= length sg1 -> 2 ^ k <= length sg2 -> 2 ^ k <= len -> length sg1 < len \/ length sg2 < len ->
     kzg_new blst_table sg1 sg2 len fs = Panic).
Proof.
  intros Hfs. destruct (new_inv k fs Hfs) as (K32 & HS). pose proof HS as (W & _).
  assert (TL : 0 < length blst_table) by (rewrite blst_table_length; lia).
  assert (KN := kzg_new_spec (P := P) blst_table sg1 sg2 len fs blst_table_ok TL). rewrite W in KN.
  assert (A : 2 ^ k <= len -> len <= length sg1 -> len <= length sg2 ->
     kzg_new blst_table sg1 sg2 len fs = Ok (mkKZG fs (firstn len sg1) (firstn len sg2))).
  { intros. apply KN; lia. }
  assert (B : 2 ^ k <= length sg1 -> 2 ^ k <= length sg2 -> 2 ^ k <= len -> length sg1 < len \/ length sg2 < len ->
     kzg_new blst_table sg1 sg2 len fs = Panic).
  { intros ? ? ? C. apply KN; lia. }
  split; [|split; auto]. split.
  - intros E. destruct (Nat.lt_ge_cases (length sg1) (2 ^ k)); auto. destruct (Nat.lt_ge_cases (length sg2) (2 ^ k)); auto.
    destruct (Nat.lt_ge_cases len (2 ^ k)); auto. exfalso.
    destruct (Nat.lt_ge_cases (length sg1) len); [rewrite B in E by auto; discriminate|].
    destruct (Nat.lt_ge_cases (length sg2) len); [rewrite B in E by auto; discriminate|]. rewrite A in E by auto. discriminate.
  - intros C. apply kzg_new_errors. lia.
Qed.
End P.

(** ** scalar multiplication *)
Section Mul.
Local Open Scope Z_scope.

Lemma le_bytes_length n : forall z, length (le_bytes n z) = n.
Proof. induction n; intros; cbn; auto. Qed.

Lemma le_value_bytes n : forall z, 0 <= z < 256 ^ Z.of_nat n -> le_value (le_bytes n z) = z.
Proof.
  induction n; intros z H.
  - cbn [le_bytes le_value]. change (256 ^ Z.of_nat 0) with 1 in H. lia.
  - rewrite Nat2Z.inj_succ, Z.pow_succ_r in H by lia. cbn [le_bytes le_value]. rewrite IHn.
    + pose proof (Z.div_mod z 256). lia.
    + split; [apply Z.div_pos; lia|]. apply Z.div_lt_upper_bound; lia.
Qed.

Lemma le_bytes_range n : forall z b, In b (le_bytes n z) -> 0 <= b < 256.
Proof.
  induction n; intros z b H; cbn in H; [easy|]. destruct H as [<-|H]; [apply Z.mod_pos_bound; lia|eauto].
Qed.

Lemma le_value_app a b : le_value (a ++ b) = le_value a + 256 ^ Z.of_nat (length a) * le_value b.
Proof.
  induction a.
  - change (256 ^ Z.of_nat (length (@nil Z))) with 1. cbn [app le_value]. ring.
  - cbn [app le_value length]. rewrite Nat2Z.inj_succ, Z.pow_succ_r by lia. rewrite IHa. ring.
Qed.

Lemma le_value_range bs : (forall b, In b bs -> 0 <= b < 256) -> 0 <= le_value bs < 256 ^ Z.of_nat (length bs).
Proof.
  induction bs; intros H.
  - cbn. lia.
  - cbn [length le_value]. rewrite Nat2Z.inj_succ, Z.pow_succ_r by lia.
    assert (0 <= a < 256) by (apply H; now left). assert (0 <= le_value bs < 256 ^ Z.of_nat (length bs)) by (apply IHbs; intros; apply H; now right). lia.
Qed.

Lemma le_value_zero bs : (forall b, In b bs -> b = 0) -> le_value bs = 0.
Proof. induction bs; intros H; cbn [le_value]; auto. rewrite (H a) by now left. rewrite IHbs; auto. intros; apply H; now right. Qed.

Lemma skipn_nth_cons {A} (l : list A) d : forall i, (i < length l)%nat -> skipn i l = nth i l d :: skipn (S i) l.
Proof. induction l; intros [|i] H; cbn in *; try lia; auto. apply IHl. lia. Qed.

Lemma In_firstn {A} (l : list A) x : forall n, In x (firstn n l) -> In x l.
Proof. intros n H. rewrite <- (firstn_skipn n l). apply in_or_app. now left. Qed.

Lemma of_N_log2 n : Z.of_N (N.log2 n) = Z.log2 (Z.of_N n).
Proof. destruct n as [|[q|q|]]; reflexivity. Qed.

Lemma trim_loop (bs : list Z) :
  exists i, while_ (S (length bs))
     (fun i => negb (i =? 0)%nat && match nth_error bs (i - 1) with Some c => Z.eqb c 0 | None => true end)
     (fun i => let* _ := idx bs (i - 1) in usub i 1) (length bs) = Ok i /\
    (i <= length bs)%nat /\ (forall b, In b (skipn i bs) -> b = 0) /\
    (i <> 0%nat -> exists c, nth_error bs (i - 1) = Some c /\ c <> 0).
Proof.
  match goal with |- exists i, while_ ?fu ?c ?bd ?s0 = _ /\ _ =>
    destruct (while_inv (fun i => (i <= length bs)%nat /\ forall b, In b (skipn i bs) -> b = 0) (fun i => i) c bd fu s0) as (i & E & (L & I) & C) end.
  - split; [lia|]. rewrite skipn_all. easy.
  - lia.
  - intros t (L & I) C. apply andb_true_iff in C as (C1 & C2). apply negb_true_iff in C1. apply Nat.eqb_neq in C1.
    rewrite (idx_ok bs _ 0) by lia. cbn [bind]. unfold usub. destruct (Nat.leb_spec 1 t); [|lia].
    eexists. split; [reflexivity|]. split; [|lia]. split; [lia|].
    rewrite (nth_error_nth' bs 0) in C2 by lia. apply Z.eqb_eq in C2.
    intros b Hb. replace (skipn (t - 1) bs) with (nth (t - 1) bs 0 :: skipn t bs) in Hb.
    + destruct Hb as [<-|Hb]; auto.
    + replace t with (S (t - 1)) at 2 by lia. symmetry. apply skipn_nth_cons. lia.
  - exists i. split; [exact E|]. split; auto. split; auto. intros N.
    apply andb_false_iff in C as [C|C]; [apply negb_false_iff, Nat.eqb_eq in C; easy|].
    rewrite (nth_error_nth' bs 0) in * by lia. eexists. split; [reflexivity|]. now apply Z.eqb_neq.
Qed.

Lemma r_lt_256 : r < 256 ^ Z.of_nat 32.
Proof. reflexivity. Qed.

Lemma C45_proof (M : gmod Fr) (p : M) (b : Fr) : g1_mul p b = Ok (smul b p).
Proof.
  unfold g1_mul. assert (V : le_value (fr_to_scalar b) = val b).
  { unfold fr_to_scalar. apply le_value_bytes. pose proof (val_range b). pose proof r_lt_256. lia. }
  assert (R : forall c, In c (fr_to_scalar b) -> 0 <= c < 256) by apply le_bytes_range.
  assert (FB : fr_of (val b) = b) by apply to_Fr_val.
  set (bs := fr_to_scalar b) in *. clearbody bs.
  destruct (trim_loop bs) as (i & E & L & I & T). rewrite E. cbn [bind].
  assert (Sp : le_value bs = le_value (firstn i bs)).
  { rewrite <- (firstn_skipn i bs) at 1. rewrite le_value_app, (le_value_zero (skipn i bs)) by auto. ring. }
  destruct (Nat.eqb_spec i 0) as [->|N].
  - cbn [firstn le_value] in Sp. f_equal. rewrite <- FB, <- V, Sp. symmetry. exact (smul_0_l (M := M) p).
  - destruct (T N) as (c & Ec & Nc).
    assert (Hn : (0 < length bs)%nat) by lia. rewrite (idx_ok bs 0 0) by lia. cbn [bind].
    destruct ((i =? 1)%nat && (nth 0 bs 0 =? 1)) eqn:B1.
    + apply andb_true_iff in B1 as (-> %Nat.eqb_eq & B1 %Z.eqb_eq). destruct bs as [|c0 bs]; [cbn in Hn; lia|].
      cbn [nth] in B1. subst c0. cbn [firstn le_value] in Sp, V. f_equal. rewrite <- FB, <- V, Sp. symmetry.
      replace (1 + 256 * 0) with 1 by lia. exact (smul_1 _ M p).
    + clear B1. assert (Li : (i - 1 < length bs)%nat) by lia. unfold idx at 1. rewrite Ec. cbn [bind].
      unfold usub. destruct (Nat.leb_spec 7 (8 * i)); [|lia]. cbn [bind]. f_equal. unfold p1_mult.
      rewrite Z.mod_small; [now rewrite V, FB|].
      assert (Rc : 0 < c < 256) by (assert (0 <= c < 256) by (apply R; eapply nth_error_In; eauto); lia).
      rewrite log_2_byte_spec by lia. rewrite of_N_log2, Z2N.id by lia.
      assert (Rng := le_value_range bs R). split; [lia|]. rewrite Sp.
      replace i with (S (i - 1)) at 1 by lia. rewrite (firstn_snoc bs (i - 1) 0) by lia.
      rewrite (nth_error_nth bs _ 0 Ec). rewrite le_value_app. cbn [le_value].
      assert (Rf := le_value_range (firstn (i - 1) bs) ltac:(intros; apply R; eapply In_firstn; eauto)).
      rewrite firstn_length_le in * by lia.
      pose proof (Z.log2_spec c ltac:(lia)) as (_ & LU).
      replace (Z.of_nat (8 * i - 7) + Z.log2 c) with (8 * Z.of_nat (i - 1) + Z.succ (Z.log2 c)) by lia.
      rewrite Z.pow_add_r by (try lia; pose proof (Z.log2_nonneg c); lia).
      rewrite Z.pow_mul_r by lia. change (2 ^ 8) with 256.
      apply Z.lt_le_trans with (256 ^ Z.of_nat (i - 1) * (c + 1)); [lia|].
      apply Z.mul_le_mono_nonneg_l; [lia|]. lia.
Qed.

Lemma scalar_roundtrip (x : Fr) : fr_from_scalar (fr_to_scalar x) = x.
Proof.
  unfold fr_from_scalar, fr_to_scalar. rewrite le_value_bytes.
  - apply to_Fr_val.
  - pose proof (val_range x). pose proof r_lt_256. lia.
Qed.
End Mul.
