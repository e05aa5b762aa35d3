(** * Proof_Ark: the Arkworks backend's transforms and polynomial arithmetic *)
From Coq Require Import List Arith Lia Bool NArith Field Ring.
From Verif Require Import Base Fld Poly Loops Model_Utils Proof_Utils Model_FFT Model_Das Spec Proof_FFT Model_Poly Proof_Poly1 Proof_Poly2
  Proof_Mcl Proof_MclPoly Model_Zk Proof_Zk Model_Ark.
Import ListNotations.

Lemma log2_up_pow2 m : N.to_nat (N.log2_up (N.of_nat (2 ^ m))) = m.
Proof.
  rewrite Nat2N.inj_pow. change (N.of_nat 2) with 2%N. rewrite N.log2_up_pow2 by lia. lia.
Qed.
Lemma lib_log2_pow2_eq m : lib_log2_pow2 (2 ^ m) = m.
Proof.
  unfold lib_log2_pow2. rewrite Nat2N.inj_pow. change (N.of_nat 2) with 2%N. rewrite N.log2_pow2 by lia. lia.
Qed.
Lemma dom_log_pow2 m : (m <= 32)%nat -> dom_log (2 ^ m) = Ok m.
Proof. intros H. unfold dom_log. rewrite log2_up_pow2. destruct (Nat.ltb_spec 32 m); [lia|reflexivity]. Qed.

Lemma std_next_pow2_fits n : fits n ->
  exists k, std_next_pow2 n = Ok (2 ^ k)%nat /\ (n <= 2 ^ k)%nat /\ (k < 32)%nat /\ (k = 0 \/ 2 ^ (k - 1) < n)%nat.
Proof.
  intros F. destruct (Nat.eq_dec n 0) as [->|N0].
  - exists 0%nat. repeat split; auto. simpl; lia. lia.
  - assert (F' : (N.of_nat n <= 2 ^ 63)%N) by (unfold fits in F; etransitivity; [exact F|]; apply N.pow_le_mono_r; lia).
    rewrite std_next_pow2_eq by (auto; lia). destruct (next_pow2_spec n) as (k & E & L & M); [lia|auto|].
    exists k. repeat split; auto.
    + assert (k <= 31)%nat; [|lia]. apply M. unfold fits in F.
      assert (H : (N.of_nat n <= N.of_nat (2 ^ 31))%N) by (rewrite Nat2N.inj_pow; exact F). lia.
    + destruct k as [|k]; auto. right. cbn [Nat.sub]. rewrite Nat.sub_0_r. apply Nat.nle_gt. intros C. apply M in C. lia.
Qed.

Section P.
Context {K : fld}.
Add Field Kfark : (fld_field K).
Local Open Scope fld_scope.
Variable W : K.
Variable table : list K.
Hypothesis HT : table_ok table.
Hypothesis HT32 : length table = 32%nat.
Hypothesis HD : forall m, (m < 32)%nat -> dom_gen W m = nth m table 0.
Hypothesis HC : forall k m, (m <= k)%nat -> (k < 32)%nat -> nth k table 0 ^ (2 ^ (k - m)) = nth m table 0.
Hypothesis H2 : fnat 2 <> (0:K).

(** ** normal forms *)
Lemma dense_spec (p : list K) : (exists z, p = dense p ++ repeat 0 z) /\ (dense p = [] \/ last (dense p) 0 <> 0).
Proof.
  clear. induction p as [|c t [(z & E) N]]; [split; [exists 0%nat|]; auto|].
  cbn [dense]. destruct (dense t) as [|d t'] eqn:D.
  - destruct (feqb c 0) eqn:Z.
    + apply feqb_spec in Z. subst c. split; auto. exists (S z). cbn [repeat app] in *. now rewrite E.
    + split. { exists z. rewrite E. reflexivity. } right. now apply feqb_false.
  - split. { exists z. rewrite E. reflexivity. } right. destruct N as [|N]; [discriminate|]. exact N.
Qed.

Lemma dense_coef (p : list K) i : coef (dense p) i = coef p i.
Proof. clear. destruct (dense_spec p) as ((z & E) & _). rewrite E at 2. symmetry. apply coef_pad_r. Qed.

Lemma dense_length (p : list K) : (length (dense p) <= length p)%nat.
Proof. clear. destruct (dense_spec p) as ((z & E) & _). rewrite E at 2. rewrite app_length. lia. Qed.

Lemma lib_is_zero_spec (p : list K) : lib_is_zero p = true <-> forall i, coef p i = 0.
Proof.
  clear. unfold lib_is_zero. rewrite forallb_forall. split.
  - intros H i. destruct (Nat.lt_ge_cases i (length p)); [|now apply coef_over].
    apply feqb_spec, H. now apply nth_In.
  - intros H x Hx. apply feqb_spec. apply In_nth with (d := (0:K)) in Hx as (i & _ & <-). apply H.
Qed.

Lemma dense_nil (p : list K) : dense p = [] <-> forall i, coef p i = 0.
Proof.
  clear. split.
  - intros E i. rewrite <- dense_coef, E. apply coef_nil.
  - intros H. destruct (dense_spec p) as (_ & [|N]); auto. exfalso. apply N.
    assert (Nd : dense p <> []) by (intros E; rewrite E in N; apply N; reflexivity).
    rewrite <- coef_last by auto. rewrite dense_coef. apply H.
Qed.

Lemma lib_is_zero_dense (p : list K) : lib_is_zero (dense p) = true <-> forall i, coef p i = 0.
Proof. clear. rewrite lib_is_zero_spec. split; intros H i; [rewrite <- dense_coef|rewrite dense_coef]; apply H. Qed.

Definition iszero (p : list K) : Prop := forall i, coef p i = 0.
Lemma iszero_dec (p : list K) : {iszero p} + {exists i, coef p i <> 0}.
Proof.
  clear. destruct (lib_is_zero p) eqn:E; [left; exact (proj1 (lib_is_zero_spec p) E)|right].
  unfold lib_is_zero in E. apply not_true_iff_false in E. rewrite forallb_forall in E.
  destruct (forallb (fun c => feqb c 0) p) eqn:F; [rewrite forallb_forall in F; contradiction|]. clear E.
  induction p as [|c p IH]; [discriminate|]. cbn [forallb] in F. apply andb_false_iff in F as [F|F].
  - exists 0%nat. rewrite coef_cons_0. now apply feqb_false.
  - destruct (IH F) as (i & Hi). exists (S i). now rewrite coef_cons_S.
Qed.

(** ** settings *)
Lemma ark_settings_eq k : ark_settings_new W k = fft_settings_new table k.
Proof.
  clear H2 HC. unfold ark_settings_new, fft_settings_new. rewrite HT32. destruct (Nat.leb_spec 32 k); auto.
  rewrite dom_log_pow2 by lia. cbn [bind]. rewrite HD by auto. rewrite (idx_ok table k 0) by lia. cbn [bind]. reflexivity.
Qed.

Lemma ark_new_ok k : (k < 32)%nat -> exists s, ark_settings_new W k = Ok s /\ settings_ok s k (nth k table 0).
Proof. clear H2 HC. intros H. rewrite ark_settings_eq. apply fft_settings_new_ok; auto. lia. Qed.

Lemma ark_clone_ok s : ark_settings_clone W s = Ok s.
Proof.
  clear H2 HC. unfold ark_settings_clone. destruct (ark_new_ok 0) as (s0 & -> & _); [lia|]. cbn [unwrap bind]. now destruct s.
Qed.

Definition good (s : fft_settings K) (k : nat) : Prop := settings_ok s k (nth k table 0) /\ (k < 32)%nat.

Lemma ark_new_good k s : ark_settings_new W k = Ok s -> good s k.
Proof.
  clear H2 HC. intros E. destruct (Nat.lt_ge_cases k 32) as [L|L].
  - destruct (ark_new_ok k L) as (s' & E' & S). rewrite E in E'. injection E' as <-. now split.
  - unfold ark_settings_new in E. destruct (Nat.leb_spec 32 k); [discriminate|lia].
Qed.

(** ** transforms of scalars *)
Lemma resize_dense (data : list K) : lib_resize (length data) (dense data) = data.
Proof.
  clear. unfold lib_resize. destruct (dense_spec data) as ((z & E) & _).
  pose proof (f_equal (@length K) E) as L. rewrite app_length, repeat_length in L.
  rewrite firstn_all2 by apply dense_length. replace (length data - length (dense data))%nat with z by lia. symmetry. exact E.
Qed.
Lemma resize_same (data : list K) n : length data = n -> lib_resize n data = data.
Proof.
  clear. intros <-. unfold lib_resize. rewrite firstn_all, Nat.sub_diag. cbn [repeat]. apply app_nil_r.
Qed.

Lemma pad_dense (data : list K) :
  for_range 0 (length data - length (dense data)) (fun _ p => Ok (p ++ [0])) (dense data) = Ok data.
Proof.
  clear. destruct (dense_spec data) as ((z & E) & _). pose proof (f_equal (@length K) E) as L. rewrite app_length, repeat_length in L.
  destruct (for_range_inv (fun t p => p = dense data ++ repeat 0 t) (fun _ p => Ok (p ++ [0])) 0 (length data - length (dense data)) (dense data))
    as (p & Ep & Hp); [lia| |intros j t Hj ->|].
  - now rewrite app_nil_r.
  - eexists. split; [reflexivity|]. rewrite <- app_assoc. f_equal. symmetry. apply (repeat_cons j (0:K)).
  - rewrite Ep. f_equal. rewrite Hp. replace (length data - length (dense data))%nat with z by lia. symmetry. exact E.
Qed.

Theorem ark_fft_fr_eq s k (data : list K) inverse : good s k -> ark_fft_fr W s data inverse = fft_fr s data inverse.
Proof.
  clear H2. intros (S & Hk). destruct S as (Sw & S'). assert (S : settings_ok s k (nth k table 0)) by (split; auto).
  unfold ark_fft_fr. destruct (Nat.ltb_spec (max_width s) (length data)) as [L|L].
  { symmetry. apply (fft_fr_errors s k (nth k table 0)); auto. left. lia. }
  destruct (std_is_pow2 (length data)) eqn:P; cbn [negb].
  2:{ symmetry. apply (fft_fr_errors s k (nth k table 0)); auto. right. intros m E.
      assert (std_is_pow2 (length data) = true) by (apply std_is_pow2_spec; eauto). congruence. }
  apply std_is_pow2_spec in P as (m & Lm). rewrite Sw in *.
  assert (Hm : (m <= k)%nat) by (apply pow2_le_inv; lia).
  replace (if (length data <? 2 ^ k)%nat then length data else (2 ^ k)%nat) with (2 ^ m)%nat
    by (destruct (Nat.ltb_spec (length data) (2 ^ k)); lia).
  rewrite dom_log_pow2 by lia. cbn [bind]. destruct inverse.
  - rewrite usub_ok by apply dense_length. cbn [bind]. rewrite pad_dense. cbn [bind].
    rewrite (ifft_fr_spec s k (nth k table 0) m) by auto. f_equal. unfold lib_ifft. rewrite resize_same by auto.
    apply map_ext. intros i. do 2 f_equal. rewrite HD by lia. rewrite <- (HC k m) by auto.
    now rewrite (fpow_inv _ (2 ^ (k - m))).
  - rewrite (fft_fr_spec s k (nth k table 0) m) by auto. f_equal. unfold lib_fft. rewrite <- Lm, resize_dense.
    apply map_ext. intros i. f_equal. rewrite HD by lia. now rewrite (HC k m).
Qed.

(** ** transforms of points *)
Lemma ark_fft_g1_fast_eq {M : gmod K} fuel : forall (ret data : list M) stride roots rs, ret <> [] ->
  ark_fft_g1_fast_ fuel ret data stride roots rs = fft_g1_fast_ fuel ret data stride roots rs.
Proof.
  clear. induction fuel; intros ret data stride roots rs N; [reflexivity|]. cbn [ark_fft_g1_fast_ fft_g1_fast_].
  assert (L : (0 < length ret)%nat) by (destruct ret; [congruence|simpl; lia]).
  assert (D := Nat.div_mod (length ret) 2 ltac:(lia)). assert (U := Nat.mod_upper_bound (length ret) 2 ltac:(lia)).
  destruct (Nat.ltb_spec 0 (length ret / 2)) as [H|H].
  - rewrite IHfuel.
    2:{ intros E. apply (f_equal (@length M)) in E. rewrite firstn_length in E. cbn [length] in E. lia. }
    destruct (fft_g1_fast_ _ (firstn _ _) _ _ _ _); cbn [bind]; auto. destruct (slice_from _ _); cbn [bind]; auto.
    rewrite IHfuel; [reflexivity|].
    intros E. apply (f_equal (@length M)) in E. rewrite skipn_length in E. cbn [length] in E. lia.
  - assert (L1 : length ret = 1%nat) by lia. unfold for_range. rewrite L1. cbn [Nat.sub for_]. 
    destruct (idx data 0); cbn [bind]; auto. destruct (upd _ _ _); reflexivity.
Qed.

Lemma ark_inverse_ok (x : K) : x <> 0 -> ark_inverse x = Ok (finv x).
Proof. clear. intros H. unfold ark_inverse. apply feqb_false in H. now rewrite H. Qed.

Theorem ark_fft_g1_eq {M : gmod K} s (data : list M) inverse : data <> [] -> ark_fft_g1 s data inverse = fft_g1 s data inverse.
Proof.
  clear HT HT32 HD HC. intros N. unfold ark_fft_g1, fft_g1. destruct (_ <? _)%nat; auto. rewrite std_is_pow2_eq.
  destruct (Nat.eqb_spec (length data) 0) as [E0|E0]; [destruct data; [congruence|discriminate]|]. cbn [negb andb].
  destruct (is_pow2 (length data)) eqn:P; cbn [negb]; auto. apply is_pow2_spec in P as (m & P).
  assert (Nr : repeat (@g0 K M) (length data) <> []) by (destruct data; [congruence|discriminate]).
  unfold ark_fft_g1_fast, fft_g1_fast. destruct inverse.
  - rewrite ark_inverse_ok by (rewrite P; now apply fnat_pow2_neq_0). cbn [bind].
    rewrite ark_fft_g1_fast_eq by auto. destruct (fft_g1_fast_ _ _ _ _ _ _) as [o| | |] eqn:E; cbn [bind]; auto.
    apply fft_g1_fast_len in E. rewrite repeat_length in E. rewrite slice_ok by lia. cbn [bind].
    rewrite firstn_all2 by lia. rewrite skipn_all2 by lia. now rewrite app_nil_r.
  - rewrite ark_fft_g1_fast_eq by auto. destruct (fft_g1_fast_ _ _ _ _ _ _); reflexivity.
Qed.

Lemma ark_fft_g1_empty {M : gmod K} s inverse : ark_fft_g1 s (@nil M) inverse = Err.
Proof. clear. unfold ark_fft_g1. destruct (_ <? _)%nat; reflexivity. Qed.

(** ** extension *)
Theorem ark_das_eq s (vals : list K) : ark_das_fft_extension s vals = das_fft_extension s vals.
Proof.
  clear HT HT32 HD HC. unfold ark_das_fft_extension, das_fft_extension. rewrite std_is_pow2_eq.
  destruct (Nat.eqb_spec (length vals) 0); auto. cbn [negb andb].
  destruct (is_pow2 (length vals)) eqn:P; cbn [negb]; auto. apply is_pow2_spec in P as (m & P).
  destruct (_ <? _)%nat; auto. unfold das_fft_extension_stride.
  destruct (das_stride_ _ _ vals _) as [o| | |] eqn:E; cbn [bind]; auto. apply das_stride_len in E.
  rewrite ark_inverse_ok by (rewrite E, P; now apply fnat_pow2_neq_0). reflexivity.
Qed.

(** ** padding and flipping *)
Lemma ark_pad_spec (p : list K) n : ark_pad p n = Ok (p ++ repeat 0 (n - length p)).
Proof.
  clear. unfold ark_pad. destruct (Nat.leb_spec n (length p)).
  - replace (n - length p)%nat with 0%nat by lia. cbn [repeat]. now rewrite app_nil_r.
  - destruct (for_range_inv (fun t l => l = p ++ repeat 0 (t - length p)) (fun _ l => Ok (l ++ [0])) (length p) n p) as (l & E & ->).
    + lia.
    + rewrite Nat.sub_diag. cbn [repeat]. now rewrite app_nil_r.
    + intros j l Hj ->. eexists. split; [reflexivity|]. rewrite <- app_assoc. f_equal.
      replace (S j - length p)%nat with (S (j - length p)) by lia. symmetry. apply (repeat_cons (j - length p) (0:K)).
    + exact E.
Qed.

Lemma pad_map (p : list K) n : (length p <= n)%nat -> p ++ repeat 0 (n - length p) = map (coef p) (seq 0 n).
Proof.
  clear. intros L. apply (coef_ext (K := K)).
  - rewrite app_length, repeat_length, length_map_seq. lia.
  - intros i Hi. rewrite app_length, repeat_length in Hi. rewrite coef_pad_r, coef_map_seq.
    destruct (Nat.ltb_spec i n); auto. lia.
Qed.

Lemma ark_flip_spec (p : list K) : ark_flip p = Ok (rev p).
Proof.
  clear. unfold ark_flip. rewrite (for_range_ext _ (fun i l => Ok (l ++ [nth (length p - 1 - i) p 0]))).
  2:{ intros i l Hi. rewrite usub_ok by lia. cbn [bind]. rewrite usub_ok by lia. cbn [bind].
      rewrite (idx_ok p _ 0) by lia. cbn [bind]. do 4 f_equal. lia. }
  rewrite (push_loop (fun i => nth (length p - 1 - i) p 0)). f_equal. apply (nth_ext' (0:K)).
  - now rewrite length_map_seq, rev_length.
  - rewrite length_map_seq. intros i Hi. rewrite nth_map_seq, rev_nth by auto. f_equal. lia.
Qed.

Lemma nonempty_len (l : list K) : l <> [] -> (0 < length l)%nat.
Proof. clear. destruct l; [congruence|simpl; lia]. Qed.

(** ** multiplication *)
Theorem ark_mul_direct_spec (a b : list K) n :
  (exists i, coef a i <> 0) -> (exists i, coef b i <> 0) -> ark_mul_direct a b n = Ok (map (convol a b) (seq 0 n)).
Proof.
  clear. intros (ia & Ha) (ib & Hb). unfold ark_mul_direct.
  destruct (lib_is_zero (dense a)) eqn:Za.
  { rewrite lib_is_zero_dense in Za. now rewrite Za in Ha. }
  destruct (lib_is_zero (dense b)) eqn:Zb.
  { rewrite lib_is_zero_dense in Zb. now rewrite Zb in Hb. }
  cbn [orb].
  assert (Na : dense a <> []) by (intros E; apply Ha; rewrite <- dense_coef, E; apply coef_nil).
  assert (Nb : dense b <> []) by (intros E; apply Hb; rewrite <- dense_coef, E; apply coef_nil).
  assert (L : (0 < length (dense a))%nat) by (destruct (dense a); [congruence|simpl; lia]).
  assert (M := mul_direct_spec (dense a) (dense b) n Na Nb). unfold mul_direct in M.
  assert (Lb : (0 < length (dense b))%nat) by (destruct (dense b); [congruence|simpl; lia]).
  destruct (Nat.eqb_spec (length (dense a)) 0); [lia|]. destruct (Nat.eqb_spec (length (dense b)) 0); [lia|]. cbn [orb] in M.
  replace (length (dense a) - 1 + 1)%nat with (length (dense a)) in M by lia. rewrite M. cbn [bind].
  rewrite ark_pad_spec. f_equal. set (c := map (convol (dense a) (dense b)) (seq 0 n)).
  assert (Lc : length c = n) by apply length_map_seq.
  rewrite pad_map by (rewrite <- Lc; apply dense_length). apply map_ext_seq. intros i Hi. rewrite dense_coef.
  unfold c. rewrite coef_map_seq. destruct (Nat.ltb_spec i n); [|lia].
  apply convol_ext; intros; apply dense_coef.
Qed.

Theorem ark_mul_direct_zero (a b : list K) n : iszero a \/ iszero b -> ark_mul_direct a b n = Ok [].
Proof.
  clear. intros [H|H]; unfold ark_mul_direct; apply lib_is_zero_dense in H; rewrite H; [reflexivity|now rewrite orb_true_r].
Qed.

Theorem ark_mul_fft_spec (a b : list K) fs n : a <> [] -> b <> [] -> (0 < n)%nat ->
  match fs with
  | None => fits (Nat.min (length a) n + Nat.min (length b) n - 1)
  | Some s => exists k, good s k /\ (Nat.min (length a) n + Nat.min (length b) n - 1 <= 2 ^ k)%nat
  end ->
  ark_mul_fft W a b fs n = Ok (map (convol a b) (seq 0 n)).
Proof.
  clear H2. intros Ha Hb Hn HF. unfold ark_mul_fft.
  set (la := Nat.min (length a) n) in *. set (lb := Nat.min (length b) n) in *.
  assert (La : (0 < la)%nat) by (apply nonempty_len in Ha; unfold la; lia).
  assert (Lb : (0 < lb)%nat) by (apply nonempty_len in Hb; unfold lb; lia).
  rewrite usub_ok by lia. cbn [bind].
  assert (FF : fits (la + lb - 1)).
  { destruct fs as [s|]; auto. destruct HF as (k & (_ & Hk) & L). unfold fits.
    assert (N.of_nat (la + lb - 1) <= N.of_nat (2 ^ k))%N by lia. etransitivity; [exact H|].
    rewrite Nat2N.inj_pow. apply N.pow_le_mono_r; lia. }
  destruct (std_next_pow2_fits _ FF) as (m & E & Lm & Hm & Mm). rewrite E. cbn [bind].
  assert (FS : exists s k, match fs with Some x => ark_settings_clone W x | None => unwrap (ark_settings_new W (lib_log2_pow2 (2 ^ m))) end = Ok s
                 /\ good s k /\ (m <= k)%nat).
  { destruct fs as [s|].
    - destruct HF as (k & G & L). exists s, k. rewrite ark_clone_ok. repeat split; auto; try apply G.
      destruct Mm as [->|Mm]; [lia|]. assert (m - 1 < k)%nat; [|lia]. apply (Nat.pow_lt_mono_r_iff 2); lia.
    - rewrite lib_log2_pow2_eq. destruct (ark_new_ok m Hm) as (s & -> & S). exists s, m. repeat split; auto; apply S. }
  destruct FS as (s & k & Es & G & Hmk). rewrite Es. cbn [bind].
  assert (Sw : max_width s = (2 ^ k)%nat) by apply G.
  destruct (Nat.ltb_spec (max_width s) (2 ^ m)) as [C|C].
  { rewrite Sw in C. apply Nat.pow_lt_mono_r_iff in C; lia. }
  rewrite !slice_ok by (unfold la, lb; lia). cbn [bind]. rewrite !Nat.sub_0_r. cbn [skipn].
  rewrite !ark_pad_spec. cbn [bind].
  assert (Fa : length (firstn la a) = la) by (rewrite firstn_length; unfold la; lia).
  assert (Fb : length (firstn lb b) = lb) by (rewrite firstn_length; unfold lb; lia).
  rewrite !pad_map by lia. rewrite !(ark_fft_fr_eq s k) by auto.
  destruct G as (S & Hk). set (w := nth k table 0) in *. set (v := w ^ (2 ^ (k - m))).
  rewrite (fft_fr_spec s k w m) by (auto; apply length_map_seq). cbn [unwrap bind].
  rewrite (fft_fr_spec s k w m) by (auto; apply length_map_seq). cbn [unwrap bind].
  rewrite (copy_loop (0:K) _ _ (fun i => peval (firstn la a) (v ^ i) * peval (firstn lb b) (v ^ i))).
  2:{ now rewrite length_map_seq. }
  2:{ intros i r Hi Hr. rewrite length_map_seq in Hr.
      rewrite !(idx_ok _ i 0) by (rewrite length_map_seq; auto). cbn [bind].
      rewrite !nth_map_seq by auto. rewrite upd_ok by lia. do 2 f_equal.
      fold v. f_equal; apply peval_ext; intros j; rewrite coef_map_seq;
        destruct (Nat.ltb_spec j (2 ^ m)); auto; symmetry; apply coef_over; lia. }
  cbn [bind]. rewrite (ark_fft_fr_eq s k) by (split; auto).
  match goal with |- context [fft_fr s ?d true] => destruct (ifft_fr_interpolates s k w m d) as (p & Ep & Lp & Hp) end.
  1: auto. 1: auto. 1: apply length_map_seq.
  rewrite Ep. cbn [unwrap bind]. fold v in Hp.
  assert (Hc : forall i, (i < n)%nat -> coef p i = convol a b i).
  { intros i Hi. transitivity (coef (pmul (firstn la a) (firstn lb b)) i).
    - apply (interp_unique (map (fpow v) (seq 0 (2 ^ m)))).
      + apply primitive_NoDup. unfold v. apply primitive_fold; auto. apply S.
      + rewrite length_map_seq. lia.
      + rewrite length_map_seq, pmul_length. lia.
      + intros x Hx. apply in_map_iff in Hx as (j & <- & Hj). apply in_seq in Hj.
        rewrite peval_pmul. rewrite Hp by lia. now rewrite nth_map_seq by lia.
    - rewrite coef_pmul. apply convol_ext; intros j Hj; rewrite coef_firstn.
      + destruct (Nat.ltb_spec j la); auto. symmetry. apply coef_over. unfold la in *. lia.
      + destruct (Nat.ltb_spec j lb); auto. symmetry. apply coef_over. unfold lb in *. lia. }
  set (dl := Nat.min n (2 ^ m)).
  rewrite (map_loop (0:K) _ _ (fun i _ => coef p i)).
  2:{ rewrite repeat_length. unfold dl. lia. }
  2:{ intros i r Hi Hr. rewrite (idx_ok p i 0) by (unfold dl in *; lia). cbn [bind]. rewrite upd_ok; auto.
      rewrite Hr, repeat_length. unfold dl in *. lia. }
  cbn [bind]. rewrite repeat_length.
  match goal with |- for_range dl n _ ?o = _ => set (out := o) end.
  assert (Lo : length out = n) by apply length_map_seq.
  assert (Co : forall i, (i < n)%nat -> nth i out 0 = coef p i).
  { intros i Hi. unfold out. rewrite nth_map_seq by auto. destruct (Nat.ltb_spec i dl); auto.
    rewrite nth_repeat_same. symmetry. apply coef_over. unfold dl in *. lia. }
  destruct (for_range_inv (fun t l => length l = n /\ forall i, (i < n)%nat -> nth i l 0 = coef p i)
     (fun i out => upd out i 0) dl n out) as (l & El & Ll & Hl).
  - unfold dl. lia.
  - auto.
  - intros j t Hj (Lt & Ht). rewrite upd_ok by lia. eexists. split; [reflexivity|]. split; [now rewrite set_length|].
    intros i Hi. rewrite nth_set by lia. destruct (Nat.eqb_spec i j); auto. symmetry. apply coef_over. unfold dl in *. lia.
  - rewrite El. f_equal. apply (nth_ext' (0:K)); [now rewrite length_map_seq|]. intros i Hi. rewrite Ll in Hi.
    rewrite Hl, nth_map_seq by auto. now apply Hc.
Qed.

(** too many coefficients for the given settings, or for any settings *)
Theorem ark_mul_fft_limits (a b : list K) n : a <> [] -> b <> [] -> (0 < n)%nat ->
  (N.of_nat (length a + length b) <= 2 ^ 63)%N ->
  (forall s k, good s k -> (2 ^ k < Nat.min (length a) n + Nat.min (length b) n - 1)%nat -> ark_mul_fft W a b (Some s) n = Err) /\
  (~ fits (Nat.min (length a) n + Nat.min (length b) n - 1) -> ark_mul_fft W a b None n = Panic).
Proof.
  clear H2. intros Ha Hb Hn B. unfold ark_mul_fft.
  set (la := Nat.min (length a) n) in *. set (lb := Nat.min (length b) n) in *.
  assert (La : (0 < la <= length a)%nat) by (apply nonempty_len in Ha; unfold la; lia).
  assert (Lb : (0 < lb <= length b)%nat) by (apply nonempty_len in Hb; unfold lb; lia).
  rewrite usub_ok by lia. cbn [bind].
  destruct (next_pow2_spec (la + lb - 1)) as (m & E & Lm & Mm); [lia|lia|].
  rewrite std_next_pow2_eq by lia. rewrite E. cbn [bind]. split.
  - intros s k G C. rewrite ark_clone_ok. cbn [bind]. destruct G as ((Sw & _) & _).
    destruct (Nat.ltb_spec (max_width s) (2 ^ m)); auto. rewrite Sw in *. lia.
  - intros NF. rewrite lib_log2_pow2_eq. unfold ark_settings_new.
    destruct (Nat.leb_spec 32 m); [reflexivity|]. exfalso. apply NF. unfold fits.
    assert (N.of_nat (la + lb - 1) <= N.of_nat (2 ^ m))%N by lia. etransitivity; [exact H0|].
    rewrite Nat2N.inj_pow. apply N.pow_le_mono_r; lia.
Qed.

Lemma nonzero_nonempty (a : list K) : (exists i, coef a i <> 0) -> a <> [].
Proof. clear. intros (i & H) ->. apply H, coef_nil. Qed.

Theorem ark_poly_mul_spec (a b : list K) fs n : (exists i, coef a i <> 0) -> (exists i, coef b i <> 0) ->
  match fs with
  | None => fits (Nat.min (length a) n + Nat.min (length b) n - 1)
  | Some s => exists k, good s k /\ (Nat.min (length a) n + Nat.min (length b) n - 1 <= 2 ^ k)%nat
  end ->
  ark_poly_mul W a b fs n = Ok (map (convol a b) (seq 0 n)).
Proof.
  clear H2. intros Ha Hb HF. unfold ark_poly_mul. destruct (_ || _ || _) eqn:C.
  - now apply ark_mul_direct_spec.
  - apply orb_false_iff in C as [_ C]. apply Nat.ltb_ge in C. apply ark_mul_fft_spec; auto using nonzero_nonempty. lia.
Qed.

(** ** inverse *)
Lemma ark_inverse_round_spec s k p n t st :
  (0 < n)%nat -> coef p 0 <> 0 -> good s k -> (2 * n - 1 <= 2 ^ k)%nat ->
  inv_state p n (S t) st ->
  exists st', ark_inverse_round W s p n (n - 1) st = Ok st' /\ inv_state p n t st'.
Proof.
  clear H2. intros Hn Hp G Hk. destruct st as [[d mask] ret]. intros (Em & Ed & Lr & Hz & Hc).
  unfold ark_inverse_round. subst mask. cbn [mask_of].
  set (d' := (2 * d + (if N.eqb (N.land (N.of_nat (n - 1)) (2 ^ N.of_nat t)) 0 then 0 else 1))%nat).
  assert (Ed' : d' = ((n - 1) / 2 ^ t)%nat) by (unfold d'; rewrite Ed; apply mask_step).
  assert (Dle : (d' <= 2 * d + 1)%nat) by (unfold d'; destruct (N.eqb _ _); lia).
  assert (Dn : (d' <= n - 1)%nat).
  { rewrite Ed'. apply Nat.div_le_upper_bound; [apply Nat.pow_nonzero; lia|].
    assert (P := pow2_pos t). nia. }
  assert (Lp : (0 < length p)%nat) by (destruct p; [now rewrite coef_nil in Hp|simpl; lia]).
  assert (NZ1 : exists i, coef p i <> 0) by eauto.
  assert (NZ2 : exists i, coef ret i <> 0).
  { exists 0%nat. intros E. assert (C0 := Hc 0%nat ltac:(lia)). unfold convol, delta in C0. cbn [sum Nat.eqb Nat.sub] in C0. rewrite E in C0.
    apply (f1_neq_0 (K := K)). rewrite <- C0. ring. }
  rewrite usub_ok by lia. cbn [bind]. rewrite Lr.
  replace (Nat.min (d' + 1) (length p + n - 1)) with (d' + 1)%nat by lia.
  rewrite ark_poly_mul_spec; auto.
  2:{ exists k. split; auto. lia. }
  cbn [unwrap bind].
  rewrite (map_loop_all (0:K) (d' + 1) _ (fun _ x => - x)); auto.
  2:{ now rewrite length_map_seq. }
  2:{ intros i r Hi Hr. rewrite length_map_seq in Hr. rewrite (idx_ok r i 0) by lia. cbn [bind].
      now rewrite upd_ok by lia. }
  cbn [bind].
  set (t1 := map (fun i => - nth i (map (convol p ret) (seq 0 (d' + 1))) 0) (seq 0 (d' + 1))).
  assert (Lt1 : length t1 = (d' + 1)%nat) by apply length_map_seq.
  rewrite (idx_ok t1 0 0) by lia. cbn [bind]. rewrite upd_ok by lia. cbn [bind].
  set (t0 := set t1 0 (nth 0 t1 0 + fnat 2)).
  assert (Lt0 : length t0 = (d' + 1)%nat) by (unfold t0; now rewrite set_length).
  assert (C0 : forall k, (k <= d')%nat -> coef t0 k = delta k + delta k - convol p ret k).
  { intros j Hj. unfold coef, t0. rewrite nth_set by lia.
    assert (T : forall j, (j <= d')%nat -> nth j t1 0 = - convol p ret j).
    { intros j0 Hj0. unfold t1. rewrite nth_map_seq by lia. now rewrite nth_map_seq by lia. }
    unfold delta. destruct (Nat.eqb_spec j 0) as [->|N].
    - rewrite T by lia. rewrite fnat_2. ring.
    - rewrite T by lia. ring. }
  assert (NZ3 : exists i, coef t0 i <> 0).
  { exists 0%nat. rewrite C0, Hc by lia. unfold delta. cbn [Nat.eqb]. intros E. apply (f1_neq_0 (K := K)). rewrite <- E. ring. }
  rewrite ark_poly_mul_spec; auto.
  2:{ exists k. split; auto. lia. }
  cbn [unwrap bind]. rewrite length_map_seq.
  destruct (Nat.ltb_spec n (d' + 1)); [lia|]. cbn [bind]. rewrite length_map_seq.
  rewrite (map_loop (0:K) _ _ (fun i _ => convol ret t0 i)).
  2:{ lia. }
  2:{ intros i r Hi Hr. rewrite (idx_ok _ i 0) by (rewrite length_map_seq; auto). cbn [bind].
      rewrite nth_map_seq by auto. now rewrite upd_ok by lia. }
  cbn [bind]. eexists. split; [reflexivity|].
  rewrite Lr. set (ret' := map _ (seq 0 n)).
  assert (Cr : forall k, coef ret' k = if (k <=? d')%nat then convol ret t0 k else 0).
  { intros j. unfold ret'. rewrite coef_map_seq.
    destruct (Nat.ltb_spec j n), (Nat.leb_spec j d'), (Nat.ltb_spec j (d' + 1)); auto; try lia.
    apply Hz. subst d. assert (Q : ((n - 1) / 2 ^ S t <= (n - 1) / 2 ^ t)%nat).
    { apply Nat.div_le_compat_l. split; [apply pow2_pos|apply Nat.pow_le_mono_r; lia]. }
    lia. }
  split; [|split; [|split; [|split]]].
  - rewrite N.shiftr_div_pow2. change (2 ^ 1)%N with 2%N. destruct t; cbn [mask_of].
    + reflexivity.
    + rewrite Nat2N.inj_succ, N.pow_succ_r', N.mul_comm. apply N.div_mul. lia.
  - exact Ed'.
  - apply length_map_seq.
  - intros j Hj. rewrite Cr. destruct (Nat.leb_spec j d'); [lia|auto].
  - apply (newton_step p ret t0 ret' d d'); auto.
    intros j Hj. rewrite Cr. destruct (Nat.leb_spec j d'); [auto|lia].
Qed.

Lemma ark_inverse_loop_spec s k p n : forall t fuel st,
  (0 < n)%nat -> coef p 0 <> 0 -> good s k -> (2 * n - 1 <= 2 ^ k)%nat ->
  (t < fuel)%nat -> inv_state p n t st ->
  exists st', while_ fuel (fun st : nat * N * list K => negb (N.eqb (snd (fst st)) 0))
                     (ark_inverse_round W s p n (n - 1)) st = Ok st' /\ inv_state p n 0 st'.
Proof.
  induction t as [|t IH]; intros fuel st Hn Hp F1 F2 Hf I; (destruct fuel as [|fuel]; [lia|]).
  - exists st. split; auto. cbn [while_]. destruct st as [[d m] r]. destruct I as (-> & _). reflexivity.
  - cbn [while_]. assert (C : negb (N.eqb (snd (fst st)) 0) = true).
    { destruct st as [[d m] r]. destruct I as (-> & _). cbn [fst snd mask_of].
      assert (2 ^ N.of_nat t <> 0)%N by (apply N.pow_nonzero; lia).
      apply N.eqb_neq in H. now rewrite H. }
    rewrite C. destruct (ark_inverse_round_spec s k p n t st) as (st1 & E1 & I1); auto.
    rewrite E1. cbn [bind]. apply IH; auto. lia.
Qed.

Theorem ark_poly_inverse_spec p n :
  (0 < n)%nat -> coef p 0 <> 0 -> length p = 1%nat \/ fits (2 * n - 1) ->
  exists c, ark_poly_inverse W p n = Ok c /\ length c = n /\
    forall k, (k < n)%nat -> convol p c k = delta k.
Proof.
  clear H2. intros Hn Hc F. unfold ark_poly_inverse.
  assert (Lp : (0 < length p)%nat) by (destruct p; [now rewrite coef_nil in Hc|simpl; lia]).
  destruct (Nat.eqb_spec (length p) 0); [lia|].
  rewrite (idx_ok p 0 0) by auto. cbn [bind]. fold (coef p 0).
  destruct (feqb (coef p 0) 0) eqn:Z; [apply feqb_spec in Z; contradiction|].
  rewrite ark_inverse_ok by auto. cbn [bind].
  rewrite upd_ok by (rewrite repeat_length; auto).
  set (r0 := set (repeat 0 n) 0 (finv (coef p 0))).
  assert (Lr0 : length r0 = n) by (unfold r0; now rewrite set_length, repeat_length).
  assert (Cr0 : forall k, coef r0 k = if (k =? 0)%nat then finv (coef p 0) else 0).
  { intros k. unfold r0, coef. rewrite nth_set by (rewrite repeat_length; auto).
    destruct (k =? 0)%nat; auto. apply nth_repeat_same. }
  destruct (Nat.eqb_spec (length p) 1) as [L1|L1].
  - cbn [bind].
    destruct (for_range_inv (fun t l => length l = n /\ forall i, coef l i = coef r0 i)
     (fun i o => upd o i 0) 1 n r0) as (l & El & Ll & Hl); [lia|auto| |].
    { intros j t Hj (Lt & Ht). rewrite upd_ok by lia. eexists. split; [reflexivity|]. split; [now rewrite set_length|].
      intros i. unfold coef. rewrite nth_set by lia. destruct (Nat.eqb_spec i j) as [->|]; [|apply Ht].
      fold (coef r0 j). rewrite Cr0. destruct (Nat.eqb_spec j 0); [lia|auto]. }
    exists l. split; [exact El|]. split; auto. intros k Hk. unfold convol.
    rewrite (sum_single (S k) 0).
    + rewrite Nat.sub_0_r, Hl, Cr0. unfold delta. destruct (Nat.eqb_spec k 0); [field; auto|ring].
    + lia.
    + intros i Hi Ni. rewrite (coef_over p) by lia. ring.
  - destruct F as [F|F]; [lia|]. rewrite !usub_ok by lia. cbn [bind].
    destruct (std_next_pow2_fits _ F) as (k & E & L & Hk & _). rewrite E. cbn [bind]. rewrite lib_log2_pow2_eq.
    destruct (ark_new_ok k Hk) as (s & -> & S). cbn [unwrap bind].
    set (t := N.to_nat (N.log2_up (N.of_nat (n - 1)))).
    assert (Ht : (t < 64)%nat /\ (n - 1 < 2 ^ Datatypes.S t)%nat).
    { unfold t. destruct (Nat.le_gt_cases n 2) as [N2|N2].
      - rewrite N.log2_up_eqn0 by lia. change (N.to_nat 0) with 0%nat. simpl. lia.
      - assert (Sp := N.log2_up_spec (N.of_nat (n - 1)) ltac:(lia)). split.
        + assert (N.log2_up (N.of_nat (n - 1)) <= 32)%N; [|lia]. apply N.log2_up_le_pow2; [lia|].
          unfold fits in F. etransitivity; [|etransitivity; [exact F|apply N.pow_le_mono_r; lia]]. lia.
        + assert (EN : N.of_nat (2 ^ N.to_nat (N.log2_up (N.of_nat (n - 1)))) = (2 ^ N.log2_up (N.of_nat (n - 1)))%N).
          { rewrite Nat2N.inj_pow. f_equal. lia. }
          rewrite Nat.pow_succ_r'. lia. }
    replace (N.log2_up (N.of_nat (n - 1))) with (N.of_nat t) by (unfold t; lia).
    destruct (ark_inverse_loop_spec s k p n (Datatypes.S t) 65 (0%nat, N.shiftl 1 (N.of_nat t), r0)) as (st & Est & I); auto.
    { split; auto. }
    { lia. }
    { split; [|split; [|split; [|split]]].
      - rewrite N.shiftl_1_l. reflexivity.
      - symmetry. apply Nat.div_small. apply Ht.
      - exact Lr0.
      - intros j Hj. rewrite Cr0. destruct (Nat.eqb_spec j 0); [lia|auto].
      - intros j Hj. assert (j = 0)%nat as -> by lia. unfold convol. cbn [sum]. rewrite Cr0. unfold delta. cbn. field. auto. }
    rewrite Est. cbn [bind]. destruct st as [[d m] r]. destruct I as (_ & Ed & Lr & _ & Hcv).
    rewrite Nat.pow_0_r, Nat.div_1_r in Ed.
    destruct (Nat.eqb_spec (d + 1) n); [|lia].
    exists r. split; auto. split; auto. intros j Hj. apply Hcv. lia.
Qed.

Theorem ark_poly_inverse_errors (p : list K) n : p = [] \/ coef p 0 = 0 -> ark_poly_inverse W p n = Err.
Proof.
  clear. intros H. unfold ark_poly_inverse. destruct (Nat.eqb_spec (length p) 0) as [|Np]; auto.
  destruct H as [H|H]; [subst; simpl in Np; lia|].
  rewrite (idx_ok p 0 0) by lia. cbn [bind]. fold (coef p 0). rewrite H, feqb_refl. reflexivity.
Qed.

Theorem ark_poly_inverse_panics (p : list K) n : coef p 0 <> 0 ->
  (n = 0%nat \/ ((2 <= length p)%nat /\ ~ fits (2 * n - 1) /\ (N.of_nat (2 * n - 1) <= 2 ^ 63)%N)) ->
  ark_poly_inverse W p n = Panic.
Proof.
  clear H2 HC. intros Hc H. unfold ark_poly_inverse.
  assert (Lp : (0 < length p)%nat) by (destruct p; [now rewrite coef_nil in Hc|simpl; lia]).
  destruct (Nat.eqb_spec (length p) 0); [lia|].
  rewrite (idx_ok p 0 0) by auto. cbn [bind]. fold (coef p 0).
  destruct (feqb (coef p 0) 0) eqn:Z; [apply feqb_spec in Z; contradiction|].
  rewrite ark_inverse_ok by auto. cbn [bind]. destruct H as [->|(L2 & NF & B)].
  - destruct (_ =? _)%nat; reflexivity.
  - destruct (Nat.eqb_spec (length p) 1); [lia|].
    assert (n <> 0)%nat by (intros ->; apply NF; unfold fits; simpl; lia).
    rewrite !usub_ok by lia. cbn [bind].
    destruct (next_pow2_spec (2 * n - 1)) as (m & E & Lm & Mm); [lia|lia|].
    rewrite std_next_pow2_eq by lia. rewrite E. cbn [bind]. rewrite lib_log2_pow2_eq. unfold ark_settings_new.
    destruct (Nat.leb_spec 32 m); [reflexivity|]. exfalso. apply NF. unfold fits.
    assert (N.of_nat (2 * n - 1) <= N.of_nat (2 ^ m))%N by lia. etransitivity; [exact H1|].
    rewrite Nat2N.inj_pow. apply N.pow_le_mono_r; lia.
Qed.

(** ** division *)
Lemma lib_fdiv_ok (a b : K) : b <> 0 -> lib_fdiv a b = Ok (a * finv b).
Proof. clear. intros H. unfold lib_fdiv. now rewrite ark_inverse_ok. Qed.

Theorem ark_long_div_spec (a b : list K) :
  (iszero a -> ark_long_div a b = Ok []) /\
  ((exists i, coef a i <> 0) -> iszero b -> ark_long_div a b = Panic) /\
  ((exists i, coef a i <> 0) -> (exists i, coef b i <> 0) ->
     exists q, ark_long_div a b = Ok q /\ euclid (dense a) (dense b) q).
Proof.
  clear. unfold ark_long_div, lib_div. split; [|split].
  - intros H. apply lib_is_zero_dense in H. now rewrite H.
  - intros (i & Hi) H. destruct (lib_is_zero (dense a)) eqn:Z.
    { rewrite lib_is_zero_dense in Z. now rewrite Z in Hi. }
    apply lib_is_zero_dense in H. now rewrite H.
  - intros (i & Hi) (j & Hj). destruct (lib_is_zero (dense a)) eqn:Z.
    { rewrite lib_is_zero_dense in Z. now rewrite Z in Hi. }
    destruct (lib_is_zero (dense b)) eqn:Zb.
    { rewrite lib_is_zero_dense in Zb. now rewrite Zb in Hj. }
    assert (Nb : dense b <> []) by (intros E; apply Hj; rewrite <- dense_coef, E; apply coef_nil).
    destruct (Nat.ltb_spec (length (dense a)) (length (dense b))) as [L|L].
    + exists []. split; auto. split; [simpl; lia|]. exists (dense a). split; auto. intros k. rewrite convol_nil_l. ring.
    + destruct (long_div_spec (dense a) (dense b)) as (q & E & Q); auto.
      { rewrite coef_last by auto. destruct (dense_spec b) as (_ & [|N]); [contradiction|exact N]. }
      exists q. rewrite E. split; auto.
Qed.

Theorem ark_fast_div_errors (a b : list K) : b = [] \/ coef b (length b - 1) = 0 -> ark_fast_div W a b = Err.
Proof.
  clear. intros H. unfold ark_fast_div. destruct (Nat.eqb_spec (length b) 0); auto.
  destruct H as [->|H]; [simpl in *; lia|].
  rewrite (idx_ok b _ 0) by lia. cbn [bind]. fold (coef b (length b - 1)). rewrite H, feqb_refl. reflexivity.
Qed.

Theorem ark_fast_div_spec (a b : list K) : b <> [] -> coef b (length b - 1) <> 0 ->
  (a = [] -> ark_fast_div W a b = Panic) /\
  (a <> [] -> (length a < length b)%nat -> ark_fast_div W a b = Ok []) /\
  (a <> [] -> (2 <= length b <= length a)%nat -> iszero a -> fits (2 * (length a - length b + 1) - 1) ->
     (length a - length b + 1 < 128)%nat -> ark_fast_div W a b = Panic) /\
  (a <> [] -> (length b <= length a)%nat -> fits (2 * (length a - length b + 1) - 1) ->
     length b = 1%nat \/ (exists i, coef a i <> 0) \/ (128 <= length a - length b + 1)%nat ->
     exists q, ark_fast_div W a b = Ok q /\ euclid a b q).
Proof.
  clear H2. intros Nb Hb. unfold ark_fast_div.
  assert (Lb : (0 < length b)%nat) by (destruct b; [congruence|simpl; lia]).
  destruct (Nat.eqb_spec (length b) 0) as [B0|B0]; [lia|].
  rewrite (idx_ok b _ 0) by lia. cbn [bind]. fold (coef b (length b - 1)).
  destruct (feqb (coef b (length b - 1)) 0) eqn:Z; [apply feqb_spec in Z; contradiction|].
  split; [intros ->; reflexivity|].
  assert (NA : a <> [] -> (0 < length a)%nat) by (destruct a; [congruence|simpl; lia]).
  split; [|split].
  - intros Ha L. apply NA in Ha. rewrite !usub_ok by lia. cbn [bind]. destruct (Nat.ltb_spec (length a - 1) (length b - 1)); [reflexivity|lia].
  - intros Ha L ZA F S. apply NA in Ha. rewrite !usub_ok by lia. cbn [bind].
    destruct (Nat.ltb_spec (length a - 1) (length b - 1)); [lia|]. destruct (Nat.eqb_spec (length b) 1); [lia|].
    rewrite !ark_flip_spec. cbn [unwrap bind].
    replace (length a - 1 - (length b - 1) + 1)%nat with (length a - length b + 1)%nat by lia.
    destruct (ark_poly_inverse_spec (rev b) (length a - length b + 1)) as (c & -> & Lc & Hc); auto; [lia| |].
    { rewrite coef_rev by lia. rewrite Nat.sub_0_r. exact Hb. }
    cbn [unwrap bind]. unfold ark_poly_mul.
    destruct (Nat.ltb_spec (length a - length b + 1) 128) as [_|C]; [|lia]. rewrite orb_true_r.
    rewrite ark_mul_direct_zero.
    2:{ left. intros i. destruct (Nat.lt_ge_cases i (length a)); [rewrite coef_rev by auto; apply ZA|].
        apply coef_over. now rewrite rev_length. }
    cbn [unwrap bind]. rewrite ark_flip_spec. cbn [unwrap bind rev].
    unfold slice. cbn [length]. destruct (Nat.leb_spec (length a - length b + 1) 0); [lia|]. now rewrite andb_false_r.
  - intros Ha L F NZ. apply NA in Ha. rewrite !usub_ok by lia. cbn [bind].
    destruct (Nat.ltb_spec (length a - 1) (length b - 1)); [lia|]. destruct (Nat.eqb_spec (length b) 1) as [B1|B1].
    + set (f := fun i => nth i a 0 * finv (nth 0 b 0)).
      assert (Bz : nth 0 b 0 <> 0) by (rewrite B1 in Hb; exact Hb).
      rewrite (for_range_ext _ (fun i l => Ok (l ++ [f i]))).
      2:{ intros i l Hi. rewrite (idx_ok a i 0), (idx_ok b 0 0) by lia. cbn [bind]. unfold ark_fr_div. now rewrite lib_fdiv_ok. }
      rewrite push_loop. eexists. split; [reflexivity|]. split; [rewrite length_map_seq; lia|].
      exists []. split; [simpl; lia|]. intros k. rewrite coef_nil. unfold convol. rewrite (sum_single (S k) k).
      * rewrite Nat.sub_diag, coef_map_seq. unfold f, coef. destruct (Nat.ltb_spec k (length a)).
        -- field. exact Bz.
        -- rewrite nth_overflow by auto. ring.
      * lia.
      * intros i Hi Ni. rewrite (coef_over b) by lia. ring.
    + rewrite !ark_flip_spec. cbn [unwrap bind].
      replace (length a - 1 - (length b - 1) + 1)%nat with (length a - length b + 1)%nat by lia.
      set (n := (length a - length b + 1)%nat) in *.
      destruct (ark_poly_inverse_spec (rev b) n) as (c & -> & Lc & Hc); auto; [unfold n; lia| |].
      { rewrite coef_rev by lia. rewrite Nat.sub_0_r. exact Hb. }
      cbn [unwrap bind].
      assert (EM : ark_poly_mul W (rev a) c None n = Ok (map (convol (rev a) c) (seq 0 n))).
      { assert (FM : fits (Nat.min (length (rev a)) n + Nat.min (length c) n - 1)).
        { unfold fits in *. rewrite rev_length, Lc. lia. }
        destruct (iszero_dec a) as [ZA|NZA].
        - destruct NZ as [NZ|[(i & NZ)|NZ]]; [lia|now rewrite ZA in NZ|].
          unfold ark_poly_mul. rewrite rev_length, Lc.
          destruct (Nat.ltb_spec (length a) 64); [unfold n in *; lia|]. destruct (Nat.ltb_spec n 64); [lia|].
          destruct (Nat.ltb_spec n 128); [lia|]. cbn [orb]. apply ark_mul_fft_spec; auto; try lia.
          + intros E. apply (f_equal (@length K)) in E. rewrite rev_length in E. simpl in E. lia.
          + intros ->. simpl in Lc. lia.
        - apply ark_poly_mul_spec; auto.
          + destruct NZA as (i & Hi). exists (length a - 1 - i)%nat.
            assert (i < length a)%nat by (apply Nat.nle_gt; intros C; apply Hi, coef_over; lia).
            rewrite coef_rev by lia. replace (length a - 1 - (length a - 1 - i))%nat with i by lia. exact Hi.
          + exists 0%nat. intros E. assert (C0 := Hc 0%nat ltac:(unfold n; lia)). unfold convol, delta in C0. cbn [sum Nat.eqb Nat.sub] in C0.
            rewrite E in C0. apply (f1_neq_0 (K := K)). rewrite <- C0. ring. }
      rewrite EM. cbn [unwrap bind]. rewrite ark_flip_spec. cbn [unwrap bind].
      rewrite slice_ok by (rewrite ?rev_length, ?length_map_seq; lia). rewrite Nat.sub_0_r. cbn [skipn].
      rewrite firstn_all2 by (rewrite rev_length, length_map_seq; lia).
      eexists. split; [reflexivity|].
      (* quotient coefficients *)
      set (qf := map (convol (rev a) c) (seq 0 n)).
      assert (Lqf : length qf = n) by apply length_map_seq.
      split; [rewrite rev_length, Lqf; unfold n; lia|].
      exists (firstn (length b - 1) (map (fun k => coef a k - convol (rev qf) b k) (seq 0 (length a)))).
      split; [rewrite firstn_length, length_map_seq; lia|].
      intros k. rewrite coef_firstn, coef_map_seq.
      destruct (Nat.ltb_spec k (length b - 1)) as [K1|K1].
      * destruct (Nat.ltb_spec k (length a)); [ring|lia].
      * destruct (Nat.le_gt_cases (length a) k) as [K2|K2].
        -- rewrite coef_over by auto. rewrite convol_over by (rewrite rev_length, Lqf; unfold n; lia). ring.
        -- assert (CR : convol (rev qf) b k = convol qf (rev b) (length a - 1 - k)).
           { rewrite <- (rev_involutive b) at 1.
             rewrite (convol_rev qf (rev b) k (length a - 1)); auto.
             - rewrite Lqf, rev_length. unfold n. lia.
             - lia. }
           rewrite CR. set (j := (length a - 1 - k)%nat).
           assert (Hj : (j < n)%nat) by (unfold j, n; lia).
           transitivity (convol (pmul (rev a) c) (rev b) j + 0).
           ++ rewrite convol_assoc.
              transitivity (coef (rev a) j).
              { rewrite coef_rev by (unfold j; lia). f_equal. unfold j. lia. }
              unfold convol at 1. rewrite (sum_single (S j) j).
              ** rewrite Nat.sub_diag, coef_pmul, convol_comm, Hc by (unfold n; lia). unfold delta. cbn [Nat.eqb]. ring.
              ** lia.
              ** intros i Hi Ni. rewrite coef_pmul, convol_comm, Hc by lia. unfold delta.
                 destruct (Nat.eqb_spec (j - i) 0); [lia|ring].
           ++ f_equal. apply convol_ext; auto. intros i Hi. rewrite coef_pmul. unfold qf. rewrite coef_map_seq.
              destruct (Nat.ltb_spec i n); [auto|lia].
Qed.

(** ** scaling *)
Lemma ark_apply_powers_spec (c : K) (p : list K) :
  ark_apply_powers c p = Ok (map (fun i => coef p i * c ^ i) (seq 0 (length p))).
Proof.
  clear. unfold ark_apply_powers. set (body := fun (i : nat) (st : list K * K) => _).
  destruct p as [|x p]; [reflexivity|]. set (l := x :: p).
  destruct (for_range_inv (fun t (st : list K * K) => length (fst st) = length l /\ snd st = c ^ (t - 1) /\
      forall i, (i < length l)%nat -> nth i (fst st) 0 = if (i <? t)%nat then coef l i * c ^ i else coef l i)
    body 1 (length l) (l, 1)) as ([q f] & E & L & F & H).
  - unfold l. simpl. lia.
  - cbn [fst snd]. split; auto. split; auto. intros i Hi. destruct (Nat.ltb_spec i 1); auto.
    assert (i = 0)%nat as -> by lia. cbn [fpow]. unfold coef. ring.
  - intros j [q f] Hj (L & F & H). cbn [fst snd] in *. unfold body. rewrite (idx_ok q j 0) by lia. cbn [bind].
    rewrite upd_ok by lia. cbn [bind]. eexists. split; [reflexivity|]. cbn [fst snd]. split; [now rewrite set_length|].
    assert (FE : f * c = c ^ j).
    { rewrite F. replace j with (S (j - 1)) at 2 by lia. cbn [fpow]. ring. }
    split. { rewrite FE. f_equal. lia. }
    intros i Hi. rewrite nth_set by lia. rewrite FE. destruct (Nat.eqb_spec i j) as [->|Ni].
    + rewrite H by lia. destruct (Nat.ltb_spec j j); [lia|]. destruct (Nat.ltb_spec j (S j)); [|lia]. reflexivity.
    + rewrite H by lia. destruct (Nat.ltb_spec i j), (Nat.ltb_spec i (S j)); auto; lia.
  - rewrite E. cbn [bind fst]. f_equal. cbn [fst] in *. apply (nth_ext' (0:K)); [now rewrite length_map_seq|].
    intros i Hi. rewrite L in Hi. rewrite H, nth_map_seq by auto. destruct (Nat.ltb_spec i (length l)); [auto|lia].
Qed.

Theorem ark_scale_spec (p : list K) : fnat 5 <> (0:K) ->
  ark_scale_poly p = Ok (map (fun i => coef p i * finv (fnat 5) ^ i) (seq 0 (length p))) /\
  ark_unscale_poly p = Ok (map (fun i => coef p i * fnat 5 ^ i) (seq 0 (length p))).
Proof.
  clear. intros H. unfold ark_scale_poly, ark_unscale_poly. rewrite ark_inverse_ok by auto. cbn [bind].
  now rewrite !ark_apply_powers_spec.
Qed.

Theorem ark_scale_roundtrip (p : list K) : fnat 5 <> (0:K) ->
  bind (ark_scale_poly p) ark_unscale_poly = Ok p /\ bind (ark_unscale_poly p) ark_scale_poly = Ok p.
Proof.
  clear. intros H. set (c := fnat 5) in *.
  assert (P : forall i, c ^ i * finv c ^ i = 1).
  { intros i. rewrite fpow_inv. apply finv_r. now apply fpow_neq_0. }
  assert (Q : forall d e : K, (forall i, d ^ i * e ^ i = 1) ->
     map (fun i => coef (map (fun i => coef p i * d ^ i) (seq 0 (length p))) i * e ^ i) (seq 0 (length p)) = p).
  { intros d e HQ. apply (nth_ext' (0:K)); [apply length_map_seq|]. rewrite length_map_seq. intros i Hi.
    rewrite nth_map_seq, coef_map_seq by auto. destruct (Nat.ltb_spec i (length p)); [|lia].
    transitivity (coef p i * (d ^ i * e ^ i)); [ring|]. rewrite HQ. unfold coef. ring. }
  split.
  - rewrite (proj1 (ark_scale_spec p H)). cbn [bind]. rewrite (proj2 (ark_scale_spec _ H)), length_map_seq. f_equal.
    apply Q. intros i. rewrite <- (P i). fold c. ring.
  - rewrite (proj2 (ark_scale_spec p H)). cbn [bind]. rewrite (proj1 (ark_scale_spec _ H)), length_map_seq. f_equal.
    apply Q. exact P.
Qed.

(** ** the two divisions together *)
Definition quotient (a b q : list K) : Prop :=
  exists r, (length r < length b)%nat /\ forall k, coef a k = convol q b k + coef r k.

Theorem ark_poly_div_spec (a b : list K) : b <> [] -> coef b (length b - 1) <> 0 ->
  (exists i, coef a i <> 0) -> fits (2 * (length a - length b + 1) - 1) ->
  exists q, ark_poly_div W a b = Ok q /\ (length q <= length a + 1 - length b)%nat /\ quotient a b q.
Proof.
  clear H2. intros Nb Hb Ha F. unfold ark_poly_div.
  assert (Lb := nonempty_len b Nb). assert (Na := nonzero_nonempty a Ha). assert (La := nonempty_len a Na).
  assert (Db : dense b = b).
  { destruct (dense_spec b) as (([|z] & E) & _); [cbn [repeat] in E; now rewrite app_nil_r in E|].
    exfalso. apply Hb. rewrite <- dense_coef. apply coef_over.
    pose proof (f_equal (@length K) E) as L. rewrite app_length, repeat_length in L. lia. }
  destruct (_ || _) eqn:C.
  - destruct (ark_long_div_spec a b) as (_ & _ & H). destruct H as (q & E & L & r & Lr & Hr); eauto.
    exists q. rewrite Db in *. assert (D := dense_length a). split; auto. split; [lia|].
    exists r. split; auto. intros k. now rewrite <- dense_coef.
  - apply orb_false_iff in C as [C1 C2]. apply Nat.leb_gt in C1. apply Nat.ltb_ge in C2.
    destruct (ark_fast_div_spec a b Nb Hb) as (_ & _ & _ & H). destruct H as (q & E & L & r & Lr & Hr); auto; [lia|].
    exists q. split; auto. split; [lia|]. exists r. auto.
Qed.

(** where the result depends on the lengths of the operands *)
Theorem ark_poly_div_edges (a b : list K) :
  (iszero a -> (length a <= length b)%nat \/ (length b < 128)%nat -> ark_poly_div W a b = Ok []) /\
  (iszero a -> (128 <= length b < length a)%nat -> coef b (length b - 1) <> 0 -> (length a - length b + 1 < 128)%nat ->
     ark_poly_div W a b = Panic) /\
  ((exists i, coef a i <> 0) -> iszero b -> (length a <= length b)%nat \/ (length b < 128)%nat -> ark_poly_div W a b = Panic) /\
  ((128 <= length b < length a)%nat -> coef b (length b - 1) = 0 -> ark_poly_div W a b = Err).
Proof.
  clear H2. unfold ark_poly_div.
  assert (LO : (length a <= length b)%nat \/ (length b < 128)%nat -> ((length a <=? length b) || (length b <? 128))%nat = true).
  { intros [H|H]; [apply Nat.leb_le in H; now rewrite H|apply Nat.ltb_lt in H; rewrite H; apply orb_true_r]. }
  assert (HI : (128 <= length b < length a)%nat -> ((length a <=? length b) || (length b <? 128))%nat = false).
  { intros H. apply orb_false_iff. split; [apply Nat.leb_gt|apply Nat.ltb_ge]; lia. }
  split; [|split; [|split]].
  - intros Za H. rewrite LO by auto. apply (ark_long_div_spec a b); auto.
  - intros Za H Hb S. rewrite HI by auto.
    assert (Nb : b <> []) by (intros ->; simpl in H; lia). assert (Na : a <> []) by (intros ->; simpl in H; lia).
    apply (ark_fast_div_spec a b Nb Hb); auto; [lia|]. unfold fits.
    assert (N.of_nat (2 * (length a - length b + 1) - 1) <= 256)%N by lia. etransitivity; [exact H0|]. now vm_compute.
  - intros Ha Zb H. rewrite LO by auto. now apply (ark_long_div_spec a b).
  - intros H Hb. rewrite HI by auto. apply ark_fast_div_errors; auto.
Qed.

(** ** the two slow transforms and the fast one with explicit buffers *)
Lemma ark_log2_pow2 m : ark_log2 (2 ^ m) = m.
Proof. apply log2_up_pow2. Qed.

Theorem ark_fft_fr_fast_spec m (ret data : list K) stride roots rs : (m < 32)%nat -> length data = (2 ^ m)%nat ->
  ((length ret <= 2 ^ m)%nat ->
    ark_fft_fr_fast W ret data stride roots rs = Ok (map (fun i => peval data (nth m table 0 ^ i)) (seq 0 (length ret)))) /\
  ((2 ^ m < length ret)%nat -> ark_fft_fr_fast W ret data stride roots rs = Panic).
Proof.
  clear H2. intros Hm L. unfold ark_fft_fr_fast, ark_from_scale. rewrite L, ark_log2_pow2.
  destruct (ark_new_ok m Hm) as (s & -> & S). cbn [unwrap bind].
  rewrite (ark_fft_fr_eq s m) by (split; auto). rewrite (fft_fr_spec s m (nth m table 0) m) by auto. cbn [unwrap bind].
  rewrite Nat.sub_diag. cbn [Nat.pow]. rewrite fpow_1. split; intros H.
  - rewrite slice_ok by (rewrite ?length_map_seq; lia). rewrite Nat.sub_0_r. cbn [skipn]. f_equal.
    apply (nth_ext' (0:K)); [rewrite firstn_length, !length_map_seq; lia|].
    rewrite firstn_length, length_map_seq. intros i Hi. rewrite nth_firstn' by lia. rewrite !nth_map_seq by lia. reflexivity.
  - unfold slice. rewrite length_map_seq. destruct (Nat.leb_spec (length ret) (2 ^ m)); [lia|]. now rewrite andb_false_r.
Qed.

Theorem ark_fft_g1_slow_spec {M : gmod K} (w : K) n (ret data : list M) stride roots rs :
  length ret = n -> length data = n -> (1 < n)%nat -> ((n - 1) * stride < n)%nat ->
  (forall i, (i < n)%nat -> idx roots (i * rs) = Ok (w ^ i)) -> w ^ n = 1 ->
  ark_fft_g1_slow ret data stride roots rs =
  Ok (map (fun i => gsum n (fun j => smul (w ^ (i * j)) (nth (j * stride) data g0))) (seq 0 n)).
Proof.
  clear. intros HLr HL Hn Hstr HR HW. unfold ark_fft_g1_slow. rewrite HL.
  set (val := fun i => gsum n (fun j => smul (w ^ (i * j)) (nth (j * stride) data g0))).
  match goal with |- for_range _ _ ?b _ = _ => set (body := b) end.
  destruct (for_range_inv (fun t (r : list M) => length r = n /\
     forall p, (p < t)%nat -> nth p r g0 = val p) body 0 n ret) as (r' & E & L & I).
  - lia.
  - split; auto. intros; lia.
  - intros i r Hi (Lr & Ir). unfold body.
    rewrite (idx_ok data 0 g0) by lia. cbn [bind].
    assert (R0 := HR 0%nat ltac:(lia)). change (0 * rs)%nat with 0%nat in R0. rewrite R0. cbn [bind].
    match goal with |- exists t', bind (for_range _ _ ?b _) _ = _ /\ _ => set (body2 := b) end.
    destruct (for_range_inv (fun t (st : M * list M) => length (snd st) = n /\
       fst st = gsum t (fun j => smul (w ^ (i * j)) (nth (j * stride) data g0)) /\
       ((1 < t)%nat -> nth i (snd st) g0 = fst st) /\
       forall p, p <> i -> nth p (snd st) g0 = nth p r g0) body2 1 n (smul (w ^ 0) (nth 0 data g0), r))
      as ([l1 r1] & E1 & L1 & I1 & I2 & I3).
    + lia.
    + cbn [fst snd]. split; auto. split; [|split; auto; lia].
      cbn [gsum]. rewrite Nat.mul_0_r, gadd_0_l. reflexivity.
    + intros j [l2 r2] Hj (L2 & J1 & J2 & J3). cbn [fst snd] in *. unfold body2.
      rewrite (idx_ok data (j * stride) g0) by nia. cbn [bind].
      rewrite HR by (apply Nat.mod_upper_bound; lia). cbn [bind]. rewrite upd_ok by lia. cbn [bind].
      eexists. split; [reflexivity|]. cbn [fst snd]. rewrite set_length. split; auto. split; [|split].
      * rewrite J1. cbn [gsum]. rewrite fpow_mod by (auto; lia). reflexivity.
      * intros _. now rewrite nth_set_same by lia.
      * intros p Hp. rewrite nth_set_other by lia. auto.
    + rewrite E1. cbn [bind snd]. exists r1. split; auto. cbn [fst snd] in *. split; auto. intros p Hp.
      destruct (Nat.eq_dec p i) as [->|N]; [rewrite I2 by lia; exact I1|]. rewrite I3 by auto. apply Ir. lia.
  - rewrite E. f_equal. apply (nth_ext' g0).
    + now rewrite length_map_seq.
    + intros i Hi. rewrite nth_map_seq by lia. apply I. lia.
Qed.

(** one point: the result is left as it was *)
Theorem ark_fft_g1_slow_one {M : gmod K} (ret : list M) d stride r roots rs :
  ark_fft_g1_slow ret [d] stride (r :: roots) rs = Ok ret.
Proof. clear. reflexivity. Qed.

Theorem ark_g1_lincomb_spec {M : gmod K} (p : list M) (c : list K) n : (n <= length p)%nat -> (n <= length c)%nat ->
  ark_g1_lincomb p c n = Ok (gsum n (fun i => smul (nth i c 0) (nth i p g0))).
Proof.
  clear. intros Lp Lc. unfold ark_g1_lincomb.
  match goal with |- for_range _ _ ?b _ = _ => set (body := b) end.
  destruct (for_range_inv (fun t (x : M) => x = gsum t (fun i => smul (nth i c 0) (nth i p g0))) body 0 n g0) as (x & E & ->); auto.
  - lia.
  - intros j x Hj ->. unfold body. rewrite (idx_ok p j g0), (idx_ok c j 0) by lia. cbn [bind]. eexists. split; [reflexivity|]. reflexivity.
Qed.

Theorem ark_make_data_spec {M : gmod K} (g : M) n :
  ark_make_data g n = Ok (map (fun i => smul (fnat (S i)) g) (seq 0 n)).
Proof.
  clear. unfold ark_make_data. destruct (Nat.eqb_spec n 0) as [->|N]; [reflexivity|].
  match goal with |- for_range _ _ ?b _ = _ => set (body := b) end.
  destruct (for_range_inv (fun t (l : list M) => l = map (fun i => smul (fnat (S i)) g) (seq 0 t)) body 1 n [g]) as (l & E & ->); auto.
  - lia.
  - cbn [seq map]. rewrite fnat_1, smul_1. reflexivity.
  - intros j l Hj ->. unfold body. rewrite (idx_ok _ (j - 1) g0) by (rewrite length_map_seq; lia). cbn [bind].
    eexists. split; [reflexivity|]. rewrite nth_map_seq by lia. rewrite seq_S, map_app. cbn [map Nat.add]. f_equal. f_equal.
    replace (S (j - 1)) with j by lia. change (fnat (S j)) with (1 + fnat j : K). rewrite smul_add_l, smul_1. apply gadd_comm.
Qed.

Lemma ark_poly_eval_spec (p : list K) x : ark_poly_eval p x = Ok (peval p x).
Proof. clear. unfold ark_poly_eval. f_equal. apply peval_ext. intros i. apply dense_coef. Qed.
End P.
