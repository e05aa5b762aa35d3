(** * Proof_MclPoly: polynomials of the mcl backend *)
From Coq Require Import List Arith Lia Bool NArith ZArith Field Ring.
From Verif Require Import Base Fld Poly Loops Model_Utils Proof_Utils Model_FFT Spec Proof_FFT Model_Poly Proof_Poly1 Proof_Poly2
  Model_Mcl Proof_Mcl Proof_MclFr Model_MclPoly.
Import ListNotations.

Lemma while_ext {S} (cond cond' : S -> bool) (body body' : S -> res S) :
  (forall s, cond s = cond' s) -> (forall s, body s = body' s) ->
  forall fuel s, while_ fuel cond body s = while_ fuel cond' body' s.
Proof.
  intros H H'. induction fuel; intros s; cbn [while_]; auto. rewrite <- H, <- H'.
  destruct (cond s); auto. destruct (body s); cbn [bind]; auto.
Qed.

Section P.
Context {K : fld}.
Add Field Kfmp : (fld_field K).
Local Open Scope fld_scope.
Variable pr5 : list K.

(** ** direct multiplication *)
Lemma mcl_direct_inner_eq (a b : list K) len i ret : b <> [] ->
  mcl_direct_inner a b len i ret = mul_direct_inner a b len i ret.
Proof.
  intros Hb. assert (Lb : (0 < length b)%nat) by (destruct b; [congruence|simpl; lia]).
  unfold mcl_direct_inner, mul_direct_inner. replace (S (S (length b - 1))) with (S (length b)) by lia.
  f_equal. apply while_ext; auto. intros st. f_equal.
  apply eq_true_iff_eq. rewrite Nat.ltb_lt, Nat.leb_le. lia.
Qed.

Lemma convol_nil_r (a : list K) k : convol a [] k = 0.
Proof. rewrite convol_comm. apply convol_nil_l. Qed.

Lemma map_zero_repeat (f : nat -> K) n : (forall k, f k = 0) -> map f (seq 0 n) = repeat 0 n.
Proof.
  intros H. apply (nth_ext' (0:K)).
  - now rewrite length_map_seq, repeat_length.
  - rewrite length_map_seq. intros i Hi. now rewrite nth_map_seq, nth_repeat_same.
Qed.

Lemma mcl_mul_direct_spec (a b : list K) len : mcl_mul_direct a b len = Ok (map (convol a b) (seq 0 len)).
Proof.
  unfold mcl_mul_direct. destruct a as [|x a'] eqn:Ea.
  { cbn [length]. unfold for_range. cbn [Nat.sub for_]. f_equal. symmetry. apply map_zero_repeat. intros. apply convol_nil_l. }
  rewrite <- Ea. assert (Na : a <> []) by (rewrite Ea; discriminate). clear Ea x a'.
  destruct b as [|y b'] eqn:Eb.
  { assert (H : forall n i, for_ n i (mcl_direct_inner a [] len) (repeat 0 len) = Ok (repeat 0 len)).
    { induction n; intros i; cbn [for_]; auto. unfold mcl_direct_inner. cbn [while_ fst length Nat.ltb Nat.leb andb bind snd]. apply IHn. }
    unfold for_range. rewrite H. f_equal. symmetry. apply map_zero_repeat. intros. apply convol_nil_r. }
  rewrite <- Eb. assert (Nb : b <> []) by (rewrite Eb; discriminate). clear Eb y b'.
  rewrite <- mul_direct_spec by auto. unfold mul_direct.
  destruct (Nat.eqb_spec (length a) 0) as [E|E]; [destruct a; [congruence|discriminate]|].
  destruct (Nat.eqb_spec (length b) 0) as [E'|E']; [destruct b; [congruence|discriminate]|]. cbn [orb].
  replace (length a - 1 + 1)%nat with (length a) by lia. unfold for_range.
  apply for_ext. intros i s Hi. now apply mcl_direct_inner_eq.
Qed.

(** ** long division *)
Lemma mcl_long_inner_spec (b : list K) diff (out a : list K) :
  (0 < length b)%nat -> (diff + length b <= length a)%nat -> (diff < length out)%nat ->
  exists a', mcl_long_inner b (length b - 1) diff out a = Ok a' /\ length a' = length a /\
    forall k, coef a' k = coef a k - coef out diff * (if (diff <=? k)%nat then (if (k - diff <? length b - 1)%nat then coef b (k - diff) else 0) else 0).
Proof.
  intros Hb Ha Ho. unfold mcl_long_inner. set (q := coef out diff).
  destruct (for_range_inv (fun t r => length r = length a /\ forall k, coef r k =
     coef a k - q * (if (diff <=? k)%nat then (if (k - diff <? t)%nat then coef b (k - diff) else 0) else 0))
    (fun i a => let* q := idx out diff in let* bi := idx b i in
      let tmp := fmul q bi in
      let* ai := idx a (diff + i)%nat in
      upd a (diff + i)%nat (fsub ai tmp)) 0 (length b - 1) a) as (a' & E & L & H).
  - lia.
  - split; auto. intros k. destruct (diff <=? k)%nat; [|ring].
    destruct (Nat.ltb_spec (k - diff) 0); [lia|ring].
  - intros t r Ht (L & H). rewrite (idx_ok out diff 0) by lia. cbn [bind].
    rewrite (idx_ok b t 0) by lia. cbn [bind].
    rewrite (idx_ok r (diff + t) 0) by lia. cbn [bind]. rewrite upd_ok by lia.
    eexists. split; [reflexivity|]. split; [now rewrite set_length|]. intros k.
    unfold coef at 1. rewrite nth_set by lia. fold (coef out diff). fold q.
    destruct (Nat.eqb_spec k (diff + t)) as [->|Nk].
    + change (nth (diff + t) r 0) with (coef r (diff + t)). rewrite H.
      destruct (Nat.leb_spec diff (diff + t)); [|lia]. replace (diff + t - diff)%nat with t by lia.
      destruct (Nat.ltb_spec t t); [lia|]. destruct (Nat.ltb_spec t (S t)); [|lia]. unfold coef. ring.
    + change (nth k r 0) with (coef r k). rewrite H. destruct (Nat.leb_spec diff k); auto.
      replace (k - diff <? S t)%nat with (k - diff <? t)%nat; auto.
      apply eq_true_iff_eq. rewrite !Nat.ltb_lt. lia.
  - exists a'. split; [exact E|]. split; auto.
Qed.

Theorem mcl_long_division_spec (a b : list K) :
  b <> [] -> coef b (length b - 1) <> 0 -> exists q, mcl_long_division a b = Ok q /\ euclid a b q.
Proof.
  intros Nb Hl. unfold mcl_long_division, mcl_quotient_length.
  assert (Lb : (0 < length b)%nat) by (destruct b; [congruence|simpl; lia]).
  destruct (Nat.eqb_spec (length b) 0) as [|_]; [lia|].
  rewrite (idx_ok b _ 0) by lia. cbn [bind]. fold (coef b (length b - 1)).
  destruct (feqb _ _) eqn:Z; [apply feqb_spec in Z; contradiction|].
  set (lb := coef b (length b - 1)) in *.
  destruct (Nat.leb_spec (length b) (length a)) as [Hab|Hab].
  2:{ exists []. split; [reflexivity|]. split; [simpl; lia|]. exists a. split; auto.
      intros k. rewrite convol_nil_l. ring. }
  destruct (Nat.eqb_spec (length a - length b + 1) 0); [lia|].
  rewrite !usub_ok by lia. cbn [bind]. rewrite usub_ok by lia. cbn [bind].
  set (nq := (length a - length b + 1)%nat).
  set (I := fun st : list K * list K * nat * nat =>
    let '(out, r, diff, a_pos) := st in
    length out = nq /\ length r = length a /\ (diff < nq)%nat /\ a_pos = (diff + (length b - 1))%nat /\
    (forall i, (i <= diff)%nat -> coef out i = 0) /\
    (forall k, coef a k = convol out b k + (if (k <=? a_pos)%nat then coef r k else 0))).
  destruct (while_inv I (fun st => snd (fst st)) (fun st : list K * list K * nat * nat => (0 <? snd (fst st))%nat)
     (mcl_long_step b (length b - 1)) (S (length a - 1 - (length b - 1)))
     (repeat 0 nq, a, (length a - 1 - (length b - 1))%nat, (length a - 1)%nat)) as ([[[out r] diff] a_pos] & E & Hi & C).
  - unfold I. split; [apply repeat_length|]. split; auto. split; [unfold nq; lia|]. split; [lia|].
    split; [intros; apply coef_repeat0|].
    intros k. unfold convol. rewrite sum_0; [|intros; rewrite coef_repeat0; ring].
    destruct (Nat.leb_spec k (length a - 1)); [ring|]. rewrite coef_over by lia. ring.
  - cbn [fst snd]. lia.
  - intros [[[out r] diff] a_pos] (L1 & L2 & Hd & -> & Ho & Hs) C. cbn [fst snd] in *.
    apply Nat.ltb_lt in C. unfold mcl_long_step.
    rewrite (idx_ok r _ 0) by (unfold nq in *; lia). cbn [bind]. rewrite (idx_ok b _ 0) by lia. cbn [bind].
    fold (coef r (diff + (length b - 1))). fold (coef b (length b - 1)). fold lb. unfold mcl_div_fr.
    set (q := coef r (diff + (length b - 1)) * finv lb).
    rewrite upd_ok by lia. cbn [bind].
    assert (Cq : coef (set out diff q) diff = q) by (unfold coef; rewrite nth_set_same by lia; reflexivity).
    destruct (mcl_long_inner_spec b diff (set out diff q) r) as (r' & Er & Lr' & Hr'); auto;
      [unfold nq in *; lia|rewrite set_length; lia|].
    rewrite Cq in Hr'.
    rewrite Er. cbn [bind]. rewrite !usub_ok by lia. cbn [bind].
    eexists. split; [reflexivity|]. cbn [fst snd]. split; [|lia].
    split; [now rewrite set_length|]. split; [congruence|]. split; [lia|]. split; [lia|].
    split.
    + intros i Hi. unfold coef. rewrite nth_set_other by lia. apply Ho. lia.
    + intros k. rewrite convol_set by (try lia; apply Ho; lia). rewrite Hr', Hs.
      destruct (Nat.leb_spec k (diff + (length b - 1))), (Nat.leb_spec k (diff + (length b - 1) - 1)); try lia.
      * destruct (Nat.leb_spec diff k); [|ring].
        destruct (Nat.ltb_spec (k - diff) (length b - 1)); [ring|lia].
      * destruct (Nat.leb_spec diff k); [|lia].
        replace k with (diff + (length b - 1))%nat by lia.
        replace (diff + (length b - 1) - diff)%nat with (length b - 1)%nat by lia.
        fold lb. unfold q. field. auto.
      * destruct (Nat.leb_spec diff k); [|ring]. rewrite (coef_over b) by lia. ring.
  - destruct Hi as (L1 & L2 & Hd & -> & Ho & Hs). cbn [fst snd] in C. apply Nat.ltb_ge in C.
    assert (diff = 0%nat) as -> by lia.
    match goal with |- context [while_ ?x ?y ?z ?u] =>
      replace (while_ x y z u) with (Ok (out, r, 0%nat, (0 + (length b - 1))%nat)) by (symmetry; exact E) end.
    cbn [bind]. rewrite (idx_ok r _ 0) by lia. cbn [bind]. rewrite (idx_ok b _ 0) by lia. cbn [bind].
    fold (coef r (0 + (length b - 1))). fold (coef b (length b - 1)). fold lb. unfold mcl_div_fr.
    set (q := coef r (0 + (length b - 1)) * finv lb).
    rewrite upd_ok by lia. eexists. split; [reflexivity|]. split; [rewrite set_length; unfold nq in *; lia|].
    exists (map (fun k => coef r k - q * coef b k) (seq 0 (length b - 1))).
    split; [rewrite length_map_seq; lia|]. intros k.
    rewrite convol_set by (try lia; apply Ho; lia). rewrite coef_map_seq. cbn [Nat.leb]. rewrite Nat.sub_0_r, Hs.
    destruct (Nat.ltb_spec k (length b - 1)), (Nat.leb_spec k (0 + (length b - 1))); try lia.
    + ring.
    + replace k with (length b - 1)%nat by lia. unfold q. cbn [Nat.add]. fold lb. field. auto.
    + rewrite (coef_over b k) by lia. ring.
Qed.

Theorem mcl_long_division_errors (a b : list K) : b = [] \/ coef b (length b - 1) = 0 -> mcl_long_division a b = Err.
Proof.
  intros H. unfold mcl_long_division. destruct (Nat.eqb_spec (length b) 0) as [|N]; auto.
  destruct H as [->|H]; [simpl in N; lia|]. rewrite (idx_ok b _ 0) by lia. cbn [bind].
  fold (coef b (length b - 1)). now rewrite H, feqb_refl.
Qed.

(** ** normalisation and reversal *)
Lemma mcl_normalise_norm (p : list K) : mcl_normalise p = poly_norm p.
Proof.
  unfold mcl_normalise, poly_norm.
  match goal with |- bind ?w _ = bind ?w _ => destruct w as [t| | |] end; cbn [bind]; auto.
  destruct (Nat.eqb_spec t 0) as [->|]; auto.
Qed.

Lemma push_loop (f : nat -> K) n : for_range 0 n (fun i l => Ok (l ++ [f i])) [] = Ok (map f (seq 0 n)).
Proof.
  destruct (for_range_inv (fun t l => l = map f (seq 0 t)) (fun i l => Ok (l ++ [f i])) 0 n []) as (l & E & ->); auto.
  - lia.
  - intros t l Ht ->. eexists. split; [reflexivity|]. rewrite seq_S, map_app. reflexivity.
Qed.

Lemma for_range_ext {S} (body body' : nat -> S -> res S) n s :
  (forall i s, (i < n)%nat -> body i s = body' i s) -> for_range 0 n body s = for_range 0 n body' s.
Proof. intros H. unfold for_range. apply for_ext. intros i s' Hi. apply H. lia. Qed.

Lemma mcl_flip_spec (p : list K) : mcl_flip p = Ok (rev p).
Proof.
  unfold mcl_flip.
  rewrite (for_range_ext _ (fun i l => Ok (l ++ [nth (length p - 1 - i) p 0]))).
  2:{ intros i s Hi. now rewrite (idx_ok p _ 0) by lia. }
  rewrite push_loop. f_equal. apply (nth_ext' (0:K)).
  - now rewrite length_map_seq, rev_length.
  - rewrite length_map_seq. intros i Hi. rewrite nth_map_seq, rev_nth by auto. f_equal. lia.
Qed.

(** ** settings built on the fly *)
Hypothesis HT : table_ok pr5.
Hypothesis HT32 : length pr5 = 32%nat.

Lemma mcl_log_2_pow k : (k < 64)%nat -> mcl_log_2 (N.of_nat (2 ^ k)) = N.of_nat k.
Proof.
  clear. intros H. rewrite mcl_log_2_spec.
  - rewrite Nat2N.inj_pow. apply N.log2_pow2. lia.
  - assert (P := pow2_pos k). split; [lia|]. rewrite Nat2N.inj_pow. apply N.pow_lt_mono_r; lia.
Qed.

Lemma mcl_fresh_ok k : (k < 32)%nat -> exists s, mcl_fresh pr5 (N.of_nat k) = Ok s /\ settings_ok s k (nth k pr5 0).
Proof.
  intros H. unfold mcl_fresh. rewrite as_u8_small by lia. unfold mcl_new. cbn [fst].
  rewrite init_globals_table by apply globals0_consistent. rewrite (idx_ok _ _ 0) by lia. cbn [bind].
  apply mcl_build_ok; auto. apply HT. lia.
Qed.

Lemma mcl_fresh_panics k : (32 <= k < 256)%nat -> mcl_fresh pr5 (N.of_nat k) = Panic.
Proof.
  clear HT. intros H. unfold mcl_fresh. rewrite as_u8_small by lia. unfold mcl_new. cbn [fst].
  rewrite init_globals_table by apply globals0_consistent. rewrite idx_panic by lia. reflexivity.
Qed.

(** the sign the inverse transform gets wrong at length 2^31 *)
Definition sg (m : nat) (x : K) : K := if (m <? 31)%nat then x else - x.

Lemma mcl_ifft_sign s k (w : K) m (data : list K) :
  settings_ok s k w -> (k < 32)%nat -> (m <= k)%nat -> length data = (2 ^ m)%nat ->
  exists p, length p = (2 ^ m)%nat /\ mcl_fft s data true = Ok (map (sg m) p) /\
    forall i, (i < 2 ^ m)%nat -> peval p ((w ^ (2 ^ (k - m))) ^ i) = nth i data 0.
Proof.
  clear. intros HS Hk Hm HL. destruct (ifft_fr_interpolates s k w m data) as (p & E & Lp & Hp); auto.
  exists p. split; auto. split; auto. rewrite (mcl_fft_exact s k w m) by auto.
  destruct (Nat.eq_dec m 31) as [Em|Nm].
  - rewrite (mcl_inplace_spec s k w m) by auto.
    rewrite fft_fr_self, (ifft_g1_spec (M := self_mod K) s k w m) in E by auto.
    apply Ok_inj in E. f_equal. rewrite <- E. change (gcar K (self_mod K)) with (car K). rewrite map_map. apply map_ext. intros x.
    assert (HB : (N.of_nat (2 ^ m) = 2 ^ 31)%N) by (rewrite Nat2N.inj_pow, Em; reflexivity).
    rewrite mcl_inv_len_edge; auto.
    2:{ apply (primitive_fnat_neq_0 (w ^ (2 ^ (k - m))) m). apply primitive_fold; auto. apply HS. }
    unfold sg. destruct (Nat.ltb_spec m 31); [lia|].
    change (@eq K (- finv (fnat (2 ^ m)) * x) (- (finv (fnat (2 ^ m)) * x))). ring.
  - rewrite (mcl_inplace_blst s k w m).
    2-4: auto.
    2:{ change (2 ^ 31)%N with (2 ^ N.of_nat 31)%N. rewrite ?HL. apply pow2_N_lt. lia. }
    rewrite E. f_equal. unfold sg. destruct (Nat.ltb_spec m 31); [|lia]. now rewrite map_id.
Qed.

Lemma mcl_fft_fwd s k (w : K) m (data : list K) :
  settings_ok s k w -> (k < 32)%nat -> (m <= k)%nat -> length data = (2 ^ m)%nat ->
  mcl_fft s data false = Ok (map (fun i => peval data ((w ^ (2 ^ (k - m))) ^ i)) (seq 0 (2 ^ m))).
Proof.
  clear. intros HS Hk Hm HL. rewrite (mcl_fft_exact s k w m), (mcl_inplace_spec s k w m) by auto.
  now rewrite peval_self_dft by lia.
Qed.

(** ** multiplication by transforms *)
Definition ft_ok (ft : option (fft_settings K)) (m : nat) : Prop :=
  match ft with None => True | Some s => exists k w, settings_ok s k w /\ (k < 32)%nat /\ (m <= k)%nat end.

Lemma mcl_mul_fft_spec (a b : list K) ft len m :
  (0 < Nat.min (length a) len + Nat.min (length b) len)%nat ->
  (Nat.min (length a) len + Nat.min (length b) len - 1 <= 2 ^ m)%nat ->
  (m = 0 \/ 2 ^ (m - 1) < Nat.min (length a) len + Nat.min (length b) len - 1)%nat ->
  (m < 32)%nat -> ft_ok ft m ->
  mcl_mul_fft pr5 a b ft len = Ok (map (fun k => sg m (convol a b k)) (seq 0 len)).
Proof.
  intros HP HL HM Hm HF. unfold mcl_mul_fft. rewrite !min_u64_min.
  set (al := Nat.min (length a) len) in *. set (bl := Nat.min (length b) len) in *.
  rewrite usub_ok by lia. cbn [bind].
  destruct (mcl_next_pow_spec (al + bl - 1)) as (m' & E & L1 & L2).
  { assert (Q : (N.of_nat (2 ^ m) <= 2 ^ N.of_nat 63)%N) by (apply pow2_N_le; lia). change (2 ^ 63)%N with (2 ^ N.of_nat 63)%N. lia. }
  assert (m' = m).
  { assert (A : forall x y : nat, (x = 0 \/ 2 ^ (x - 1) < al + bl - 1)%nat -> (al + bl - 1 <= 2 ^ y)%nat -> (x <= y)%nat).
    { intros x y [->|H1] H2; [lia|]. assert (Q : (2 ^ (x - 1) < 2 ^ y)%nat) by lia. apply Nat.pow_lt_mono_r_iff in Q; lia. }
    apply Nat.le_antisymm; eauto. }
  subst m'. rewrite E. cbn [bind]. rewrite Nat2N.id. rewrite mcl_log_2_pow by lia.
  destruct (mcl_fresh_ok m Hm) as (s0 & Es & HS0). rewrite Es. cbn [bind].
  set (s := match ft with Some x => x | None => s0 end).
  assert (HS : exists k w, settings_ok s k w /\ (k < 32)%nat /\ (m <= k)%nat).
  { unfold s. destruct ft; [exact HF|]. eauto 10. }
  destruct HS as (k & w & HS & Hk & Hmk). clearbody s. clear HF s0 Es HS0.
  assert (Hmw : max_width s = (2 ^ k)%nat) by apply HS. rewrite Hmw.
  destruct (Nat.ltb_spec (2 ^ k) (2 ^ m)) as [X|_].
  { apply Nat.pow_lt_mono_r_iff in X; lia. }
  set (n := (2 ^ m)%nat) in *.
  assert (LP : forall (c : list K) cl, (cl <= length c)%nat -> length (mcl_pad c cl n) = n).
  { intros c cl Hc. unfold mcl_pad. rewrite min_u64_min, app_length, firstn_length, repeat_length. lia. }
  assert (CP : forall (c : list K) cl i, (cl <= length c)%nat -> coef (mcl_pad c cl n) i = if (i <? Nat.min cl n)%nat then coef c i else 0).
  { intros c cl i Hc. unfold mcl_pad. rewrite min_u64_min, coef_app, firstn_length, coef_firstn, coef_repeat0.
    destruct (Nat.ltb_spec i (Nat.min (Nat.min cl n) (length c))), (Nat.ltb_spec i (Nat.min cl n)); auto; lia. }
  assert (La : length (mcl_pad a al n) = n) by (apply LP; unfold al; lia).
  assert (Lb : length (mcl_pad b bl n) = n) by (apply LP; unfold bl; lia).
  rewrite (mcl_fft_fwd s k w m (mcl_pad a al n)), (mcl_fft_fwd s k w m (mcl_pad b bl n)) by auto.
  cbn [unwrap bind]. set (u := w ^ (2 ^ (k - m))) in *. fold n.
  rewrite (map_loop_all (0:K) n _ (fun i x => x * peval (mcl_pad b bl n) (u ^ i))).
  2:{ now rewrite length_map_seq. }
  2:{ intros i l Hi Hl. rewrite length_map_seq in Hl. rewrite (idx_ok l i 0) by lia. cbn [bind].
      rewrite (idx_ok _ i 0) by (rewrite length_map_seq; auto). cbn [bind]. rewrite nth_map_seq by auto. now rewrite upd_ok by lia. }
  cbn [bind].
  match goal with |- context [mcl_fft s ?d true] => destruct (mcl_ifft_sign s k w m d) as (p & Lp & Ep & Hp) end.
  1-3: auto. 1: apply length_map_seq.
  rewrite Ep. cbn [unwrap bind]. fold n u in Lp, Hp.
  (* the product of the padded operands *)
  assert (HC : exists c, (length c <= n)%nat /\ (forall x, peval (mcl_pad a al n) x * peval (mcl_pad b bl n) x = peval c x) /\
             forall i, (i < len)%nat -> coef c i = convol a b i).
  { destruct (Nat.eq_dec al 0) as [Za|Za].
    - exists []. split; [simpl; lia|]. split.
      + intros x. rewrite (peval_ext _ [] x); [cbn [peval]; ring|]. intros i. rewrite CP by (unfold al, bl; lia). rewrite Za, coef_nil. reflexivity.
      + intros i Hi. rewrite coef_nil. symmetry. assert (a = []) as -> by (apply length_zero_iff_nil; unfold al in Za; lia).
        apply convol_nil_l.
    - destruct (Nat.eq_dec bl 0) as [Zb|Zb].
      + exists []. split; [simpl; lia|]. split.
        * intros x. rewrite (peval_ext (mcl_pad b bl n) [] x); [cbn [peval]; ring|]. intros i. rewrite CP by (unfold al, bl; lia). rewrite Zb, coef_nil. reflexivity.
        * intros i Hi. rewrite coef_nil. symmetry. assert (b = []) as -> by (apply length_zero_iff_nil; unfold bl in Zb; lia).
          apply convol_nil_r.
      + exists (pmul (firstn al a) (firstn bl b)). split; [|split].
        * rewrite pmul_length, !firstn_length. unfold al, bl in *. lia.
        * intros x. rewrite peval_pmul. f_equal; apply peval_ext; intros i; rewrite CP by (unfold al, bl; lia);
            rewrite coef_firstn; rewrite Nat.min_l by lia; reflexivity.
        * intros i Hi. rewrite coef_pmul. apply convol_ext; intros j Hj; rewrite coef_firstn.
          -- destruct (Nat.ltb_spec j al); auto. symmetry. apply coef_over. unfold al in *. lia.
          -- destruct (Nat.ltb_spec j bl); auto. symmetry. apply coef_over. unfold bl in *. lia. }
  destruct HC as (c & Lc & Hev & Hcc).
  assert (Pu : primitive u n) by (apply primitive_fold; auto; apply HS).
  assert (Hc : forall i, coef p i = coef c i).
  { apply (interp_unique (map (fpow u) (seq 0 n))).
    - now apply primitive_NoDup.
    - rewrite length_map_seq. lia.
    - rewrite length_map_seq. lia.
    - intros x Hx. apply in_map_iff in Hx as (j & <- & Hj). apply in_seq in Hj.
      rewrite Hp by lia. rewrite nth_map_seq by lia. rewrite nth_map_seq by lia. apply Hev. }
  assert (CS : forall l i, coef (map (sg m) l) i = sg m (coef l i)).
  { intros l i. assert (Z : sg m 0 = 0) by (unfold sg; destruct (m <? 31)%nat; ring).
    unfold coef. rewrite <- Z at 1. apply map_nth. }
  f_equal. apply (coef_ext (K := K)).
  - rewrite length_map_seq. destruct (Nat.ltb_spec n len).
    + rewrite app_length, map_length, repeat_length. lia.
    + rewrite firstn_length, map_length. lia.
  - intros i Hi.
    assert (Hi' : (i < len)%nat).
    { destruct (Nat.ltb_spec n len).
      - rewrite app_length, map_length, repeat_length in Hi. lia.
      - rewrite firstn_length, map_length in Hi. lia. }
    rewrite coef_map_seq. destruct (Nat.ltb_spec i len); [|lia]. rewrite <- Hcc by auto. rewrite <- Hc.
    destruct (Nat.ltb_spec n len).
    + rewrite coef_app, map_length, CS, coef_repeat0. destruct (Nat.ltb_spec i (length p)); auto.
      rewrite coef_over by lia. unfold sg. destruct (m <? 31)%nat; ring.
    + rewrite coef_firstn, CS. destruct (Nat.ltb_spec i len); [auto|lia].
Qed.

(** the smallest exponent *)
Lemma pow2_above n : exists m, (n <= 2 ^ m)%nat /\ (m = 0 \/ 2 ^ (m - 1) < n)%nat.
Proof.
  clear. induction n.
  - exists 0%nat. simpl. lia.
  - destruct IHn as (m & H1 & H2). destruct (Nat.eq_dec n (2 ^ m)) as [->|].
    + exists (S m). simpl. split; [assert (P := pow2_pos m); lia|]. right. rewrite Nat.sub_0_r. lia.
    + exists m. split; [lia|]. destruct H2; [auto|right; lia].
Qed.

Lemma pow2_above_le n m k : (n <= 2 ^ k)%nat -> (m = 0 \/ 2 ^ (m - 1) < n)%nat -> (m <= k)%nat.
Proof.
  clear. intros H1 [->|H2]; [lia|]. assert (Q : (2 ^ (m - 1) < 2 ^ k)%nat) by lia. apply Nat.pow_lt_mono_r_iff in Q; lia.
Qed.

(** short enough to be free of the sign error *)
Definition short (n : nat) : Prop := (N.of_nat n <= 2 ^ 30)%N.

Lemma short_pow n : short n -> (n <= 2 ^ 30)%nat.
Proof.
  clear. unfold short. intros H. assert (E : N.of_nat (2 ^ 30) = (2 ^ 30)%N) by (rewrite Nat2N.inj_pow; reflexivity). lia.
Qed.

Definition ft_wide (ft : option (fft_settings K)) (n : nat) : Prop :=
  match ft with None => True | Some s => exists k w, settings_ok s k w /\ (k < 32)%nat /\ (n <= 2 ^ k)%nat end.

Lemma mcl_mul_fft_short (a b : list K) ft len :
  (0 < Nat.min (length a) len + Nat.min (length b) len)%nat ->
  short (Nat.min (length a) len + Nat.min (length b) len - 1) ->
  ft_wide ft (Nat.min (length a) len + Nat.min (length b) len - 1) ->
  mcl_mul_fft pr5 a b ft len = Ok (map (convol a b) (seq 0 len)).
Proof.
  intros HP HS HF. set (n := (Nat.min (length a) len + Nat.min (length b) len - 1)%nat) in *.
  destruct (pow2_above n) as (m & H1 & H2).
  assert (Hm : (m <= 30)%nat) by (apply (pow2_above_le n); auto; now apply short_pow).
  rewrite (mcl_mul_fft_spec a b ft len m); auto; try lia.
  - f_equal. apply map_ext_seq. intros i Hi. unfold sg. destruct (Nat.ltb_spec m 31); [auto|lia].
  - destruct ft; [|exact I]. destruct HF as (k & w & A & B & C). exists k, w. repeat split; auto; try apply A.
    now apply (pow2_above_le n).
Qed.

Lemma mcl_mul_spec (a b : list K) ft len :
  short (Nat.min (length a) len + Nat.min (length b) len - 1) ->
  ft_wide ft (Nat.min (length a) len + Nat.min (length b) len - 1) ->
  mcl_mul_ pr5 a b ft len = Ok (map (convol a b) (seq 0 len)).
Proof.
  intros HS HF. unfold mcl_mul_. destruct (Nat.ltb_spec (length a) 64); cbn [orb]; [apply mcl_mul_direct_spec|].
  destruct (Nat.ltb_spec (length b) 64); cbn [orb]; [apply mcl_mul_direct_spec|].
  destruct (Nat.ltb_spec len 128); cbn [orb]; [apply mcl_mul_direct_spec|].
  apply mcl_mul_fft_short; auto. lia.
Qed.

(** ** power-series inverse *)
Definition mcl_inv_state (p : list K) (n t : nat) (st : nat * N * list K) : Prop :=
  let '(d, mask, out) := st in
  mask = mask_of t /\ d = ((n - 1) / 2 ^ t)%nat /\ length out = (d + 1)%nat /\
  (forall k, (k <= d)%nat -> convol p out k = delta k).

Lemma mcl_inverse_round_spec p fs k w n t st :
  (0 < n)%nat -> (2 <= length p)%nat -> short (2 * n - 1) -> settings_ok fs k w -> (k < 32)%nat -> (2 * n - 1 <= 2 ^ k)%nat ->
  mcl_inv_state p n (S t) st ->
  exists st', mcl_inverse_round pr5 p fs (n - 1) st = Ok st' /\ mcl_inv_state p n t st'.
Proof.
  intros Hn Hp F HS Hk Hw. destruct st as [[d mask] out]. intros (Em & Ed & Lr & Hc).
  unfold mcl_inverse_round. subst mask. cbn [mask_of].
  set (d' := (2 * d + (if N.eqb (N.land (N.of_nat (n - 1)) (2 ^ N.of_nat t)) 0 then 0 else 1))%nat).
  assert (Ed' : d' = ((n - 1) / 2 ^ t)%nat) by (unfold d'; rewrite Ed; apply mask_step).
  assert (Dle : (d' <= 2 * d + 1)%nat) by (unfold d'; destruct (N.eqb _ _); lia).
  assert (Dge : (d <= d')%nat) by (unfold d'; lia).
  assert (Dn : (d' <= n - 1)%nat).
  { rewrite Ed'. apply Nat.div_le_upper_bound; [apply Nat.pow_nonzero; lia|].
    assert (P := pow2_pos t). nia. }
  rewrite usub_ok by lia. cbn [bind]. rewrite min_u64_min.
  set (tl := Nat.min (d' + 1) (length p + length out - 1)).
  assert (W : forall c e, (c <= 2 * n - 1)%nat -> (e <= c)%nat -> ft_wide (Some fs) e /\ short e).
  { intros c e H1 H2. split; [exists k, w; repeat split; auto; try apply HS; lia|]. unfold short in *. lia. }
  rewrite mcl_mul_spec; [|apply (W (2 * n - 1)%nat); unfold tl; lia|apply (W (2 * n - 1)%nat); unfold tl; lia].
  cbn [unwrap bind].
  rewrite (map_loop_all (0:K) tl _ (fun _ x => - x)); auto.
  2:{ now rewrite length_map_seq. }
  2:{ intros i r Hi Hr. rewrite length_map_seq in Hr. rewrite (idx_ok r i 0) by lia. cbn [bind].
      now rewrite upd_ok by lia. }
  cbn [bind].
  set (t1 := map (fun i => - nth i (map (convol p out) (seq 0 tl)) 0) (seq 0 tl)).
  assert (Lt1 : length t1 = tl) by apply length_map_seq.
  assert (Tp : (1 <= tl)%nat) by (unfold tl; lia).
  rewrite (idx_ok t1 0 0) by lia. cbn [bind]. rewrite upd_ok by lia. cbn [bind].
  set (t0 := set t1 0 (nth 0 t1 0 + mcl_from_int 2)).
  assert (Lt0 : length t0 = tl) by (unfold t0; now rewrite set_length).
  assert (C0 : forall i, (i <= d')%nat -> coef t0 i = delta i + delta i - convol p out i).
  { intros i Hi. destruct (Nat.lt_ge_cases i tl) as [H|H].
    - unfold coef, t0. rewrite nth_set by lia.
      assert (T : forall j, (j < tl)%nat -> nth j t1 0 = - convol p out j).
      { intros j Hj. unfold t1. rewrite nth_map_seq by lia. now rewrite nth_map_seq by lia. }
      unfold delta. destruct (Nat.eqb_spec i 0) as [->|N].
      + rewrite T by lia. change 2%Z with (Z.of_nat 2). rewrite mcl_from_int_nat, fnat_2. ring.
      + rewrite T by lia. ring.
    - rewrite coef_over by lia. rewrite convol_over by (unfold tl in H; lia). unfold delta.
      destruct (Nat.eqb_spec i 0); [unfold tl in *; lia|ring]. }
  rewrite mcl_mul_spec; [|apply (W (2 * n - 1)%nat); unfold tl in *; lia|apply (W (2 * n - 1)%nat); unfold tl in *; lia].
  cbn [unwrap bind]. eexists. split; [reflexivity|].
  split; [|split; [|split]].
  - rewrite N.shiftr_div_pow2. change (2 ^ 1)%N with 2%N. destruct t; cbn [mask_of].
    + reflexivity.
    + rewrite Nat2N.inj_succ, N.pow_succ_r', N.mul_comm. apply N.div_mul. lia.
  - exact Ed'.
  - apply length_map_seq.
  - apply (newton_step p out t0 _ d d'); auto.
    intros i Hi. rewrite coef_map_seq. destruct (Nat.ltb_spec i (d' + 1)); [auto|lia].
Qed.

Lemma mcl_inverse_loop_spec p fs k w n : forall t fuel st,
  (0 < n)%nat -> (2 <= length p)%nat -> short (2 * n - 1) -> settings_ok fs k w -> (k < 32)%nat -> (2 * n - 1 <= 2 ^ k)%nat ->
  (t < fuel)%nat -> mcl_inv_state p n t st ->
  exists st', while_ fuel (fun st : nat * N * list K => negb (N.eqb (snd (fst st)) 0))
                     (mcl_inverse_round pr5 p fs (n - 1)) st = Ok st' /\ mcl_inv_state p n 0 st'.
Proof.
  induction t as [|t IH]; intros fuel st Hn Hp F HS Hk Hw Hf I; (destruct fuel as [|fuel]; [lia|]).
  - exists st. split; auto. cbn [while_]. destruct st as [[d m] r]. destruct I as (-> & _). reflexivity.
  - cbn [while_]. assert (C : negb (N.eqb (snd (fst st)) 0) = true).
    { destruct st as [[d m] r]. destruct I as (-> & _). cbn [fst snd mask_of].
      assert (2 ^ N.of_nat t <> 0)%N by (apply N.pow_nonzero; lia).
      apply N.eqb_neq in H. now rewrite H. }
    rewrite C. destruct (mcl_inverse_round_spec p fs k w n t st) as (st1 & E1 & I1); auto.
    rewrite E1. cbn [bind]. apply IH; auto. lia.
Qed.

Theorem mcl_inverse_spec p n :
  (0 < n)%nat -> p <> [] -> coef p 0 <> 0 -> short (2 * n - 1) ->
  exists c, mcl_inverse pr5 p n = Ok c /\ length c = n /\ forall k, (k < n)%nat -> convol p c k = delta k.
Proof.
  intros Hn Np Hc F. unfold mcl_inverse.
  assert (Lp : (0 < length p)%nat) by (destruct p; [congruence|simpl; lia]).
  destruct (Nat.eqb_spec (length p) 0); [lia|]. destruct (Nat.eqb_spec n 0); [lia|]. cbn [orb].
  rewrite (idx_ok p 0 0) by auto. cbn [bind]. fold (coef p 0).
  destruct (feqb (coef p 0) 0) eqn:Z; [apply feqb_spec in Z; contradiction|].
  destruct (Nat.eqb_spec (length p) 1) as [L1|L1].
  - eexists. split; [reflexivity|]. split; [cbn [length]; rewrite repeat_length; lia|]. intros k Hk. unfold convol.
    rewrite (sum_single (S k) 0).
    + rewrite Nat.sub_0_r. unfold delta. destruct k; [rewrite coef_cons_0; cbn [Nat.eqb]; field; auto|].
      rewrite coef_cons_S, coef_repeat0. cbn [Nat.eqb]. ring.
    + lia.
    + intros i Hi Ni. rewrite (coef_over p) by lia. ring.
  - rewrite usub_ok by lia. cbn [bind].
    destruct (mcl_next_pow_spec (2 * n - 1)) as (m & E & H1 & H2).
    { unfold short in F. eapply N.le_trans; [exact F|]. apply N.pow_le_mono_r; lia. }
    rewrite E. cbn [bind].
    assert (Hm : (m <= 30)%nat) by (apply (pow2_above_le (2 * n - 1)); auto; now apply short_pow).
    rewrite mcl_log_2_pow by lia. destruct (mcl_fresh_ok m ltac:(lia)) as (fs & Ef & HS). rewrite Ef. cbn [bind].
    assert (Lg : exists t, mcl_log_2 (N.of_nat (n - 1)) = N.of_nat t /\ (t < 64)%nat /\ (n - 1 < 2 ^ S t)%nat).
    { destruct (Nat.eq_dec n 1) as [->|N1].
      - exists 0%nat. split; [reflexivity|]. split; [lia|simpl; lia].
      - assert (B : (N.of_nat (n - 1) < 2 ^ 32)%N).
        { unfold short in F. assert (2 ^ 30 < 2 ^ 32)%N by (apply N.pow_lt_mono_r; lia). lia. }
        exists (N.to_nat (N.log2 (N.of_nat (n - 1)))). rewrite N2Nat.id. split.
        + apply mcl_log_2_spec. split; [lia|]. eapply N.lt_trans; [exact B|]. apply N.pow_lt_mono_r; lia.
        + assert (Sp := N.log2_spec (N.of_nat (n - 1)) ltac:(lia)). split.
          * assert (N.log2 (N.of_nat (n - 1)) < 64)%N; [|lia].
            apply N.log2_lt_pow2; [lia|]. eapply N.lt_trans; [exact B|]. apply N.pow_lt_mono_r; lia.
          * assert (E2 : N.of_nat (2 ^ S (N.to_nat (N.log2 (N.of_nat (n - 1))))) = (2 ^ N.succ (N.log2 (N.of_nat (n - 1))))%N).
            { rewrite Nat2N.inj_pow. f_equal. lia. }
            lia. }
    destruct Lg as (t & Eg & Ht & Hlt). rewrite Eg.
    destruct (mcl_inverse_loop_spec p fs m (nth m pr5 0) n (S t) 65 (0%nat, N.shiftl 1 (N.of_nat t), [finv (coef p 0)])) as (st & Est & I);
      try eassumption; auto; try lia.
    { split; [|split; [|split]].
      - rewrite N.shiftl_1_l. reflexivity.
      - symmetry. apply Nat.div_small. exact Hlt.
      - reflexivity.
      - intros k Hk. assert (k = 0)%nat as -> by lia. unfold convol. cbn [sum]. rewrite Nat.sub_diag, coef_cons_0.
        unfold delta. cbn [Nat.eqb]. field. auto. }
    rewrite Est. cbn [bind]. destruct st as [[d mk] r]. destruct I as (_ & Ed & Lr & Hcv).
    rewrite Nat.pow_0_r, Nat.div_1_r in Ed.
    destruct (Nat.eqb_spec (d + 1) n); [|lia].
    exists r. split; auto. split; [lia|]. intros k Hk. apply Hcv. lia.
Qed.

Theorem mcl_inverse_degenerate (p : list K) n :
  (p = [] \/ n = 0%nat -> mcl_inverse pr5 p n = Ok []) /\
  (p <> [] -> n <> 0%nat -> coef p 0 = 0 -> mcl_inverse pr5 p n = Err).
Proof.
  clear HT HT32. split.
  - intros [->| ->]; unfold mcl_inverse; [reflexivity|]. now rewrite orb_true_r.
  - intros Np Nn H0. unfold mcl_inverse.
    assert (Lp : (0 < length p)%nat) by (destruct p; [congruence|simpl; lia]).
    destruct (Nat.eqb_spec (length p) 0); [lia|]. destruct (Nat.eqb_spec n 0); [lia|]. cbn [orb].
    rewrite (idx_ok p 0 0) by auto. cbn [bind]. fold (coef p 0). now rewrite H0, feqb_refl.
Qed.

(** ** fast division *)
Theorem mcl_fast_div_spec (a b : list K) :
  b <> [] -> coef b (length b - 1) <> 0 -> short (2 * length a) ->
  exists q, mcl_fast_div pr5 a b = Ok q /\ euclid a b q.
Proof.
  intros Nb Hl F. unfold mcl_fast_div, mcl_quotient_length.
  assert (Lb : (0 < length b)%nat) by (destruct b; [congruence|simpl; lia]).
  destruct (Nat.eqb_spec (length b) 0) as [|_]; [lia|].
  rewrite (idx_ok b _ 0) by lia. cbn [bind]. fold (coef b (length b - 1)).
  destruct (feqb _ _) eqn:Z; [apply feqb_spec in Z; contradiction|]. clear Z.
  set (lb := coef b (length b - 1)) in *.
  destruct (Nat.leb_spec (length b) (length a)) as [Hab|Hab].
  2:{ exists []. split; [reflexivity|]. split; [simpl; lia|]. exists a. split; auto.
      intros k. rewrite convol_nil_l. ring. }
  destruct (Nat.eqb_spec (length a - length b + 1) 0) as [|_]; [lia|].
  destruct (Nat.eqb_spec (length b) 1) as [B1|B1].
  { rewrite (for_range_ext _ (fun i l => Ok (l ++ [coef a i * finv lb]))).
    2:{ intros i s Hi. rewrite (idx_ok a i 0), (idx_ok b 0 0) by lia. cbn [bind]. unfold mcl_div_fr, lb.
        rewrite B1. reflexivity. }
    rewrite push_loop.
    eexists. split; [reflexivity|]. split; [rewrite length_map_seq; lia|]. exists []. split; [simpl; lia|].
    intros k. rewrite coef_nil. unfold convol. rewrite (sum_single (S k) k).
    - rewrite Nat.sub_diag, coef_map_seq. replace 0%nat with (length b - 1)%nat by lia. fold lb.
      destruct (Nat.ltb_spec k (length a)); [field; auto|]. rewrite coef_over by auto. ring.
    - lia.
    - intros i Hi Ni. rewrite (coef_over b) by lia. ring. }
  rewrite !mcl_flip_spec. cbn [bind].
  set (L := (length a - length b + 1)%nat) in *.
  destruct (mcl_inverse_spec (rev b) L) as (c & Ec & Lc & Hc).
  - unfold L. lia.
  - intros E. apply (f_equal (@length K)) in E. rewrite rev_length in E. simpl in E. lia.
  - rewrite coef_rev by auto. rewrite Nat.sub_0_r. exact Hl.
  - unfold short, L in *. lia.
  - rewrite Ec. cbn [unwrap bind]. unfold mcl_mul.
    rewrite mcl_mul_spec; [|rewrite rev_length, Lc; unfold short, L in *; lia|exact I].
    cbn [unwrap bind]. rewrite mcl_flip_spec.
    set (qf := map (convol (rev a) c) (seq 0 L)).
    assert (Lqf : length qf = L) by apply length_map_seq.
    set (m := (length a - 1)%nat) in *. set (n := (length b - 1)%nat) in *.
    eexists. split; [reflexivity|]. split; [rewrite rev_length, Lqf; unfold L, m, n; lia|].
    assert (HQ : forall k, (k < L)%nat -> convol qf (rev b) k = coef (rev a) k).
    { intros k Hk.
      transitivity (convol (pmul (rev a) c) (rev b) k).
      { apply convol_ext; auto. intros i Hi. rewrite coef_pmul. unfold qf. rewrite coef_map_seq.
        destruct (Nat.ltb_spec i L); [auto|lia]. }
      rewrite convol_assoc. unfold convol.
      rewrite (sum_single (S k) k).
      - rewrite Nat.sub_diag, coef_pmul, convol_comm, Hc by (unfold L; lia). unfold delta. cbn. ring.
      - lia.
      - intros i Hi Ni. rewrite coef_pmul, convol_comm, Hc by lia. unfold delta.
        destruct (Nat.eqb_spec (k - i) 0); [lia|ring]. }
    assert (HB : forall j, (n <= j <= m)%nat -> convol (rev qf) b j = coef a j).
    { intros j Hj. assert (E := convol_rev qf (rev b) j m).
      rewrite rev_involutive in E. rewrite E.
      - rewrite HQ by (unfold L, m, n in *; lia). rewrite coef_rev by (unfold m in *; lia). f_equal. unfold m in *; lia.
      - rewrite Lqf, rev_length. unfold L, m, n in *. lia.
      - lia. }
    exists (map (fun k => coef a k - convol (rev qf) b k) (seq 0 n)).
    split; [rewrite length_map_seq; unfold n; lia|]. intros k. rewrite coef_map_seq.
    destruct (Nat.ltb_spec k n); [ring|].
    destruct (Nat.le_gt_cases k m).
    + rewrite HB by lia. ring.
    + rewrite convol_over by (rewrite rev_length, Lqf; unfold L, m, n in *; lia).
      rewrite coef_over by (unfold m in *; lia). ring.
Qed.

Theorem mcl_fast_div_errors (a b : list K) : b = [] \/ coef b (length b - 1) = 0 -> mcl_fast_div pr5 a b = Err.
Proof.
  clear HT HT32. intros H. unfold mcl_fast_div. destruct (Nat.eqb_spec (length b) 0) as [|N]; auto.
  destruct H as [->|H]; [simpl in N; lia|]. rewrite (idx_ok b _ 0) by lia. cbn [bind].
  fold (coef b (length b - 1)). now rewrite H, feqb_refl.
Qed.

Theorem mcl_fast_long (a b : list K) : short (2 * length a) -> mcl_fast_div pr5 a b = mcl_long_division a b.
Proof.
  intros F. destruct b as [|y b0] eqn:Eb; [reflexivity|]. rewrite <- Eb in *.
  assert (Nb : b <> []) by (rewrite Eb; discriminate). clear Eb.
  destruct (feqb (coef b (length b - 1)) 0) eqn:Z.
  - apply feqb_spec in Z. rewrite mcl_fast_div_errors, mcl_long_division_errors by auto. reflexivity.
  - apply feqb_false in Z.
    destruct (mcl_long_division_spec a b Nb Z) as (q & -> & H).
    destruct (mcl_fast_div_spec a b) as (q' & -> & H'); auto.
    f_equal. eapply euclid_fun; eauto.
Qed.

Lemma coef_last (p : list K) : p <> [] -> coef p (length p - 1) = last p 0.
Proof.
  clear. intros H. destruct (exists_last H) as (l & x & ->).
  rewrite last_last, app_length. cbn [length]. unfold coef. rewrite app_nth2 by lia.
  replace (length l + 1 - 1 - length l)%nat with 0%nat by lia. reflexivity.
Qed.

(** division: zero coefficients at the top of the divisor do not matter *)
Theorem mcl_poly_div_spec (a b : list K) : short (2 * length a) ->
  ((forall i, coef b i = 0) -> mcl_poly_div pr5 a b = Err) /\
  ((exists i, coef b i <> 0) -> exists b' q, mcl_poly_div pr5 a b = Ok q /\
     (exists z, b = b' ++ repeat 0 z) /\ coef b' (length b' - 1) <> 0 /\ euclid a b' q).
Proof.
  intros F. unfold mcl_poly_div. rewrite !mcl_normalise_norm.
  destruct (poly_norm_spec a) as (a' & -> & _). destruct (poly_norm_spec b) as (b' & -> & (z & Ez) & Hb'). cbn [bind].
  assert (E : (if (length a' <=? length b')%nat || (length b' <? 128)%nat then mcl_long_division a b' else mcl_fast_div pr5 a b')
              = mcl_long_division a b').
  { destruct (_ || _); auto. now apply mcl_fast_long. }
  rewrite E. split.
  - intros H0. destruct Hb' as [->|Hb'].
    + apply mcl_long_division_errors. auto.
    + exfalso. apply Hb'. assert (Nb : b' <> []) by (intros ->; apply Hb'; reflexivity).
      rewrite <- coef_last by auto. specialize (H0 (length b' - 1)%nat). rewrite Ez, coef_app in H0.
      destruct (Nat.ltb_spec (length b' - 1) (length b')); auto. destruct b'; [congruence|simpl in *; lia].
  - intros (i & Hi). assert (Nb : b' <> []).
    { intros ->. apply Hi. rewrite Ez. cbn [app]. apply coef_repeat0. }
    destruct Hb' as [|Hb']; [contradiction|]. rewrite <- coef_last in Hb' by auto.
    destruct (mcl_long_division_spec a b' Nb Hb') as (q & Eq & Hq).
    exists b', q. repeat split; eauto; apply Hq.
Qed.
End P.
