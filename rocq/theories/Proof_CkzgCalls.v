(** * Proof_CkzgCalls: the functions of the ckzg crate around its calls *)
From Coq Require Import List Arith Bool ZArith NArith Lia.
From Verif Require Import Base Fld Zr Zp Spec_Scalar Model_Scalar Proof_Scalar2 Spec_Curve Model_Utils Model_Mcl Proof_Mcl Model_ZkConv Spec_ZkConv Model_Points Spec_Points Spec_G1 Spec_G2
  Proof_Points Proof_Curve Proof_G1Base Proof_G1Mul Proof_G1Sub Proof_G1Top Proof_ArkKZG Model_Ckzg Model_CkzgCalls Spec_CkzgCalls.
Import ListNotations.
Local Open Scope nat_scope.

Lemma repeat_nth {A} (x : A) n i : i < n -> nth_error (repeat x n) i = Some x.
Proof. revert i; induction n; intros [|i] H; cbn; try lia; auto. apply IHn. lia. Qed.
Lemma set_repeat {A} (x : A) n i : set (repeat x n) i x = repeat x n.
Proof. revert i; induction n; intros [|i]; cbn; auto. now rewrite IHn. Qed.
Lemma ckzg_data L g n : ckzg_make_data L g n = Ok (repeat g n).
Proof.
  unfold ckzg_make_data. destruct (Nat.eqb_spec n 0) as [->|N]; [reflexivity|].
  destruct (for_range_inv (fun _ l => l = repeat g n) (fun i out_val =>
    let* x := idx out_val i in let* y := idx out_val (i - 1) in let '(_, x) := ckzg_g1_add_or_dbl L x y in upd out_val i x) 1 n (repeat g n)) as (s' & E & ->); auto; [lia|].
  intros j t B ->. unfold idx. rewrite !repeat_nth by lia. cbn. unfold upd. rewrite repeat_length. rewrite (proj2 (Nat.ltb_lt j n)) by lia. rewrite set_repeat. eauto.
Qed.
Lemma lib_unique {T} {K : fld} (stands : T -> point K -> Prop) (L : point_lib T) a A B : lib_ok stands L -> stands a A -> stands a B -> A = B.
Proof. intros H HA HB. apply (ok_equal _ _ H a a A B HA HB). apply (ok_equal _ _ H a a A A HA HA). reflexivity. Qed.
Lemma gen_on : g1_on_curve g1_gen.
Proof. destruct points_case as (_ & (_ & (C & _) & _) & _). exact C. Qed.
Lemma gen_r : point_zmul r g1_gen = Infinity.
Proof. destruct points_case as (_ & (_ & (_ & C) & _) & _). exact C. Qed.
Lemma gen2_r : point_zmul r g2_gen = Infinity.
Proof. destruct points_case as (_ & _ & (_ & (_ & C) & _) & _). exact C. Qed.
Lemma gen_inf : g1_gen <> Infinity.
Proof. destruct points_case as (_ & (_ & _ & C) & _). exact C. Qed.
Lemma zmul_one {K : fld} (P : point K) : point_zmul 1 P = point_add P Infinity.
Proof. reflexivity. Qed.
Lemma add_inf_r {K : fld} (P : point K) : point_add P Infinity = P.
Proof. destruct P; reflexivity. Qed.
Lemma gen_step (n : Z) : point_add (point_zmul n g1_gen) g1_gen = point_zmul (n + 1) g1_gen.
Proof. rewrite (G1_ZADD n 1 g1_gen gen_on). rewrite zmul_one, add_inf_r. reflexivity. Qed.
Lemma gen_double_differs : point_zmul 2 g1_gen <> g1_gen.
Proof.
  intros E. apply gen_inf. pose proof (zmul_sub 2 1 g1_gen gen_on) as Z. rewrite E in Z. change (2 - 1)%Z with 1%Z in Z.
  rewrite zmul_one, add_inf_r in Z. rewrite Z. apply point_add_neg_r.
Qed.
Lemma ckzg_data_refuted L g n : lib_ok p1_stands L -> p1_stands g g1_gen -> 2 <= n ->
  exists l q, ckzg_make_data L g n = Ok l /\ nth_error l 1 = Some q /\ p1_stands q g1_gen /\ ~ p1_stands q (point_zmul 2 g1_gen).
Proof.
  intros HL Hg N. exists (repeat g n), g. split; [apply ckzg_data|]. split; [apply repeat_nth; lia|]. split; [exact Hg|].
  intros H. apply gen_double_differs. exact (lib_unique _ _ _ _ _ HL H Hg).
Qed.
Lemma mcl_gen_ok : p1_stands mcl_g1_generator g1_gen.
Proof. exact (proj1 mcl_from_words_refuted). Qed.
Lemma rev_last {A} (l : list A) : l <> [] -> exists x t, rev l = x :: t /\ nth_error l (length l - 1) = Some x.
Proof.
  intros N. destruct (exists_last N) as (t & x & ->). exists x, (rev t). rewrite rev_app_distr. split; [reflexivity|].
  rewrite app_length. cbn. rewrite Nat.add_sub. now rewrite nth_error_app2, Nat.sub_diag by lia.
Qed.
Lemma mcl_data L n : lib_ok p1_stands L ->
  exists l, mcl_make_data L n = Ok l /\ length l = n /\
    forall i, i < n -> exists q, nth_error l i = Some q /\ p1_stands q (point_zmul (Z.of_nat i + 1) g1_gen).
Proof.
  intros HL. unfold mcl_make_data. destruct (Nat.eqb_spec n 0) as [->|N].
  { exists []. split; [reflexivity|]. split; [reflexivity|]. intros; lia. }
  apply (for_range_inv (fun k l => length l = k /\ forall i, i < k -> exists q, nth_error l i = Some q /\ p1_stands q (point_zmul (Z.of_nat i + 1) g1_gen))); [lia| |].
  - split; [reflexivity|]. intros i Hi. replace i with 0 by lia. exists mcl_g1_generator. split; [reflexivity|].
    change (Z.of_nat 0 + 1)%Z with 1%Z. rewrite zmul_one, add_inf_r. exact mcl_gen_ok.
  - intros k l Hk (Hl & Hi). assert (Nl : l <> []) by (intros ->; cbn in Hl; lia). destruct (rev_last l Nl) as (x & t & -> & Ex).
    eexists. split; [reflexivity|]. split; [rewrite app_length; cbn; lia|]. intros i Hb. destruct (Nat.eq_dec i k) as [->|D].
    + eexists. split; [rewrite nth_error_app2 by lia; rewrite Hl, Nat.sub_diag; reflexivity|].
      destruct (Hi (k - 1)) as (q & Eq & Sq); [lia|]. rewrite Hl in Ex. rewrite Ex in Eq. apply (f_equal (fun o => match o with Some v => v | None => q end)) in Eq. subst x.
      replace (Z.of_nat (k - 1) + 1)%Z with (Z.of_nat k) in Sq by lia. rewrite <- gen_step. apply (ok_add _ _ HL); [exact Sq|exact mcl_gen_ok].
    + destruct (Hi i) as (q & Eq & Sq); [lia|]. exists q. split; [rewrite nth_error_app1 by lia; exact Eq|exact Sq].
Qed.

Lemma ckzg_setup L1 L2 F g1 g2 len secret : lib_ok p1_stands L1 -> lib_ok p2_stands L2 -> fr_lib_ok F -> p1_stands g1 g1_gen -> p2_stands g2 g2_gen ->
  is_bytes 32 secret ->
  exists s1 s2, ckzg_trusted_setup L1 L2 F g1 g2 len secret = Ok (s1, s2) /\ length s1 = len /\ length s2 = len /\
    forall i, i < len -> exists q1 q2, nth_error s1 i = Some q1 /\ nth_error s2 i = Some q2 /\
      p1_stands q1 (point_zmul (val (fpow (fr_of (bytes_val secret)) i)) g1_gen) /\ p2_stands q2 (point_zmul (val (fpow (fr_of (bytes_val secret)) i)) g2_gen).
Proof.
  intros H1 H2 HF S1 S2 Bs. unfold ckzg_trusted_setup. set (s := fr_of (bytes_val secret)).
  assert (Rs : represents (fl_from_scalar F secret) s) by (apply (fok_scalar _ HF); auto).
  destruct (for_range_inv (fun k (st : scalar * list blst_p1 * list blst_p2) => let '(sp, s1, s2) := st in represents sp (fpow s k) /\ length s1 = k /\ length s2 = k /\
    forall i, i < k -> exists q1 q2, nth_error s1 i = Some q1 /\ nth_error s2 i = Some q2 /\
      p1_stands q1 (point_zmul (val (fpow s i)) g1_gen) /\ p2_stands q2 (point_zmul (val (fpow s i)) g2_gen))
    (fun _ st => let '(s_pow, s1, s2) := st in
      Ok (fl_mul F s_pow (fl_from_scalar F secret), s1 ++ [ckzg_mul L1 g1 s_pow], s2 ++ [ckzg_mul L2 g2 s_pow])) 0 len (fl_from_u64 F 1%Z, [], [])) as (st & E & I); [lia| | |].
  - split; [exact (fok_one _ HF)|]. split; [reflexivity|]. split; [reflexivity|]. intros; lia.
  - intros k [[sp s1] s2] Hk (Rp & L1' & L2' & Hi). eexists. split; [reflexivity|]. cbv beta iota. split; [|split; [|split]].
    + rewrite <- (fpow_S_r s k). apply (fok_mul _ HF); auto.
    + rewrite app_length. cbn. lia.
    + rewrite app_length. cbn. lia.
    + intros i Hb. destruct (Nat.eq_dec i k) as [->|D].
      * exists (ckzg_mul L1 g1 sp), (ckzg_mul L2 g2 sp). split; [rewrite nth_error_app2 by lia; rewrite L1', Nat.sub_diag; reflexivity|].
        split; [rewrite nth_error_app2 by lia; rewrite L2', Nat.sub_diag; reflexivity|].
        split; [apply (ok_mul _ _ H1); [exact S1|exact gen_r|exact Rp]|apply (ok_mul _ _ H2); [exact S2|exact gen2_r|exact Rp]].
      * destruct (Hi i) as (q1 & q2 & E1 & E2 & P1 & P2); [lia|]. exists q1, q2.
        split; [rewrite nth_error_app1 by lia; exact E1|]. split; [rewrite nth_error_app1 by lia; exact E2|]. split; assumption.
  - destruct st as [[sp s1] s2]. destruct I as (_ & A & B & C). exists s1, s2. rewrite E. cbn [bind]. split; [reflexivity|]. auto.
Qed.

(** ** sizes *)
Lemma ckzg_next_eq checked x y : mcl_next_pow_of_2 x = Ok y -> ckzg_next_pow_of_2 checked x = Ok y.
Proof.
  unfold mcl_next_pow_of_2, ckzg_next_pow_of_2, mcl_is_power_of_2. destruct (x =? 0)%N; [auto|]. cbn [bind].
  destruct (N.land x (x - 1) =? 0)%N; [auto|]. destruct (64 <=? mcl_log_2 x + 1)%N; [discriminate|auto].
Qed.
Lemma log_pow m : (m <= 63)%N -> mcl_log_2 (2 ^ m) = m.
Proof.
  intros H. rewrite mcl_log_2_spec; [apply N.log2_pow2; lia|]. split; [apply N.neq_0_lt_0, N.pow_nonzero; lia|].
  apply N.pow_lt_mono_r; lia.
Qed.
Lemma product_scale checked a b len : (a < 2 ^ 62)%N -> (b < 2 ^ 62)%N -> (0 < N.min a len + N.min b len)%N ->
  exists k, ckzg_poly_mul_scale checked a b len = Ok (k, len) /\ least_scale (N.min a len + N.min b len - 1) k.
Proof.
  intros Ha Hb P. unfold ckzg_poly_mul_scale, minus_one. set (m := (N.min a len + N.min b len)%N) in *.
  assert (Bm : (m < 2 ^ 63)%N). { unfold m. replace (2 ^ 63)%N with (2 ^ 62 + 2 ^ 62)%N by reflexivity. lia. }
  destruct (N.eqb_spec m 0); [lia|]. cbn [bind].
  destruct (mcl_next_pow_spec (N.to_nat (m - 1))) as (k & E & U & Lo); [rewrite N2Nat.id; lia|]. rewrite N2Nat.id in E.
  rewrite (ckzg_next_eq checked _ _ E). cbn [bind].
  assert (Ek : N.of_nat (2 ^ k) = (2 ^ N.of_nat k)%N) by (rewrite Nat2N.inj_pow; reflexivity).
  assert (U' : (m - 1 <= 2 ^ N.of_nat k)%N) by (rewrite <- Ek; lia).
  assert (Lo' : k = 0 \/ (2 ^ (N.of_nat k - 1) < m - 1)%N).
  { destruct Lo as [->|Lo]; [auto|right]. assert (N.of_nat (2 ^ (k - 1)) < m - 1)%N by lia. rewrite Nat2N.inj_pow, Nat2N.inj_sub in H. exact H. }
  assert (K : (N.of_nat k <= 63)%N).
  { destruct Lo' as [->|Lo']; [cbn; lia|]. assert (N.of_nat k - 1 < 63)%N; [|lia]. apply (N.pow_lt_mono_r_iff 2); lia. }
  rewrite Ek, (log_pow _ K). exists (N.of_nat k). split; [reflexivity|]. split; [exact U'|]. intros j Hj.
  destruct Lo' as [->|Lo']; [cbn; lia|]. assert (N.of_nat k - 1 < j)%N; [|lia]. apply (N.pow_lt_mono_r_iff 2); lia.
Qed.
Lemma product_empty a b len : (N.min a len + N.min b len = 0)%N ->
  ckzg_poly_mul_scale true a b len = Panic /\ ckzg_poly_mul_scale false a b len = Ok (0%N, len).
Proof. intros E. unfold ckzg_poly_mul_scale, minus_one. rewrite E. split; vm_compute; reflexivity. Qed.

(** ** buffers *)
Section Buffers.
Context {A : Type}.
Lemma write_full (buf w : list A) : length w = length buf -> c_write buf w = Done w.
Proof. intros E. unfold c_write. rewrite E, Nat.leb_refl, skipn_all. now rewrite app_nil_r. Qed.
Lemma read_full (l : list A) : c_read l (length l) = Done l.
Proof. unfold c_read. rewrite Nat.leb_refl. now rewrite firstn_all. Qed.
Lemma fresh_full (d : A) n r : length (snd r) = n -> fresh_result d n r = Done (seen r).
Proof. intros E. unfold fresh_result. rewrite write_full by (rewrite repeat_length; auto). destruct r as [[] w]; reflexivity. Qed.
Lemma transforms (d null : A) data :
  (forall C inverse, length (snd (C data inverse)) = length data -> ckzg_fft C d data inverse = Done (seen (C data inverse))) /\
  (forall C, length (snd (C data)) = length data -> ckzg_das C data = Done (seen (C data))) /\
  (forall C samples, let given := map (fun s => match s with Some v => v | None => null end) samples in
     length (snd (C given)) = length samples -> ckzg_recover C null d samples = Done (seen (C given))) /\
  (forall r len, length (snd r) = 2 * len -> ckzg_data_availability r d len = Done (seen r)).
Proof.
  split; [|split; [|split]].
  - intros C i E. unfold ckzg_fft. rewrite read_full. cbn [obind]. apply fresh_full, E.
  - intros C E. unfold ckzg_das. rewrite read_full. cbn [obind]. rewrite write_full by exact E. destruct (C data) as [[] w]; reflexivity.
  - intros C samples given E. unfold ckzg_recover. fold given. replace (length samples) with (length given) by apply map_length. rewrite read_full. cbn [obind].
    apply fresh_full. rewrite E. symmetry. apply map_length.
  - intros r len E. apply fresh_full, E.
Qed.
Lemma too_much (d : A) data : forall C inverse, length data < length (snd (C data inverse)) -> ckzg_fft C d data inverse = Fault BadAccess.
Proof.
  intros C i H. unfold ckzg_fft. rewrite read_full. cbn [obind]. unfold fresh_result, c_write. rewrite repeat_length.
  rewrite (proj2 (Nat.leb_gt _ _) H). reflexivity.
Qed.
Lemma multi_length (d : A) w len chunk : length w * chunk = 2 * len -> 2 <= chunk -> 0 < len ->
  exists l, ckzg_data_availability (KzgOk, w) d len = Done (Some l) /\ length l = 2 * len /\ length w < length l /\
    firstn (length w) l = w /\ forall i, length w <= i < 2 * len -> nth_error l i = Some d.
Proof.
  intros E C P. assert (B : length w < 2 * len) by nia.
  unfold ckzg_data_availability, fresh_result, c_write. cbn [fst snd]. rewrite repeat_length, (proj2 (Nat.leb_le _ _)) by lia. cbn [obind].
  eexists. split; [reflexivity|]. assert (Ln : length (w ++ skipn (length w) (repeat d (2 * len))) = 2 * len) by (rewrite app_length, skipn_length, repeat_length; lia).
  split; [exact Ln|]. split; [lia|]. split; [rewrite firstn_app, firstn_all, Nat.sub_diag, firstn_O, app_nil_r; reflexivity|].
  intros i Hi. rewrite nth_error_app2 by lia.
  assert (Sk : skipn (length w) (repeat d (2 * len)) = repeat d (2 * len - length w)).
  { replace (2 * len) with (length w + (2 * len - length w)) at 1 by lia. rewrite repeat_app, skipn_app, skipn_all2 by (rewrite repeat_length; lia).
    rewrite repeat_length, Nat.sub_diag. reflexivity. }
  rewrite Sk. apply repeat_nth. lia.
Qed.
Lemma null_samples (null d : A) l l' C : same_samples null l l' -> ckzg_recover C null d l = ckzg_recover C null d l'.
Proof.
  intros H. unfold ckzg_recover.
  assert (E : map (fun s => match s with Some v => v | None => null end) l = map (fun s => match s with Some v => v | None => null end) l' /\ length l = length l').
  { induction H as [|a b l l' Hab _ (IH & IL)]; [auto|]. cbn. rewrite IL. split; [|reflexivity]. rewrite IH. f_equal.
    destruct Hab as [->|[(-> & ->)|(-> & ->)]]; reflexivity. }
  destruct E as (-> & ->). reflexivity.
Qed.
Lemma check_multi (C : list A -> kzg_ret * bool) values n :
  (n <= length values -> ckzg_check_proof_multi C values n = Done (seen (C (firstn n values)))) /\
  (length values < n -> ckzg_check_proof_multi C values n = Fault BadAccess).
Proof.
  unfold ckzg_check_proof_multi, c_read. split; intros H; [rewrite (proj2 (Nat.leb_le _ _) H)|rewrite (proj2 (Nat.leb_gt _ _) H)]; cbn [obind]; [|reflexivity].
  destruct (C (firstn n values)) as [[] w]; reflexivity.
Qed.
Lemma bound_transforms (C : list A -> list A) n : (forall l, length (C l) = n) -> forall ret data stride,
  (n <= length ret -> (n - 1) * stride < length data ->
     exists l, ckzg_bound_fft_g1 C ret data stride n = Done l /\ length l = length ret /\ firstn n l = C (firstn ((n - 1) * stride + 1) data) /\ skipn n l = skipn n ret) /\
  (length ret < n \/ length data <= (n - 1) * stride -> ckzg_bound_fft_g1 C ret data stride n = Fault BadAccess).
Proof.
  intros HC ret data stride. unfold ckzg_bound_fft_g1, c_read, c_write. split.
  - intros H1 H2. rewrite (proj2 (Nat.leb_le ((n - 1) * stride + 1) _)) by lia. cbn [obind]. rewrite HC, (proj2 (Nat.leb_le _ _) H1).
    set (w := C (firstn ((n - 1) * stride + 1) data)). assert (Hw : length w = n) by apply HC. eexists. split; [reflexivity|].
    split; [rewrite app_length, skipn_length; lia|]. split.
    + rewrite firstn_app, <- Hw, firstn_all, Nat.sub_diag, firstn_O, app_nil_r. reflexivity.
    + rewrite skipn_app, <- Hw, skipn_all, Nat.sub_diag. reflexivity.
  - intros [H|H].
    + destruct ((n - 1) * stride + 1 <=? length data); [|reflexivity]. cbn [obind]. rewrite HC, (proj2 (Nat.leb_gt _ _) H). reflexivity.
    + rewrite (proj2 (Nat.leb_gt _ _)) by lia. reflexivity.
Qed.
Lemma fixed_size (C : list A -> list A) : (forall l, length (C l) = 4096) -> forall ret data stride,
  length ret < 4096 \/ length data <= 4095 * stride -> ckzg_bound_fft_fr C ret data stride = Fault BadAccess.
Proof. intros HC ret data stride. exact (proj2 (bound_transforms C 4096 HC ret data stride)). Qed.
End Buffers.

(** ** libraries for the examples *)
Definition case_fr : fr_lib := FrLib from_u64 mul (fun bs => from_bytes_wide (bs ++ repeat 0%Z 32)).
Lemma case_fr_ok : fr_lib_ok case_fr.
Proof.
  constructor; cbn [case_fr fl_from_u64 fl_mul fl_from_scalar].
  - assert (E : from_u64 1 = one) by (vm_compute; reflexivity). rewrite E. exact (proj2 (represents_rep one f1) rep_one).
  - intros a b x y A B. exact (proj2 (represents_rep _ _) (rep_mul _ _ _ _ (proj1 (represents_rep _ _) A) (proj1 (represents_rep _ _) B))).
  - intros bs (Lb & Fb). assert (E : bytes_val (bs ++ repeat 0%Z 32) = bytes_val bs).
    { rewrite bytes_val_app. replace (bytes_val (repeat 0%Z 32)) with 0%Z by reflexivity. lia. }
    rewrite <- E. refine (proj2 (represents_rep _ _) (from_bytes_wide_spec _ _)).
    split; [rewrite app_length, Lb; reflexivity|]. apply Forall_app. split; [exact Fb|]. apply Forall_forall. intros x Hx. apply repeat_spec in Hx. subst. lia.
Qed.
Lemma calls_case : lib_ok p1_stands blst_lib1 /\ lib_ok p2_stands blst_lib2 /\ fr_lib_ok case_fr /\
  p1_stands ark_g1_generator g1_gen /\ p2_stands ark_g2_generator g2_gen /\ is_bytes 32 (7%Z :: repeat 0%Z 31) /\ bytes_val (7%Z :: repeat 0%Z 31) = 7%Z.
Proof.
  destruct points_case as ((A & B & _) & (C & _) & (D & _) & _). split; [exact A|]. split; [exact B|]. split; [exact case_fr_ok|]. split; [exact C|]. split; [exact D|].
  split; [|reflexivity]. split; [reflexivity|]. constructor; [lia|]. apply Forall_forall. intros x Hx. apply repeat_spec in Hx. subst. lia.
Qed.
