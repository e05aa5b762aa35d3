(** * Proof_G2Enc: scalar multiplication, the subgroup test and the encodings of the second group *)
From Coq Require Import ZArith List Bool Lia.
From Verif Require Import Base Fld Zr Zp Spec_Scalar Model_Scalar Proof_Scalar Spec_Fp Spec_Curve Model_Fp Model_Curve Model_G1
  Proof_FpRep Proof_FpTop Spec_CurveCode Proof_Curve Proof_CurveCode Group Proof_CurveMul Proof_G1Base Proof_GLV Proof_Recode Proof_G1Sub Proof_G1Thm Proof_G1Enc
  Model_Fp2 Model_G2 Tower Ext Spec_Ext Proof_Fp2 Spec_G2 Proof_G2Base.
Import ListNotations.
Local Open Scope Z_scope.

(** ** multiplication *)
Lemma byte_bits c acc : 0 <= c < 256 -> msb_val acc (map (fun i => Z.testbit c (Z.of_nat i)) (rev (seq 0 8))) = 256 * acc + c.
Proof.
  intros H.
  assert (G : forall acc, msb_val acc (map (fun i => Z.testbit c (Z.of_nat i)) (rev (seq 0 8))) = 256 * acc + msb_val 0 (map (fun i => Z.testbit c (Z.of_nat i)) (rev (seq 0 8)))).
  { intros a. cbn [seq rev app map msb_val]. ring. }
  rewrite G. f_equal. apply Z.eqb_eq.
  apply (check_range (fun c => msb_val 0 (map (fun i => Z.testbit c (Z.of_nat i)) (rev (seq 0 8))) =? c) 0 256); [vm_compute; reflexivity|lia].
Qed.
Lemma msb_val_app l1 : forall l2 acc, msb_val acc (l1 ++ l2) = msb_val (msb_val acc l1) l2.
Proof. induction l1 as [|c l1 IH]; intros l2 acc; cbn [app msb_val]; [reflexivity|apply IH]. Qed.
Lemma bits_msb_app a l : bits_msb (l ++ [a]) = map (fun i => Z.testbit a (Z.of_nat i)) (rev (seq 0 8)) ++ bits_msb l.
Proof. unfold bits_msb. rewrite rev_app_distr. reflexivity. Qed.
Lemma bits_msb_val bs : Forall (fun c => 0 <= c < 256) bs -> forall acc, msb_val acc (bits_msb bs) = 256 ^ Z.of_nat (length bs) * acc + bytes_val bs.
Proof.
  induction bs as [|a t IH] using rev_ind; intros F acc.
  - cbn [bits_msb rev flat_map msb_val length bytes_val]. change (256 ^ Z.of_nat 0) with 1. rewrite Z.mul_1_l. symmetry. apply Z.add_0_r.
  - apply Forall_app in F. destruct F as [Ft Fa]. pose proof (Forall_inv Fa) as A. cbv beta in A.
    rewrite bits_msb_app, msb_val_app, IH by exact Ft. rewrite byte_bits by exact A.
    assert (V : bytes_val (t ++ [a]) = bytes_val t + 256 ^ Z.of_nat (length t) * a).
    { clear. induction t as [|c t IH]; cbn [app bytes_val length].
      - change (256 ^ Z.of_nat 0) with 1. lia.
      - rewrite IH. rewrite Nat2Z.inj_succ, Z.pow_succ_r by lia. ring. }
    rewrite V, app_length. cbn [length]. rewrite Nat.add_1_r, Nat2Z.inj_succ, Z.pow_succ_r by lia. ring.
Qed.
(** the first bit is skipped *)
Lemma bits_length bs : length (bits_msb bs) = (8 * length bs)%nat.
Proof.
  unfold bits_msb. rewrite <- (rev_length bs). induction (rev bs) as [|c l IH]; [reflexivity|].
  cbn [flat_map length]. rewrite app_length, IH, map_length, rev_length, seq_length. lia.
Qed.
Lemma msb_val_shift l : forall acc, msb_val acc l = 2 ^ Z.of_nat (length l) * acc + msb_val 0 l.
Proof.
  induction l as [|c l IH]; intros acc; cbn [msb_val length].
  - change (2 ^ Z.of_nat 0) with 1. lia.
  - rewrite IH, (IH (2 * 0 + _)). rewrite Nat2Z.inj_succ, Z.pow_succ_r by lia. ring.
Qed.
Lemma msb_val_range l : 0 <= msb_val 0 l < 2 ^ Z.of_nat (length l).
Proof.
  induction l as [|c l IH]; cbn [msb_val length]; [change (2 ^ Z.of_nat 0) with 1; lia|].
  rewrite msb_val_shift, Nat2Z.inj_succ, Z.pow_succ_r by lia. destruct c; lia.
Qed.
Lemma skip_first bs : is_bytes 32 bs -> msb_val 0 (skipn 1 (bits_msb bs)) = bytes_val bs mod 2 ^ 255.
Proof.
  intros [L F]. pose proof (bits_msb_val bs F 0) as V. rewrite Z.mul_0_r, Z.add_0_l in V.
  pose proof (bits_length bs) as B. rewrite L in B. destruct (bits_msb bs) as [|c l]; [discriminate B|].
  cbn [skipn]. cbn [length] in B. injection B as B. cbn [msb_val] in V. rewrite msb_val_shift, B in V.
  pose proof (msb_val_range l) as R. rewrite B in R. change (Z.of_nat 255) with 255 in V, R.
  rewrite <- V. rewrite Z.add_comm, Z.mul_comm, Z.mod_add by discriminate. symmetry. apply Z.mod_small. exact R.
Qed.
Theorem multiply2_ok p P by_ : pstands2 p P -> is_bytes 32 by_ -> pstands2 (g2_multiply p by_) (point_zmul (bytes_val by_ mod 2 ^ 255) P).
Proof.
  intros H B. pose proof (proj_multiply_bits_ok fp2_ops_ok Fp2_two Fp2_NoTwo p P by_ H) as M. rewrite (skip_first by_ B) in M. exact M.
Qed.
Theorem torsion_free2_ok q P : astands2 q P -> (g2_is_torsion_free q = true <-> point_zmul r P = Infinity).
Proof.
  intros H. apply (Proof_CurveCode.proj_from_aff_ok fp2_ops_ok) in H.
  destruct r_bytes as [B V]. pose proof (multiply2_ok _ _ _ H B) as M. rewrite V in M.
  rewrite Z.mod_small in M by (split; [discriminate|reflexivity]).
  unfold g2_is_torsion_free. exact (proj_is_identity_ok fp2_ops_ok _ _ M).
Qed.

(** ** pairs as integers *)
Lemma val2_range (x : Fp2) : 0 <= val2 x < 2 ^ 765.
Proof.
  unfold val2. pose proof (pval_381 (q1 x)) as A. pose proof (pval_384 (q0 x)) as B.
  assert (E : 2 ^ 765 = 2 ^ 381 * 2 ^ 384) by reflexivity. rewrite E. set (u := 2 ^ 384) in *. set (w := 2 ^ 381) in *. nia.
Qed.
Lemma val2_inj (x y : Fp2) : val2 x = val2 y -> x = y.
Proof.
  destruct x as [x0 x1], y as [y0 y1]. unfold val2. cbn [q0 q1]. intros E.
  pose proof (pval_384 x0) as A. pose proof (pval_384 y0) as B. set (u := 2 ^ 384) in *.
  assert (H : pval x1 = pval y1) by nia. assert (H' : pval x0 = pval y0) by nia.
  apply Proof_Fp2.pval_inj in H. apply Proof_Fp2.pval_inj in H'. rewrite H, H'. reflexivity.
Qed.
Lemma val2_0 : val2 f0 = 0. Proof. reflexivity. Qed.
Lemma lex2_ok s x : rep2 s x -> fp2_lexicographically_largest s = (val2 (fneg x) <? val2 x).
Proof.
  intros R. pose proof (rep2_lexicographic s x R) as L. unfold val2.
  pose proof (pval_384 (q0 x)) as A. pose proof (pval_384 (q0 (fneg x))) as B.
  set (n := fneg x) in *. clearbody n. set (u := 2 ^ 384) in *. clearbody u.
  destruct (fp2_lexicographically_largest s), (Z.ltb_spec (pval (q1 n) * u + pval (q0 n)) (pval (q1 x) * u + pval (q0 x))) as [H|H]; try reflexivity.
  - exfalso. destruct L as [L _]. destruct (L eq_refl) as [L1|[E L1]]; [nia|]. rewrite E in H. lia.
  - exfalso. destruct L as [_ L]. assert (Q : pval (q1 n) < pval (q1 x) \/ (q1 n = q1 x /\ pval (q0 n) < pval (q0 x))).
    { assert (Hq : pval (q1 n) < pval (q1 x) \/ (pval (q1 n) = pval (q1 x) /\ pval (q0 n) < pval (q0 x))) by nia.
      destruct Hq as [Hq|[Hq Hr]]; [left; exact Hq|right; split; [apply Proof_Fp2.pval_inj; exact Hq|exact Hr]]. }
    specialize (L Q). discriminate L.
Qed.
Section Neg.
Context {K : fld}.
Add Field KF5 : (fld_field K).
Lemma neg_same (y : K) : fadd f1 f1 <> (f0 : K) -> fneg y = y -> y = f0.
Proof.
  intros N E. apply (cancel_l (fadd f1 f1)); [exact N|]. transitivity (fsub y (fneg y)); [ring|]. rewrite E. ring.
Qed.
Lemma neg_twice (y : K) : fneg (fneg y) = y. Proof. ring. Qed.
End Neg.
Lemma larger2_neg (y : Fp2) : y <> f0 -> (val2 (fneg y) <? val2 y) = negb (val2 (fneg (fneg y)) <? val2 (fneg y)).
Proof.
  intros N. rewrite (neg_twice (K:=Fp2) y).
  assert (D : val2 (fneg y) <> val2 y) by (intros E; apply N, (neg_same (K:=Fp2) y Fp2_two), val2_inj; exact E).
  destruct (Z.ltb_spec (val2 (fneg y)) (val2 y)), (Z.ltb_spec (val2 y) (val2 (fneg y))); cbn [negb]; lia.
Qed.
Lemma curve2_y x y : on_curve bq (Affine x y) -> y <> f0.
Proof. intros C. exact (Proof_Curve.curve_y bq Fp2_NoTwo x y C). Qed.

(** ** writing *)
Lemma fp2_bytes_first s x : rep2 s x -> exists a t, fp_to_bytes (fp2_c1 s) ++ fp_to_bytes (fp2_c0 s) = a :: t /\ 0 <= a < 32 /\ length t = 95%nat /\
  Forall (fun b => 0 <= b < 256) t /\ 256 ^ 95 * a + be_val t = val2 x.
Proof.
  intros [R0 R1]. destruct (fp_bytes_first _ _ R1) as (a & t & E & A & L & F & V). destruct (fp_to_bytes_spec _ _ R0) as [[L' F'] V'].
  exists a, (t ++ fp_to_bytes (fp2_c0 s)). rewrite E. split; [reflexivity|]. split; [exact A|].
  split; [rewrite app_length, L, L'; reflexivity|]. split; [apply Forall_app; split; assumption|].
  rewrite be_val_app, L', V'. unfold val2. rewrite <- V. change (256 ^ Z.of_nat 48) with (2 ^ 384). change (256 ^ 95) with (256 ^ 47 * 2 ^ 384). ring.
Qed.
Lemma rep2_select_if s t x y (i : bool) : rep2 s x -> rep2 t y -> rep2 (fp2_select s t i) (if i then y else x).
Proof. apply rep2_select. Qed.
Theorem to_compressed2_ok q P : astands2 q P -> is_bytes 96 (g2_to_compressed q) /\ be_val (g2_to_compressed q) = compressed_val2 P.
Proof.
  destruct q as [x y i]. intros (X & Y & RX & RY & C & S). unfold g2_to_compressed. cbv zeta.
  pose proof (rep2_select_if x fp2_zero X f0 i RX rep2_zero) as RS.
  destruct (fp2_bytes_first _ _ RS) as (a & t & E & A & L & F & V). rewrite E. cbn [or_first].
  rewrite !select_b2. destruct (lors_ok a i (negb i && fp2_lexicographically_largest y) A) as [O _]. rewrite O.
  split.
  - split; [cbn [length]; rewrite L; reflexivity|]. constructor; [|exact F].
    destruct i, (fp2_lexicographically_largest y); cbn [b2 negb andb]; lia.
  - rewrite be_val_cons, L. change (256 ^ Z.of_nat 95) with (256 ^ 95).
    replace (256 ^ 95 * (a + 128 + b2 i 64 + b2 (negb i && fp2_lexicographically_largest y) 32) + be_val t)
      with ((256 ^ 95 * a + be_val t) + 256 ^ 95 * (128 + b2 i 64 + b2 (negb i && fp2_lexicographically_largest y) 32)) by ring.
    rewrite V. destruct i.
    + destruct S as (_ & _ & ->). cbn [negb andb b2 compressed_val2]. rewrite val2_0. reflexivity.
    + subst P. cbn [negb andb compressed_val2]. rewrite (lex2_ok y Y RY).
      destruct (val2 (fneg Y) <? val2 Y); cbn [b2].
      * change (256 ^ 95 * (128 + 0 + 32)) with (2 ^ 767 + 2 ^ 765). lia.
      * change (256 ^ 95 * (128 + 0 + 0)) with (2 ^ 767 + 0). lia.
Qed.
Theorem to_uncompressed2_ok q P : astands2 q P -> is_bytes 192 (g2_to_uncompressed q) /\ be_val (g2_to_uncompressed q) = uncompressed_val2 P.
Proof.
  destruct q as [x y i]. intros (X & Y & RX & RY & C & S). unfold g2_to_uncompressed. cbv zeta.
  pose proof (rep2_select_if x fp2_zero X f0 i RX rep2_zero) as RS.
  pose proof (rep2_select_if y fp2_zero Y f0 i RY rep2_zero) as RT.
  destruct (fp2_bytes_first _ _ RS) as (a & t & E & A & L & F & V). rewrite app_assoc, E.
  destruct (fp2_bytes_first _ _ RT) as (a' & t' & E' & A' & L' & F' & V'). rewrite E'. cbn [app or_first].
  rewrite !select_b2. destruct (lors_ok a i false A) as [_ O]. rewrite O. split.
  - split; [cbn [length]; rewrite app_length; cbn [length]; rewrite L, L'; reflexivity|]. constructor; [|apply Forall_app; split; [exact F|constructor; [lia|exact F']]].
    destruct i; cbn [b2]; lia.
  - rewrite be_val_cons, app_length, be_val_app, be_val_cons. cbn [length]. rewrite L, L'.
    change (256 ^ Z.of_nat (95 + 96)) with (256 ^ 95 * 2 ^ 768). change (256 ^ Z.of_nat 96) with (2 ^ 768). change (256 ^ Z.of_nat 95) with (256 ^ 95).
    replace (256 ^ 95 * 2 ^ 768 * (a + b2 i 64) + (2 ^ 768 * be_val t + (256 ^ 95 * a' + be_val t')))
      with (2 ^ 768 * (256 ^ 95 * a + be_val t) + 2 ^ 768 * 256 ^ 95 * b2 i 64 + (256 ^ 95 * a' + be_val t')) by ring.
    rewrite V, V'. destruct i.
    + destruct S as (_ & _ & ->). cbn [b2 uncompressed_val2]. rewrite val2_0. reflexivity.
    + subst P. cbn [b2 uncompressed_val2]. ring.
Qed.

(** ** reading *)
Lemma flags_uniq q c i s m c' i' s' m' : 0 <= m < q -> 0 <= m' < q ->
  b2 c (4 * q) + b2 i (2 * q) + b2 s q + m = b2 c' (4 * q) + b2 i' (2 * q) + b2 s' q + m' -> c = c' /\ i = i' /\ s = s' /\ m = m'.
Proof.
  intros M M' E. destruct c, i, s, c', i', s'; cbn [b2] in E; try (repeat split; lia); exfalso; lia.
Qed.
Lemma is_bytes_app n k bs : is_bytes (n + k) bs -> is_bytes n (firstn n bs) /\ is_bytes k (skipn n bs) /\
  be_val bs = 256 ^ Z.of_nat k * be_val (firstn n bs) + be_val (skipn n bs).
Proof.
  intros [L F]. rewrite <- (firstn_skipn n bs) in F. apply Forall_app in F. destruct F as [F1 F2].
  assert (L1 : length (firstn n bs) = n) by (rewrite firstn_length, L; apply Nat.min_l; lia).
  assert (L2 : length (skipn n bs) = k) by (rewrite skipn_length, L; lia).
  split; [split; assumption|]. split; [split; assumption|].
  rewrite <- (firstn_skipn n bs) at 1. rewrite be_val_app, L2. reflexivity.
Qed.
Lemma skipn_skipn' {A} a c : forall l : list A, skipn a (skipn c l) = skipn (c + a) l.
Proof.
  induction c as [|c IH]; intros l; [reflexivity|]. destruct l as [|x l]; [now rewrite !skipn_nil|]. cbn [skipn Nat.add]. apply IH.
Qed.
Lemma skip_bytes n k bs : is_bytes (n + k) bs -> is_bytes k (skipn n bs).
Proof. intros B. exact (proj1 (proj2 (is_bytes_app n k bs B))). Qed.
Lemma take_bytes n k bs : is_bytes (n + k) bs -> is_bytes n (firstn n bs).
Proof. intros B. exact (proj1 (is_bytes_app n k bs B)). Qed.
Lemma firstn_all' n bs : is_bytes n bs -> firstn n bs = bs.
Proof. intros [L _]. rewrite <- L. apply firstn_all. Qed.
(** a pair of field elements, the first byte masked *)
Definition low (bs : list Z) (j : nat) : Z := be_val (mask_first (chunk48 j bs)) * 2 ^ 384 + be_val (chunk48 (S j) bs).
Definition pair_val (bs : list Z) (j : nat) : Z := be_val (chunk48 j bs) * 2 ^ 384 + be_val (chunk48 (S j) bs).
Lemma read_pair c d : is_bytes 48 c -> is_bytes 48 d ->
  match fp_from_bytes c, fp_from_bytes d with
  | Some s1, Some s0 => exists X, rep2 (FP2 s0 s1) X /\ val2 X = be_val c * 2 ^ 384 + be_val d
  | _, _ => forall X : Fp2, val2 X <> be_val c * 2 ^ 384 + be_val d
  end.
Proof.
  intros B1 B2. pose proof (from_bytes_some c B1) as D1. pose proof (from_bytes_some d B2) as D2.
  pose proof (be_val_range _ (proj2 B2)) as RD. rewrite (proj1 B2) in RD. change (256 ^ Z.of_nat 48) with (2 ^ 384) in RD.
  assert (SP : forall X : Fp2, val2 X = be_val c * 2 ^ 384 + be_val d -> pval (q1 X) = be_val c /\ pval (q0 X) = be_val d).
  { intros X E. unfold val2 in E. pose proof (pval_384 (q0 X)) as A. set (u := 2 ^ 384) in *. assert (pval (q1 X) = be_val c) by nia. split; [assumption|nia]. }
  destruct (fp_from_bytes c) as [s1|].
  2: { intros X E. destruct (SP X E) as [E1 _]. exact (D1 _ E1). }
  destruct (fp_from_bytes d) as [s0|].
  2: { intros X E. destruct (SP X E) as [_ E0]. exact (D2 _ E0). }
  destruct D1 as (x1 & R1 & V1), D2 as (x0 & R0 & V0). exists (Quad x0 x1). split; [split; assumption|].
  unfold val2. cbn [q0 q1]. rewrite V0, V1. reflexivity.
Qed.
Lemma low_flags bs : is_bytes 96 bs -> is_bytes 48 (mask_first (chunk48 0 bs)) /\ is_bytes 48 (chunk48 1 bs) /\
  0 <= low bs 0 < 2 ^ 765 /\ be_val bs = b2 (flag bs 7) (4 * 2 ^ 765) + b2 (flag bs 6) (2 * 2 ^ 765) + b2 (flag bs 5) (2 ^ 765) + low bs 0.
Proof.
  intros B. destruct (is_bytes_app 48 48 bs B) as (B1 & B2 & V). change (firstn 48 bs) with (chunk48 0 bs) in *.
  assert (E1 : skipn 48 bs = chunk48 1 bs) by (unfold chunk48; symmetry; apply firstn_all'; exact B2). rewrite E1 in *.
  destruct (mask_ok 47 _ B1) as (BM & R & VM).
  assert (FL : forall n, flag bs n = flag (chunk48 0 bs) n) by (intros n; destruct bs as [|a t]; reflexivity).
  pose proof (be_val_range _ (proj2 B2)) as RD. rewrite (proj1 B2) in RD. change (256 ^ Z.of_nat 48) with (2 ^ 384) in *.
  split; [exact BM|]. split; [exact B2|]. unfold low.
  assert (P5 : 256 ^ Z.of_nat 47 * 32 * 2 ^ 384 = 2 ^ 765) by reflexivity.
  set (h := 256 ^ Z.of_nat 47) in *. set (u := 2 ^ 384) in *. rewrite <- P5. split; [nia|].
  rewrite V, VM, <- !FL. destruct (flag bs 7), (flag bs 6), (flag bs 5); cbn [b2]; ring.
Qed.
Definition cflags2 (P : point Fp2) : bool * bool * bool * Z :=
  match P with Infinity => (true, true, false, 0) | Affine x y => (true, false, val2 (fneg y) <? val2 y, val2 x) end.
Lemma compressed_flags2 P : let '(c, i, s, m) := cflags2 P in
  compressed_val2 P = b2 c (4 * 2 ^ 765) + b2 i (2 * 2 ^ 765) + b2 s (2 ^ 765) + m /\ 0 <= m < 2 ^ 765.
Proof.
  destruct P as [|x y]; cbn [cflags2 compressed_val2 b2].
  - split; [reflexivity|]. split; [discriminate|reflexivity].
  - split; [|apply val2_range]. change (4 * 2 ^ 765) with (2 ^ 767). destruct (val2 (fneg y) <? val2 y); cbn [b2]; ring.
Qed.
Lemma compressed_match2 bs P : is_bytes 96 bs -> compressed_val2 P = be_val bs ->
  cflags2 P = (flag bs 7, flag bs 6, flag bs 5, low bs 0).
Proof.
  intros B E. destruct (low_flags bs B) as (_ & _ & R & V).
  pose proof (compressed_flags2 P) as F. destruct (cflags2 P) as [[[c i] s] m]. destruct F as [F M].
  rewrite F, V in E. destruct (flags_uniq _ _ _ _ _ _ _ _ _ M R E) as (-> & -> & -> & ->). reflexivity.
Qed.
Lemma compressed_join2 bs P : is_bytes 96 bs -> cflags2 P = (flag bs 7, flag bs 6, flag bs 5, low bs 0) -> compressed_val2 P = be_val bs.
Proof.
  intros B E. destruct (low_flags bs B) as (_ & _ & R & V).
  pose proof (compressed_flags2 P) as F. rewrite E in F. destruct F as [F M]. rewrite F, V. reflexivity.
Qed.
Lemma chosen_y2 y s (Y : Fp2) : rep2 y Y -> Y <> f0 ->
  exists Y', rep2 (fp2_select y (fp2_neg y) (xorb (fp2_lexicographically_largest y) s)) Y' /\
    (Y' = Y \/ Y' = fneg Y) /\ (val2 (fneg Y') <? val2 Y') = s.
Proof.
  intros R N. rewrite (lex2_ok y Y R). pose proof (larger2_neg Y N) as L.
  exists (if xorb (val2 (fneg Y) <? val2 Y) s then fneg Y else Y).
  split; [apply rep2_select; [exact R|apply rep2_neg; exact R]|].
  destruct (val2 (fneg Y) <? val2 Y) eqn:E, s; cbn [xorb]; (split; [auto|]); try exact E;
    destruct (val2 (fneg (fneg Y)) <? val2 (fneg Y)); cbn [negb] in L; congruence.
Qed.
Lemma rep2_rhs x X : rep2 x X -> rep2 (fp2_add (fp2_mul (fp2_square x) x) g2_B) (fadd (fmul (fmul X X) X) bq).
Proof.
  intros R. apply rep2_add; [|exact rep2_B]. apply rep2_mul; [apply rep2_square; exact R|exact R].
Qed.
Lemma is_zero2_ok s x : rep2 s x -> (fp2_is_zero s = true <-> x = f0).
Proof. intros R. rewrite (rep2_is_zero s x R). apply feqb_spec. Qed.
Lemma val2_zero_eq (x : Fp2) : val2 x = 0 -> x = f0.
Proof. intros E. apply val2_inj. rewrite E. reflexivity. Qed.
Lemma sqrt2_some a (y : Fp2) s : rep2 a y -> fp2_sqrt a = Some s -> exists z : Fp2, rep2 s z /\ fmul z z = y.
Proof. intros A E. exact (proj2 (fp2_sqrt_all a y A) s E). Qed.
Theorem from_compressed_unchecked2_ok bs : is_bytes 96 bs ->
  match g2_from_compressed_unchecked bs with
  | Some q => exists P, astands2 q P /\ compressed_val2 P = be_val bs
  | None => forall P, on_curve bq P -> compressed_val2 P <> be_val bs
  end.
Proof.
  intros B. destruct (low_flags bs B) as (B1 & B2 & _ & _). unfold g2_from_compressed_unchecked. cbv zeta.
  pose proof (read_pair _ _ B1 B2) as D. fold (low bs 0) in D.
  assert (NC : (forall X : Fp2, val2 X <> low bs 0) -> forall P, on_curve bq P -> compressed_val2 P <> be_val bs).
  { intros N P C E. apply (compressed_match2 bs _ B) in E. destruct P as [|a c]; cbn [cflags2] in E; injection E as E1 E2 E3 E4.
    - apply (N f0). rewrite <- E4. reflexivity.
    - exact (N a E4). }
  destruct (fp_from_bytes (mask_first (chunk48 0 bs))) as [x1|]; [|exact (NC D)].
  destruct (fp_from_bytes (chunk48 1 bs)) as [x0|]; [|exact (NC D)]. clear NC.
  destruct D as (X & RX & VX). set (x := FP2 x0 x1) in *.
  pose proof (is_zero2_ok x X RX) as ZX.
  destruct (flag bs 6 && flag bs 7 && negb (flag bs 5) && fp2_is_zero x) eqn:FI.
  + apply andb_prop in FI. destruct FI as [FI F0]. apply andb_prop in FI. destruct FI as [FI FS].
    apply andb_prop in FI. destruct FI as [FI FC]. apply negb_true_iff in FS.
    exists Infinity. split; [apply (aff_identity_ok fp2_ops_ok)|]. apply compressed_join2; [exact B|].
    rewrite FC, FI, FS. cbn [cflags2]. rewrite <- VX. rewrite (proj1 ZX F0). reflexivity.
  + pose proof (fp2_sqrt_spec _ _ (rep2_rhs x X RX)) as [S1 S2].
    assert (NI : forall P, compressed_val2 P = be_val bs -> P <> Infinity).
    { intros P E ->. apply (compressed_match2 bs _ B) in E. cbn [cflags2] in E. injection E as E1 E2 E3 E4.
      rewrite <- E1, <- E2, <- E3 in FI. cbn [andb negb] in FI.
      assert (fp2_is_zero x = true) by (apply ZX; apply val2_zero_eq; rewrite VX, <- E4; reflexivity). congruence. }
    destruct (fp2_sqrt (fp2_add (fp2_mul (fp2_square x) x) g2_B)) as [y|] eqn:SQ.
    * assert (EX : exists Y, rep2 y Y /\ fmul Y Y = fadd (fmul (fmul X X) X) bq).
      { exact (sqrt2_some _ _ _ (rep2_rhs x X RX) SQ). }
      destruct EX as (Y & RY & CY).
      destruct (chosen_y2 y (flag bs 5) Y RY (curve2_y X Y CY)) as (Y' & RY' & YY & LY).
      assert (CY' : on_curve bq (Affine X Y')).
      { cbn [on_curve]. destruct YY as [-> | ->]; [exact CY|]. rewrite neg_square. exact CY. }
      destruct (negb (flag bs 6) && flag bs 7) eqn:FB.
      -- apply andb_prop in FB. destruct FB as [FB FC]. apply negb_true_iff in FB.
         exists (Affine X Y'). rewrite FB. split.
         ++ exists X, Y'. split; [exact RX|]. split; [exact RY'|]. split; [exact CY'|reflexivity].
         ++ apply compressed_join2; [exact B|]. cbn [cflags2]. rewrite LY, FC, FB, VX. reflexivity.
      -- intros P C E. pose proof (NI P E) as NP. destruct P as [|a c]; [contradiction|].
         apply (compressed_match2 bs _ B) in E. cbn [cflags2] in E. injection E as E1 E2 E3 E4.
         rewrite <- E1, <- E2 in FB. discriminate FB.
    * intros P C E. pose proof (NI P E) as NP. destruct P as [|a c]; [contradiction|].
      apply (compressed_match2 bs _ B) in E. cbn [cflags2] in E. injection E as E1 E2 E3 E4.
      assert (a = X) by (apply val2_inj; rewrite E4; symmetry; exact VX). subst a.
      destruct (S1 (ex_intro _ c C)) as (s & ? & E & _). discriminate E.
Qed.
Lemma compressed_inj2 P Q : on_curve bq P -> on_curve bq Q -> compressed_val2 P = compressed_val2 Q -> P = Q.
Proof.
  intros CP CQ E. pose proof (compressed_flags2 P) as FP_. pose proof (compressed_flags2 Q) as FQ.
  assert (F : cflags2 P = cflags2 Q).
  { destruct (cflags2 P) as [[[c i] s] m], (cflags2 Q) as [[[c' i'] s'] m']. destruct FP_ as [E1 M1], FQ as [E2 M2].
    rewrite E1, E2 in E. destruct (flags_uniq _ _ _ _ _ _ _ _ _ M1 M2 E) as (-> & -> & -> & ->). reflexivity. }
  destruct P as [|x y], Q as [|x' y']; cbn [cflags2] in F; try discriminate F; [reflexivity|].
  pose proof (f_equal snd F) as F2. pose proof (f_equal (fun t => snd (fst t)) F) as F1. cbn [fst snd] in F1, F2. clear F.
  apply val2_inj in F2. subst x'. f_equal.
  destruct (same_square x y y' _ CP CQ) as [A|A]; [exact A|]. exfalso.
  pose proof (larger2_neg y (curve2_y x y CP)) as L. rewrite A in F1. rewrite F1 in L.
  destruct (val2 (fneg (fneg y)) <? val2 (fneg y)); discriminate L.
Qed.
Definition inr2 (P : point Fp2) : Prop := on_curve bq P /\ point_zmul r P = Infinity.
Theorem from_compressed2_ok bs : is_bytes 96 bs ->
  match g2_from_compressed bs with
  | Some q => exists P, astands2 q P /\ inr2 P /\ compressed_val2 P = be_val bs
  | None => forall P, inr2 P -> compressed_val2 P <> be_val bs
  end.
Proof.
  intros B. pose proof (from_compressed_unchecked2_ok bs B) as U. unfold g2_from_compressed.
  destruct (g2_from_compressed_unchecked bs) as [q|]; [|intros P [C _]; apply U; exact C].
  destruct U as (P & S & V). pose proof (torsion_free2_ok q P S) as T.
  pose proof (aff_stands_on_curve _ _ S) as C. destruct (g2_is_torsion_free q).
  - exists P. split; [exact S|]. split; [split; [exact C|apply T; reflexivity]|exact V].
  - intros P' [C' O'] V'. rewrite <- V in V'. apply (compressed_inj2 _ _ C' C) in V'. subst P'.
    apply T in O'. discriminate O'.
Qed.

(** ** the uncompressed form *)
Lemma uncompressed_bits2 bs : is_bytes 192 bs ->
  (is_bytes 48 (mask_first (chunk48 0 bs)) /\ is_bytes 48 (chunk48 1 bs) /\ is_bytes 48 (chunk48 2 bs) /\ is_bytes 48 (chunk48 3 bs)) /\
  0 <= low bs 0 < 2 ^ 765 /\ 0 <= pair_val bs 2 < 2 ^ 768 /\
  be_val bs = 2 ^ 768 * (b2 (flag bs 7) (4 * 2 ^ 765) + b2 (flag bs 6) (2 * 2 ^ 765) + b2 (flag bs 5) (2 ^ 765) + low bs 0) + pair_val bs 2.
Proof.
  intros B. destruct (is_bytes_app 96 96 bs B) as (B1 & B2 & V).
  destruct (low_flags _ B1) as (D0 & D1 & R & VL). destruct (is_bytes_app 48 48 _ B2) as (D2 & D3 & V2).
  assert (E0 : chunk48 0 (firstn 96 bs) = chunk48 0 bs) by (unfold chunk48; change (48 * 0)%nat with 0%nat; cbn [skipn]; rewrite firstn_firstn; reflexivity).
  assert (E1 : chunk48 1 (firstn 96 bs) = chunk48 1 bs).
  { unfold chunk48. rewrite skipn_firstn_comm, firstn_firstn. reflexivity. }
  assert (E2 : firstn 48 (skipn 96 bs) = chunk48 2 bs) by reflexivity.
  assert (E3 : skipn 48 (skipn 96 bs) = chunk48 3 bs).
  { unfold chunk48. rewrite skipn_skipn' in *. symmetry. apply firstn_all'. exact D3. }
  assert (EL : low (firstn 96 bs) 0 = low bs 0) by (unfold low; rewrite E0, E1; reflexivity).
  assert (FL : forall n, flag (firstn 96 bs) n = flag bs n) by (intros n; destruct bs as [|a t]; reflexivity).
  rewrite E0 in D0. rewrite E1 in D1. rewrite E2 in D2, V2. rewrite E3 in D3, V2. rewrite EL in R, VL. rewrite !FL in VL.
  split; [split; [exact D0|]; split; [exact D1|]; split; [exact D2|exact D3]|]. split; [exact R|].
  pose proof (be_val_range _ (proj2 B2)) as RB. rewrite (proj1 B2) in RB. change (256 ^ Z.of_nat 96) with (2 ^ 768) in *.
  change (256 ^ Z.of_nat 48) with (2 ^ 384) in V2. assert (VP : be_val (skipn 96 bs) = pair_val bs 2) by (unfold pair_val; rewrite V2; ring).
  rewrite VP in *. split; [exact RB|]. rewrite V, VL. reflexivity.
Qed.
Lemma flags_uniq_u q w c i s m y c' i' s' m' y' : 0 <= m < q -> 0 <= m' < q -> 0 <= y < w -> 0 <= y' < w ->
  w * (b2 c (4 * q) + b2 i (2 * q) + b2 s q + m) + y = w * (b2 c' (4 * q) + b2 i' (2 * q) + b2 s' q + m') + y' ->
  c = c' /\ i = i' /\ s = s' /\ m = m' /\ y = y'.
Proof.
  intros M M' Y Y' E.
  assert (H : b2 c (4 * q) + b2 i (2 * q) + b2 s q + m = b2 c' (4 * q) + b2 i' (2 * q) + b2 s' q + m' /\ y = y').
  { set (u := b2 c _ + _ + _ + m) in *. set (u' := b2 c' _ + _ + _ + m') in *. clearbody u u'.
    assert (u = u') by nia. subst u'. split; [reflexivity|lia]. }
  destruct H as [H ->]. destruct (flags_uniq _ _ _ _ _ _ _ _ _ M M' H) as (A & B & C & D).
  split; [exact A|]. split; [exact B|]. split; [exact C|]. split; [exact D|reflexivity].
Qed.
Lemma val2_768 (x : Fp2) : 0 <= val2 x < 2 ^ 768.
Proof. pose proof (val2_range x). assert (2 ^ 765 < 2 ^ 768) by reflexivity. lia. Qed.
Theorem from_uncompressed_unchecked2_ok bs : is_bytes 192 bs ->
  match g2_from_uncompressed_unchecked bs with
  | Some q => (q = aff_identity /\ be_val bs = 2 ^ 1534) \/
              (exists x y (X Y : Fp2), q = @Aff fp2_ops x y false /\ rep2 x X /\ rep2 y Y /\ be_val bs = val2 X * 2 ^ 768 + val2 Y)
  | None => be_val bs <> 2 ^ 1534 /\ (forall X Y : Fp2, be_val bs <> val2 X * 2 ^ 768 + val2 Y)
  end.
Proof.
  intros B. destruct (uncompressed_bits2 bs B) as ((B0 & B1 & B2 & B3) & R1 & R2 & V). unfold g2_from_uncompressed_unchecked. cbv zeta.
  pose proof (read_pair _ _ B0 B1) as D1. pose proof (read_pair _ _ B2 B3) as D2. fold (low bs 0) in D1. fold (pair_val bs 2) in D2.
  set (m := low bs 0) in *. set (n := pair_val bs 2) in *.
  assert (UI : be_val bs = 2 ^ 1534 -> flag bs 7 = false /\ flag bs 6 = true /\ flag bs 5 = false /\ m = 0 /\ n = 0).
  { intros E. rewrite V in E.
    replace (2 ^ 1534) with (2 ^ 768 * (b2 false (4 * 2 ^ 765) + b2 true (2 * 2 ^ 765) + b2 false (2 ^ 765) + 0) + 0) in E by (vm_compute; reflexivity).
    assert (M0 : 0 <= 0 < 2 ^ 765) by (split; [apply Z.le_refl|reflexivity]).
    assert (N0 : 0 <= 0 < 2 ^ 768) by (split; [apply Z.le_refl|reflexivity]).
    exact (flags_uniq_u _ _ _ _ _ _ _ false true false 0 0 R1 M0 R2 N0 E). }
  assert (UA : forall X Y : Fp2, be_val bs = val2 X * 2 ^ 768 + val2 Y ->
     flag bs 7 = false /\ flag bs 6 = false /\ flag bs 5 = false /\ m = val2 X /\ n = val2 Y).
  { intros X Y E. rewrite V in E.
    apply (flags_uniq_u (2 ^ 765) (2 ^ 768) _ _ _ _ _ false false false (val2 X) (val2 Y)); [exact R1|apply val2_range|exact R2|apply val2_768|].
    rewrite E. cbn [b2]. ring. }
  assert (N1 : (forall X : Fp2, val2 X <> m) -> be_val bs <> 2 ^ 1534 /\ (forall X Y : Fp2, be_val bs <> val2 X * 2 ^ 768 + val2 Y)).
  { intros N. split.
    - intros E. destruct (UI E) as (_ & _ & _ & M & _). apply (N f0). rewrite M. reflexivity.
    - intros X Y E. destruct (UA X Y E) as (_ & _ & _ & M & _). apply (N X). symmetry. exact M. }
  assert (N2 : (forall X : Fp2, val2 X <> n) -> be_val bs <> 2 ^ 1534 /\ (forall X Y : Fp2, be_val bs <> val2 X * 2 ^ 768 + val2 Y)).
  { intros N. split.
    - intros E. destruct (UI E) as (_ & _ & _ & _ & M). apply (N f0). rewrite M. reflexivity.
    - intros X Y E. destruct (UA X Y E) as (_ & _ & _ & _ & M). apply (N Y). symmetry. exact M. }
  destruct (fp_from_bytes (mask_first (chunk48 0 bs))) as [x1|]; [|exact (N1 D1)].
  destruct (fp_from_bytes (chunk48 1 bs)) as [x0|]; [|exact (N1 D1)].
  destruct (fp_from_bytes (chunk48 2 bs)) as [y1|]; [|exact (N2 D2)].
  destruct (fp_from_bytes (chunk48 3 bs)) as [y0|]; [|exact (N2 D2)]. clear N1 N2.
  destruct D1 as (X & RX & VX), D2 as (Y & RY & VY). set (x := FP2 x0 x1) in *. set (y := FP2 y0 y1) in *.
  pose proof (is_zero2_ok x X RX) as ZX. pose proof (is_zero2_ok y Y RY) as ZY.
  destruct (flag bs 7) eqn:F7.
  { rewrite andb_false_r. cbn [andb]. split.
    - intros E. destruct (UI E) as (Q & _). discriminate Q.
    - intros X' Y' E. destruct (UA X' Y' E) as (Q & _). discriminate Q. }
  destruct (flag bs 5) eqn:F5.
  { rewrite andb_false_r. split.
    - intros E. destruct (UI E) as (_ & _ & Q & _). discriminate Q.
    - intros X' Y' E. destruct (UA X' Y' E) as (_ & _ & Q & _). discriminate Q. }
  rewrite !andb_true_r. destruct (flag bs 6) eqn:F6; cbn [negb orb andb select].
  - destruct (fp2_is_zero x && fp2_is_zero y) eqn:FZ.
    + left. split; [reflexivity|]. apply andb_prop in FZ. destruct FZ as [FX FY].
      rewrite V. cbn [b2]. rewrite <- VX, <- VY, (proj1 ZX FX), (proj1 ZY FY). reflexivity.
    + split.
      * intros E. destruct (UI E) as (_ & _ & _ & M & N).
        assert (fp2_is_zero x = true) by (apply ZX; apply val2_zero_eq; rewrite VX; exact M).
        assert (fp2_is_zero y = true) by (apply ZY; apply val2_zero_eq; rewrite VY; exact N).
        rewrite H, H0 in FZ. discriminate FZ.
      * intros X' Y' E. destruct (UA X' Y' E) as (_ & Q & _). discriminate Q.
  - right. exists x, y, X, Y. split; [reflexivity|]. split; [exact RX|]. split; [exact RY|].
    rewrite V, VX, VY. cbn [b2]. ring.
Qed.
Lemma uncompressed_not_inf2 (x y : Fp2) : val2 x * 2 ^ 768 + val2 y <> 2 ^ 1534.
Proof.
  intros E. change (2 ^ 1534) with (2 ^ 766 * 2 ^ 768 + 0) in E. pose proof (val2_range x) as A. pose proof (val2_768 y) as B.
  assert (2 ^ 766 = 2 * 2 ^ 765) by reflexivity. set (q := 2 ^ 768) in *. nia.
Qed.
Lemma uncompressed_inj2 P Q : uncompressed_val2 P = uncompressed_val2 Q -> P = Q.
Proof.
  destruct P as [|x y], Q as [|x' y']; cbn [uncompressed_val2]; intros E.
  - reflexivity.
  - exfalso. exact (uncompressed_not_inf2 x' y' (eq_sym E)).
  - exfalso. exact (uncompressed_not_inf2 x y E).
  - pose proof (val2_768 y) as A. pose proof (val2_768 y') as B. set (q := 2 ^ 768) in *.
    assert (H : val2 x = val2 x') by nia. assert (H' : val2 y = val2 y') by nia.
    apply val2_inj in H. apply val2_inj in H'. rewrite H, H'. reflexivity.
Qed.
Theorem from_uncompressed2_ok bs : is_bytes 192 bs ->
  match g2_from_uncompressed bs with
  | Some q => exists P, astands2 q P /\ inr2 P /\ uncompressed_val2 P = be_val bs
  | None => forall P, inr2 P -> uncompressed_val2 P <> be_val bs
  end.
Proof.
  intros B. pose proof (from_uncompressed_unchecked2_ok bs B) as U. unfold g2_from_uncompressed.
  destruct (g2_from_uncompressed_unchecked bs) as [q|].
  2: { destruct U as [U1 U2]. intros [|X Y] _ V; cbn [uncompressed_val2] in V; [exact (U1 (eq_sym V))|exact (U2 X Y (eq_sym V))]. }
  destruct U as [(-> & V) | (x & y & X & Y & -> & RX & RY & V)].
  - pose proof (aff_identity_ok fp2_ops_ok) as S. pose proof (torsion_free2_ok _ _ S) as T.
    rewrite (proj2 T) by apply G2_INF. rewrite andb_true_r. cbn [aff_is_on_curve aff_identity].
    rewrite orb_true_r. exists Infinity. split; [exact S|]. split; [split; [exact I|apply G2_INF]|]. symmetry. exact V.
  - pose proof (aff_is_on_curve_ok fp2_ops_ok x y false X Y RX RY) as OC.
    destruct (@aff_is_on_curve fp2_ops (Aff x y false)); cbn [andb].
    + destruct (proj1 OC eq_refl) as [Q|C]; [discriminate Q|].
      assert (S : astands2 (@Aff fp2_ops x y false) (Affine X Y)) by (exists X, Y; split; [exact RX|]; split; [exact RY|]; split; [exact C|reflexivity]).
      pose proof (torsion_free2_ok _ _ S) as T. destruct (g2_is_torsion_free (@Aff fp2_ops x y false)).
      * exists (Affine X Y). split; [exact S|]. split; [split; [exact C|apply T; reflexivity]|]. symmetry. exact V.
      * intros P' [C' O'] V'. rewrite V in V'. change (uncompressed_val2 P' = uncompressed_val2 (Affine X Y)) in V'.
        apply uncompressed_inj2 in V'. subst P'. apply T in O'. discriminate O'.
    + intros P' [C' O'] V'. rewrite V in V'. change (uncompressed_val2 P' = uncompressed_val2 (Affine X Y)) in V'.
      apply uncompressed_inj2 in V'. subst P'. assert (false = true) by (apply OC; right; exact C'). discriminate.
Qed.
