(** * Proof_G1Enc: the encodings of points *)
From Coq Require Import ZArith List Bool Lia.
From Verif Require Import Base Fld Zr Zp Spec_Scalar Proof_Scalar Spec_Fp Spec_Curve Model_Fp Model_Curve Model_G1
  Proof_FpRep Proof_FpTop Spec_CurveCode Proof_Curve Proof_CurveCode Proof_CurveMul Proof_Endo Proof_G1Base Proof_GLV Proof_Recode
  Proof_G1Mul Proof_Chain Proof_G1Gen Proof_G1Sub Proof_G1Total Spec_G1 Proof_G1Thm.
Import ListNotations.
Local Open Scope Z_scope.

(** ** flag bits *)
Definition b2 (c : bool) (n : Z) : Z := if c then n else 0.
Definition flag_check (a : Z) : bool :=
  (a =? b2 (Z.land (Z.shiftr a 7) 1 =? 1) 128 + b2 (Z.land (Z.shiftr a 6) 1 =? 1) 64
        + b2 (Z.land (Z.shiftr a 5) 1 =? 1) 32 + Z.land a 31) && (0 <=? Z.land a 31) && (Z.land a 31 <? 32).
Lemma flags_ok a : 0 <= a < 256 -> flag_check a = true.
Proof. intros H. apply (check_range flag_check 0 256); [vm_compute; reflexivity|lia]. Qed.
Lemma be_val_cons a t : be_val (a :: t) = 256 ^ Z.of_nat (length t) * a + be_val t.
Proof. change (a :: t) with ([a] ++ t). rewrite be_val_app. reflexivity. Qed.
Lemma mask_ok n bs : is_bytes (S n) bs ->
  is_bytes (S n) (mask_first bs) /\ 0 <= be_val (mask_first bs) < 32 * 256 ^ Z.of_nat n /\
  be_val bs = 256 ^ Z.of_nat n * (b2 (flag bs 7) 128 + b2 (flag bs 6) 64 + b2 (flag bs 5) 32) + be_val (mask_first bs).
Proof.
  intros [L F]. destruct bs as [|a t]; [discriminate L|]. cbn [length] in L. injection L as L.
  pose proof (Forall_inv F) as A. pose proof (Forall_inv_tail F) as Ft. cbv beta in A. pose proof (flags_ok a A) as K. unfold flag_check in K.
  apply andb_prop in K. destruct K as [K K3]. apply andb_prop in K. destruct K as [K1 K2].
  apply Z.eqb_eq in K1. apply Z.leb_le in K2. apply Z.ltb_lt in K3.
  cbn [mask_first]. unfold flag. cbn [nth]. rewrite !be_val_cons. rewrite L.
  pose proof (be_val_range t Ft) as R. rewrite L in R.
  split; [|split].
  - split; [cbn [length]; rewrite L; reflexivity|]. constructor; [lia|exact Ft].
  - nia.
  - rewrite K1 at 1. ring.
Qed.
Lemma first_range n bs : is_bytes (S n) bs -> be_val bs < 32 * 256 ^ Z.of_nat n -> exists a t, bs = a :: t /\ 0 <= a < 32 /\ length t = n /\ Forall (fun b => 0 <= b < 256) t.
Proof.
  intros [L F] H. destruct bs as [|a t]; [discriminate L|]. cbn [length] in L. injection L as L.
  pose proof (Forall_inv F) as A. pose proof (Forall_inv_tail F) as Ft. cbv beta in A. rewrite be_val_cons, L in H. pose proof (be_val_range t Ft) as R. rewrite L in R.
  exists a, t. split; [reflexivity|]. split; [nia|]. split; [exact L|exact Ft].
Qed.
Definition lor_check (a : Z) : bool :=
  forallb (fun i => forallb (fun s => (Z.lor (Z.lor (Z.lor a 128) (b2 i 64)) (b2 s 32) =? a + 128 + b2 i 64 + b2 s 32)
     && (Z.lor a (b2 i 64) =? a + b2 i 64)) [true; false]) [true; false].
Lemma lors_ok a i s : 0 <= a < 32 ->
  Z.lor (Z.lor (Z.lor a 128) (b2 i 64)) (b2 s 32) = a + 128 + b2 i 64 + b2 s 32 /\ Z.lor a (b2 i 64) = a + b2 i 64.
Proof.
  intros H. assert (K : lor_check a = true) by (apply (check_range lor_check 0 32); [vm_compute; reflexivity|lia]).
  unfold lor_check in K. rewrite forallb_forall in K. specialize (K i). rewrite forallb_forall in K.
  assert (Ii : In i [true; false]) by (destruct i; [left|right; left]; reflexivity).
  assert (Is : In s [true; false]) by (destruct s; [left|right; left]; reflexivity).
  specialize (K Ii s Is). apply andb_prop in K. destruct K as [K1 K2]. split; apply Z.eqb_eq; assumption.
Qed.
Lemma select_b2 c n : select 0 n c = b2 c n.
Proof. destruct c; reflexivity. Qed.

(** ** which of y and -y *)
Lemma p_381 : p < 2 ^ 381. Proof. reflexivity. Qed.
Lemma larger_neg (y : Fp) : y <> f0 -> (pval (fneg y) <? pval y) = negb (pval (fneg (fneg y)) <? pval (fneg y)).
Proof.
  intros N. assert (V : pval y <> 0).
  { intros E. apply N. apply pval_inj. rewrite E. reflexivity. }
  rewrite !Proof_FpRep.pval_neg. pose proof (pval_range y) as R.
  assert (E1 : (- pval y) mod p = p - pval y) by (symmetry; apply Z.mod_unique with (-1); lia).
  assert (E2 : (- (p - pval y)) mod p = pval y) by (symmetry; apply Z.mod_unique with (-1); lia).
  rewrite E1, E2. assert (O : Z.odd p = true) by (vm_compute; reflexivity).
  pose proof (Z.div2_odd p) as D. rewrite O in D. cbn [Z.b2z] in D.
  destruct (Z.ltb_spec (p - pval y) (pval y)), (Z.ltb_spec (pval y) (p - pval y)); cbn [negb]; lia.
Qed.
Lemma curve_y x y : on_curve b4 (Affine x y) -> y <> f0.
Proof.
  intros C E. cbn [on_curve] in C. subst y. apply (Fp_NoTwo x). rewrite <- C. apply zero_scale.
Qed.
Lemma lex_ok s x : frep s x -> fp_lexicographically_largest s = (pval (fneg x) <? pval x).
Proof.
  intros R. pose proof (fp_lexicographically_largest_spec s x R) as L.
  destruct (fp_lexicographically_largest s), (Z.ltb_spec (pval (fneg x)) (pval x)); try reflexivity.
  - destruct L as [L _]. specialize (L eq_refl). lia.
  - destruct L as [_ L]. specialize (L H). discriminate.
Qed.

(** ** writing *)
Lemma fp_bytes_first s x : frep s x -> exists a t, fp_to_bytes s = a :: t /\ 0 <= a < 32 /\ length t = 47%nat /\
  Forall (fun b => 0 <= b < 256) t /\ 256 ^ 47 * a + be_val t = pval x.
Proof.
  intros R. destruct (fp_to_bytes_spec s x R) as [B V]. pose proof (pval_range x) as PR. pose proof p_381.
  destruct (first_range 47 _ B) as (a & t & E & A & L & F).
  { rewrite V. change (32 * 256 ^ Z.of_nat 47) with (2 ^ 381). lia. }
  exists a, t. split; [exact E|]. split; [exact A|]. split; [exact L|]. split; [exact F|].
  rewrite <- V, E, be_val_cons, L. reflexivity.
Qed.
Lemma pval_0 : pval (f0 : Fp) = 0. Proof. reflexivity. Qed.
Theorem to_compressed_ok q P : astands q P -> is_bytes 48 (g1_to_compressed q) /\ be_val (g1_to_compressed q) = compressed_val P.
Proof.
  destruct q as [x y i]. intros (X & Y & RX & RY & C & S). unfold g1_to_compressed.
  assert (RS : frep (select x fp_zero i) (if i then f0 else X)) by (destruct i; cbn [select]; [exact frep_zero|exact RX]).
  destruct (fp_bytes_first _ _ RS) as (a & t & E & A & L & F & V). cbv zeta. rewrite E. cbn [or_first].
  rewrite !select_b2. destruct (lors_ok a i (negb i && fp_lexicographically_largest y) A) as [O _]. rewrite O.
  split.
  - split; [cbn [length]; rewrite L; reflexivity|]. constructor; [|exact F].
    destruct i, (fp_lexicographically_largest y); cbn [b2 negb andb]; lia.
  - rewrite be_val_cons, L. change (256 ^ Z.of_nat 47) with (256 ^ 47).
    replace (256 ^ 47 * (a + 128 + b2 i 64 + b2 (negb i && fp_lexicographically_largest y) 32) + be_val t)
      with ((256 ^ 47 * a + be_val t) + 256 ^ 47 * (128 + b2 i 64 + b2 (negb i && fp_lexicographically_largest y) 32)) by ring.
    rewrite V. destruct i.
    + destruct S as (_ & _ & ->). cbn [negb andb b2 compressed_val]. rewrite pval_0. reflexivity.
    + subst P. cbn [negb andb compressed_val]. rewrite (lex_ok y Y RY).
      destruct (pval (fneg Y) <? pval Y); cbn [b2].
      * change (256 ^ 47 * (128 + 0 + 32)) with (2 ^ 383 + 2 ^ 381). lia.
      * change (256 ^ 47 * (128 + 0 + 0)) with (2 ^ 383 + 0). lia.
Qed.
Theorem to_uncompressed_ok q P : astands q P -> is_bytes 96 (g1_to_uncompressed q) /\ be_val (g1_to_uncompressed q) = uncompressed_val P.
Proof.
  destruct q as [x y i]. intros (X & Y & RX & RY & C & S). unfold g1_to_uncompressed.
  assert (RS : frep (select x fp_zero i) (if i then f0 else X)) by (destruct i; cbn [select]; [exact frep_zero|exact RX]).
  assert (RT : frep (select y fp_zero i) (if i then f0 else Y)) by (destruct i; cbn [select]; [exact frep_zero|exact RY]).
  destruct (fp_bytes_first _ _ RS) as (a & t & E & A & L & F & V). rewrite E.
  destruct (fp_to_bytes_spec _ _ RT) as [[L' F'] V']. cbn [app or_first].
  rewrite !select_b2. destruct (lors_ok a i false A) as [_ O]. rewrite O. split.
  - split; [cbn [length]; rewrite app_length, L, L'; reflexivity|]. constructor; [|apply Forall_app; split; assumption].
    destruct i; cbn [b2]; lia.
  - rewrite be_val_cons, app_length, be_val_app, L, L'.
    set (v := be_val (fp_to_bytes (select y fp_zero i))) in *. change (256 ^ Z.of_nat (47 + 48)) with (256 ^ 47 * 2 ^ 384).
    change (256 ^ Z.of_nat 48) with (2 ^ 384).
    replace (256 ^ 47 * 2 ^ 384 * (a + b2 i 64) + (2 ^ 384 * be_val t + v))
      with (2 ^ 384 * (256 ^ 47 * a + be_val t) + 2 ^ 384 * 256 ^ 47 * b2 i 64 + v) by ring.
    rewrite V, V'. destruct i.
    + destruct S as (_ & _ & ->). cbn [b2 uncompressed_val]. rewrite pval_0. reflexivity.
    + subst P. cbn [b2 uncompressed_val]. lia.
Qed.

(** ** reading *)
Lemma is_zero_ok s x : frep s x -> (fp_is_zero s = true <-> x = f0).
Proof. intros R. rewrite (fp_is_zero_feqb s x R). apply feqb_spec. Qed.
Lemma pval_zero_eq (x : Fp) : pval x = 0 -> x = f0.
Proof. intros E. apply pval_inj. rewrite E. reflexivity. Qed.
Lemma pow_47 : 256 ^ Z.of_nat 47 * 32 = 2 ^ 381 /\ 256 ^ Z.of_nat 47 * 64 = 2 ^ 382 /\ 256 ^ Z.of_nat 47 * 128 = 2 ^ 383.
Proof. repeat split. Qed.
Lemma chosen_y y s (Y : Fp) : frep y Y -> Y <> f0 ->
  exists Y', frep (fp_select y (fp_neg y) (xorb (fp_lexicographically_largest y) s)) Y' /\
    (Y' = Y \/ Y' = fneg Y) /\ (pval (fneg Y') <? pval Y') = s.
Proof.
  intros R N. rewrite (lex_ok y Y R). pose proof (larger_neg Y N) as L.
  exists (if xorb (pval (fneg Y) <? pval Y) s then fneg Y else Y).
  split; [apply frep_select; [exact R|apply frep_neg; exact R]|].
  destruct (pval (fneg Y) <? pval Y) eqn:E, s; cbn [xorb]; (split; [auto|]); try exact E;
    destruct (pval (fneg (fneg Y)) <? pval (fneg Y)); cbn [negb] in L; congruence.
Qed.
Section Curve.
Context {K : fld}.
Add Field KF2 : (fld_field K).
Lemma neg_square (y : K) : fmul (fneg y) (fneg y) = fmul y y. Proof. ring. Qed.
End Curve.
Lemma frep_rhs x X : frep x X -> frep (fp_add (fp_mul (fp_square x) x) g1_B) (fadd (fmul (fmul X X) X) b4).
Proof.
  intros R. apply frep_add; [|exact (rep_B _ _ _ _ fp_ops_ok)]. apply frep_mul; [apply frep_square; exact R|exact R].
Qed.
Lemma sqrt_some a (y : Fp) s : frep a y -> fp_sqrt a = Some s -> exists z : Fp, frep s z /\ fmul z z = y.
Proof.
  intros A. unfold fp_sqrt.
  assert (FU : Forall u64 fp_sqrt_exp) by (repeat constructor; discriminate || reflexivity).
  destruct (fp_pow_vartime_spec y a _ A FU) as [_ R].
  set (t := fp_pow_vartime a fp_sqrt_exp) in *. set (z := Fp_pow y _) in R. clearbody t z.
  rewrite (fp_eq_feqb _ _ _ _ (frep_square t z R) A). destruct (feqb (fmul z z) y) eqn:E; [|discriminate].
  intros H. injection H as <-. exists z. split; [exact R|]. apply feqb_spec. exact E.
Qed.
Lemma flags_unique c i s m c' i' s' m' : 0 <= m < 2 ^ 381 -> 0 <= m' < 2 ^ 381 ->
  b2 c (2 ^ 383) + b2 i (2 ^ 382) + b2 s (2 ^ 381) + m = b2 c' (2 ^ 383) + b2 i' (2 ^ 382) + b2 s' (2 ^ 381) + m' ->
  c = c' /\ i = i' /\ s = s' /\ m = m'.
Proof.
  intros M M' E. assert (2 ^ 382 = 2 * 2 ^ 381) by reflexivity. assert (2 ^ 383 = 4 * 2 ^ 381) by reflexivity.
  set (q := 2 ^ 381) in *. rewrite H, H0 in E.
  destruct c, i, s, c', i', s'; cbn [b2] in E; try (repeat split; lia); exfalso; lia.
Qed.
Definition cflags (P : point Fp) : bool * bool * bool * Z :=
  match P with Infinity => (true, true, false, 0) | Affine x y => (true, false, pval (fneg y) <? pval y, pval x) end.
Lemma compressed_flags P : let '(c, i, s, m) := cflags P in
  compressed_val P = b2 c (2 ^ 383) + b2 i (2 ^ 382) + b2 s (2 ^ 381) + m /\ 0 <= m < 2 ^ 381.
Proof.
  destruct P as [|x y]; cbn [cflags compressed_val b2].
  - split; [reflexivity|]. split; [discriminate|reflexivity].
  - pose proof (pval_range x) as R. pose proof p_381 as H. split; [|lia].
    destruct (pval (fneg y) <? pval y); cbn [b2]; lia.
Qed.
Lemma compressed_match bs P : is_bytes 48 bs -> compressed_val P = be_val bs ->
  cflags P = (flag bs 7, flag bs 6, flag bs 5, be_val (mask_first bs)).
Proof.
  intros B E. destruct (mask_ok 47 bs B) as (_ & R & V). destruct pow_47 as (P5 & P6 & P7).
  pose proof (compressed_flags P) as F. destruct (cflags P) as [[[c i] s] m]. destruct F as [F M].
  rewrite F, V in E.
  destruct (flags_unique c i s m (flag bs 7) (flag bs 6) (flag bs 5) (be_val (mask_first bs))) as (-> & -> & -> & ->);
    [exact M| |  |reflexivity].
  - rewrite Z.mul_comm, P5 in R. exact R.
  - rewrite E. f_equal. rewrite !Z.mul_add_distr_l. f_equal; [f_equal|].
    + destruct (flag bs 7); cbn [b2]; [exact P7|apply Z.mul_0_r].
    + destruct (flag bs 6); cbn [b2]; [exact P6|apply Z.mul_0_r].
    + destruct (flag bs 5); cbn [b2]; [exact P5|apply Z.mul_0_r].
Qed.
Lemma compressed_join bs P : is_bytes 48 bs ->
  cflags P = (flag bs 7, flag bs 6, flag bs 5, be_val (mask_first bs)) -> compressed_val P = be_val bs.
Proof.
  intros B E. destruct (mask_ok 47 bs B) as (_ & R & V). destruct pow_47 as (P5 & P6 & P7).
  pose proof (compressed_flags P) as F. rewrite E in F. destruct F as [F M]. rewrite F, V. f_equal.
  rewrite !Z.mul_add_distr_l. f_equal; [f_equal|].
  + destruct (flag bs 7); cbn [b2]; [symmetry; exact P7|symmetry; apply Z.mul_0_r].
  + destruct (flag bs 6); cbn [b2]; [symmetry; exact P6|symmetry; apply Z.mul_0_r].
  + destruct (flag bs 5); cbn [b2]; [symmetry; exact P5|symmetry; apply Z.mul_0_r].
Qed.
Theorem from_compressed_unchecked_ok bs : is_bytes 48 bs ->
  match g1_from_compressed_unchecked bs with
  | Some q => exists P, astands q P /\ compressed_val P = be_val bs
  | None => forall P, on_curve b4 P -> compressed_val P <> be_val bs
  end.
Proof.
  intros B. destruct (mask_ok 47 bs B) as (BM & _ & _). unfold g1_from_compressed_unchecked. cbv zeta.
  destruct (fp_from_bytes_spec (mask_first bs) BM) as [D1 D2].
  destruct (Z.lt_ge_cases (be_val (mask_first bs)) p) as [LT|GE].
  - destruct (D1 LT) as (x & -> & RX). set (X := fp_of (be_val (mask_first bs))) in *.
    assert (VX : pval X = be_val (mask_first bs)).
    { unfold X. rewrite pval_fp_of. apply Z.mod_small. split; [|exact LT]. apply (be_val_range _ (proj2 BM)). }
    pose proof (is_zero_ok x X RX) as ZX.
    destruct (flag bs 6 && flag bs 7 && negb (flag bs 5) && fp_is_zero x) eqn:FI.
    + apply andb_prop in FI. destruct FI as [FI F0]. apply andb_prop in FI. destruct FI as [FI FS].
      apply andb_prop in FI. destruct FI as [FI FC]. apply negb_true_iff in FS.
      exists Infinity. split; [apply (aff_identity_ok fp_ops_ok)|]. apply compressed_join; [exact B|].
      rewrite FC, FI, FS. cbn [cflags]. rewrite <- VX. rewrite (proj1 ZX F0). reflexivity.
    + pose proof (fp_sqrt_spec _ _ (frep_rhs x X RX)) as [S1 S2].
      assert (NI : forall P, compressed_val P = be_val bs -> P <> Infinity).
      { intros P E ->. apply (compressed_match bs _ B) in E. cbn [cflags] in E. injection E as E1 E2 E3 E4.
        rewrite <- E1, <- E2, <- E3 in FI. cbn [andb negb] in FI.
        assert (fp_is_zero x = true) by (apply ZX; apply pval_zero_eq; rewrite VX, <- E4; reflexivity). congruence. }
      destruct (fp_sqrt (fp_add (fp_mul (fp_square x) x) g1_B)) as [y|] eqn:SQ.
      * assert (EX : exists Y, frep y Y /\ fmul Y Y = fadd (fmul (fmul X X) X) b4).
        { exact (sqrt_some _ _ _ (frep_rhs x X RX) SQ). }
        destruct EX as (Y & RY & CY).
        destruct (chosen_y y (flag bs 5) Y RY (curve_y X Y CY)) as (Y' & RY' & YY & LY).
        assert (CY' : on_curve b4 (Affine X Y')).
        { cbn [on_curve]. destruct YY as [-> | ->]; [exact CY|]. rewrite neg_square. exact CY. }
        destruct (negb (flag bs 6) && flag bs 7) eqn:FB.
        -- apply andb_prop in FB. destruct FB as [FB FC]. apply negb_true_iff in FB.
           exists (Affine X Y'). rewrite FB. split.
           ++ exists X, Y'. split; [exact RX|]. split; [exact RY'|]. split; [exact CY'|reflexivity].
           ++ apply compressed_join; [exact B|]. cbn [cflags]. rewrite LY, FC, FB, VX. reflexivity.
        -- intros P C E. pose proof (NI P E) as NP. destruct P as [|a c]; [contradiction|].
           apply (compressed_match bs _ B) in E. cbn [cflags] in E. injection E as E1 E2 E3 E4.
           rewrite <- E1, <- E2 in FB. discriminate FB.
      * intros P C E. pose proof (NI P E) as NP. destruct P as [|a c]; [contradiction|].
        apply (compressed_match bs _ B) in E. cbn [cflags] in E. injection E as E1 E2 E3 E4.
        assert (a = X) by (apply pval_inj; rewrite E4; symmetry; exact VX). subst a.
        destruct (S1 (ex_intro _ c C)) as (s & ? & E & _). discriminate E.
  - rewrite (D2 GE). intros P C E. apply (compressed_match bs _ B) in E. destruct P as [|a c]; cbn [cflags] in E; injection E as E1 E2 E3 E4.
    + pose proof p_pos. lia.
    + pose proof (pval_range a). lia.
Qed.
Lemma compressed_inj P Q : on_curve b4 P -> on_curve b4 Q -> compressed_val P = compressed_val Q -> P = Q.
Proof.
  intros CP CQ E. pose proof (compressed_flags P) as FP_. pose proof (compressed_flags Q) as FQ.
  assert (F : cflags P = cflags Q).
  { destruct (cflags P) as [[[c i] s] m], (cflags Q) as [[[c' i'] s'] m']. destruct FP_ as [E1 M1], FQ as [E2 M2].
    rewrite E1, E2 in E. destruct (flags_unique _ _ _ _ _ _ _ _ M1 M2 E) as (-> & -> & -> & ->). reflexivity. }
  destruct P as [|x y], Q as [|x' y']; cbn [cflags] in F; try discriminate F; [reflexivity|].
  pose proof (f_equal snd F) as F2. pose proof (f_equal (fun t => snd (fst t)) F) as F1. cbn [fst snd] in F1, F2. clear F.
  apply pval_inj in F2. subst x'. f_equal.
  destruct (same_square x y y' _ CP CQ) as [A|A]; [exact A|]. exfalso.
  pose proof (larger_neg y (curve_y x y CP)) as L. rewrite A in F1. rewrite F1 in L.
  destruct (pval (fneg (fneg y)) <? pval (fneg y)); discriminate L.
Qed.
Theorem from_compressed_ok checked bs : is_bytes 48 bs ->
  match g1_from_compressed checked bs with
  | Ok (Some q) => exists P, astands q P /\ inr P /\ compressed_val P = be_val bs
  | Ok None => forall P, inr P -> compressed_val P <> be_val bs
  | _ => False
  end.
Proof.
  intros B. pose proof (from_compressed_unchecked_ok bs B) as U. unfold g1_from_compressed.
  destruct (g1_from_compressed_unchecked bs) as [q|]; [|intros P [C _]; apply U; exact C].
  destruct U as (P & S & V). destruct (torsion_free_ok checked q P S) as (t & -> & T). cbn [bind].
  pose proof (aff_stands_on_curve _ _ S) as C. destruct t.
  - exists P. split; [exact S|]. split; [split; [exact C|apply T; reflexivity]|exact V].
  - intros P' [C' O'] V'. rewrite <- V in V'. apply (compressed_inj _ _ C' C) in V'. subst P'.
    apply T in O'. discriminate O'.
Qed.

Lemma split_96 bs : is_bytes 96 bs -> is_bytes 48 (firstn 48 bs) /\ is_bytes 48 (skipn 48 bs) /\
  be_val bs = 2 ^ 384 * be_val (firstn 48 bs) + be_val (skipn 48 bs) /\ (forall n, flag bs n = flag (firstn 48 bs) n).
Proof.
  intros [L F]. rewrite <- (firstn_skipn 48 bs) in F. apply Forall_app in F. destruct F as [F1 F2].
  assert (L1 : length (firstn 48 bs) = 48%nat) by (rewrite firstn_length, L; reflexivity).
  assert (L2 : length (skipn 48 bs) = 48%nat) by (rewrite skipn_length, L; reflexivity).
  split; [split; assumption|]. split; [split; assumption|]. split.
  - rewrite <- (firstn_skipn 48 bs) at 1. rewrite be_val_app, L2. reflexivity.
  - intros n. unfold flag. destruct bs as [|a t]; [discriminate L|]. reflexivity.
Qed.
Lemma flags_unique_u c i s m y c' i' s' m' y' : 0 <= m < 2 ^ 381 -> 0 <= m' < 2 ^ 381 -> 0 <= y < 2 ^ 384 -> 0 <= y' < 2 ^ 384 ->
  2 ^ 384 * (b2 c (2 ^ 383) + b2 i (2 ^ 382) + b2 s (2 ^ 381) + m) + y = 2 ^ 384 * (b2 c' (2 ^ 383) + b2 i' (2 ^ 382) + b2 s' (2 ^ 381) + m') + y' ->
  c = c' /\ i = i' /\ s = s' /\ m = m' /\ y = y'.
Proof.
  intros M M' Y Y' E.
  assert (H : b2 c (2 ^ 383) + b2 i (2 ^ 382) + b2 s (2 ^ 381) + m = b2 c' (2 ^ 383) + b2 i' (2 ^ 382) + b2 s' (2 ^ 381) + m' /\ y = y').
  { set (u := b2 c _ + _ + _ + m) in *. set (u' := b2 c' _ + _ + _ + m') in *. clearbody u u'.
    set (q := 2 ^ 384) in *. clearbody q. assert (u = u') by nia. subst u'. split; [reflexivity|lia]. }
  destruct H as [H ->]. destruct (flags_unique _ _ _ _ _ _ _ _ M M' H) as (A & B & C & D).
  split; [exact A|]. split; [exact B|]. split; [exact C|]. split; [exact D|reflexivity].
Qed.
Lemma uncompressed_bits bs : is_bytes 96 bs -> is_bytes 48 (mask_first (firstn 48 bs)) /\ is_bytes 48 (skipn 48 bs) /\
  0 <= be_val (mask_first (firstn 48 bs)) < 2 ^ 381 /\ 0 <= be_val (skipn 48 bs) < 2 ^ 384 /\
  be_val bs = 2 ^ 384 * (b2 (flag bs 7) (2 ^ 383) + b2 (flag bs 6) (2 ^ 382) + b2 (flag bs 5) (2 ^ 381) + be_val (mask_first (firstn 48 bs)))
              + be_val (skipn 48 bs).
Proof.
  intros B. destruct (split_96 bs B) as (B1 & B2 & V & FL). destruct (mask_ok 47 _ B1) as (BM & R & VM).
  destruct pow_47 as (P5 & P6 & P7). rewrite V. rewrite !FL. rewrite VM.
  split; [exact BM|]. split; [exact B2|]. split; [rewrite Z.mul_comm, P5 in R; exact R|].
  split; [pose proof (be_val_range _ (proj2 B2)) as R2; rewrite (proj1 B2) in R2; exact R2|].
  f_equal. f_equal. f_equal. rewrite !Z.mul_add_distr_l. f_equal; [f_equal|].
  + destruct (flag (firstn 48 bs) 7); cbn [b2]; [exact P7|apply Z.mul_0_r].
  + destruct (flag (firstn 48 bs) 6); cbn [b2]; [exact P6|apply Z.mul_0_r].
  + destruct (flag (firstn 48 bs) 5); cbn [b2]; [exact P5|apply Z.mul_0_r].
Qed.
Lemma pval_384 (x : Fp) : 0 <= pval x < 2 ^ 384.
Proof. pose proof (pval_range x). assert (p < 2 ^ 384) by reflexivity. lia. Qed.
Lemma pval_381 (x : Fp) : 0 <= pval x < 2 ^ 381.
Proof. pose proof (pval_range x). pose proof p_381. lia. Qed.
Lemma from_bytes_some bs : is_bytes 48 bs ->
  match fp_from_bytes bs with
  | Some s => exists x : Fp, frep s x /\ pval x = be_val bs
  | None => forall x : Fp, pval x <> be_val bs
  end.
Proof.
  intros B. destruct (fp_from_bytes_spec bs B) as [D1 D2].
  destruct (Z.lt_ge_cases (be_val bs) p) as [LT|GE].
  - destruct (D1 LT) as (s & -> & R). exists (fp_of (be_val bs)). split; [exact R|].
    rewrite pval_fp_of. apply Z.mod_small. split; [|exact LT]. apply (be_val_range _ (proj2 B)).
  - rewrite (D2 GE). intros x E. pose proof (pval_range x). lia.
Qed.
Theorem from_uncompressed_unchecked_ok bs : is_bytes 96 bs ->
  match g1_from_uncompressed_unchecked bs with
  | Some q => (q = aff_identity /\ be_val bs = 2 ^ 766) \/
              (exists x y (X Y : Fp), q = @Aff fp_ops x y false /\ frep x X /\ frep y Y /\ be_val bs = pval X * 2 ^ 384 + pval Y)
  | None => be_val bs <> 2 ^ 766 /\ (forall X Y : Fp, be_val bs <> pval X * 2 ^ 384 + pval Y)
  end.
Proof.
  intros B. destruct (uncompressed_bits bs B) as (B1 & B2 & R1 & R2 & V). unfold g1_from_uncompressed_unchecked. cbv zeta.
  pose proof (from_bytes_some _ B1) as D1. pose proof (from_bytes_some _ B2) as D2.
  set (m := be_val (mask_first (firstn 48 bs))) in *. set (n := be_val (skipn 48 bs)) in *.
  assert (UI : be_val bs = 2 ^ 766 -> flag bs 7 = false /\ flag bs 6 = true /\ flag bs 5 = false /\ m = 0 /\ n = 0).
  { intros E. rewrite V in E.
    replace (2 ^ 766) with (2 ^ 384 * (b2 false (2 ^ 383) + b2 true (2 ^ 382) + b2 false (2 ^ 381) + 0) + 0) in E by (vm_compute; reflexivity).
    assert (M0 : 0 <= 0 < 2 ^ 381) by (split; [apply Z.le_refl|reflexivity]).
    assert (N0 : 0 <= 0 < 2 ^ 384) by (split; [apply Z.le_refl|reflexivity]).
    exact (flags_unique_u _ _ _ _ _ false true false 0 0 R1 M0 R2 N0 E). }
  assert (UA : forall X Y : Fp, be_val bs = pval X * 2 ^ 384 + pval Y ->
     flag bs 7 = false /\ flag bs 6 = false /\ flag bs 5 = false /\ m = pval X /\ n = pval Y).
  { intros X Y E. rewrite V in E.
    apply (flags_unique_u _ _ _ _ _ false false false (pval X) (pval Y)); [exact R1|apply pval_381|exact R2|apply pval_384|].
    rewrite E. cbn [b2]. ring. }
  destruct (fp_from_bytes (mask_first (firstn 48 bs))) as [x|].
  2: { split.
       - intros E. destruct (UI E) as (_ & _ & _ & M & _). apply (D1 f0). rewrite M. reflexivity.
       - intros X Y E. destruct (UA X Y E) as (_ & _ & _ & M & _). apply (D1 X). symmetry. exact M. }
  destruct (fp_from_bytes (skipn 48 bs)) as [y|].
  2: { split.
       - intros E. destruct (UI E) as (_ & _ & _ & _ & M). apply (D2 f0). rewrite M. reflexivity.
       - intros X Y E. destruct (UA X Y E) as (_ & _ & _ & _ & M). apply (D2 Y). symmetry. exact M. }
  destruct D1 as (X & RX & VX), D2 as (Y & RY & VY).
  pose proof (is_zero_ok x X RX) as ZX. pose proof (is_zero_ok y Y RY) as ZY.
  destruct (flag bs 7) eqn:F7.
  { rewrite andb_false_r. cbn [andb]. split.
    - intros E. destruct (UI E) as (Q & _). discriminate Q.
    - intros X' Y' E. destruct (UA X' Y' E) as (Q & _). discriminate Q. }
  destruct (flag bs 5) eqn:F5.
  { rewrite andb_false_r. split.
    - intros E. destruct (UI E) as (_ & _ & Q & _). discriminate Q.
    - intros X' Y' E. destruct (UA X' Y' E) as (_ & _ & Q & _). discriminate Q. }
  rewrite !andb_true_r. destruct (flag bs 6) eqn:F6; cbn [negb orb andb select].
  - destruct (fp_is_zero x && fp_is_zero y) eqn:FZ.
    + left. split; [reflexivity|]. apply andb_prop in FZ. destruct FZ as [FX FY].
      rewrite V. cbn [b2]. rewrite <- VX, <- VY, (proj1 ZX FX), (proj1 ZY FY). reflexivity.
    + split.
      * intros E. destruct (UI E) as (_ & _ & _ & M & N).
        assert (fp_is_zero x = true) by (apply ZX; apply pval_zero_eq; rewrite VX; exact M).
        assert (fp_is_zero y = true) by (apply ZY; apply pval_zero_eq; rewrite VY; exact N).
        rewrite H, H0 in FZ. discriminate FZ.
      * intros X' Y' E. destruct (UA X' Y' E) as (_ & Q & _). discriminate Q.
  - right. exists x, y, X, Y. split; [reflexivity|]. split; [exact RX|]. split; [exact RY|].
    rewrite V, VX, VY. cbn [b2]. ring.
Qed.
Lemma uncompressed_not_inf (x y : Fp) : pval x * 2 ^ 384 + pval y <> 2 ^ 766.
Proof.
  intros E. change (2 ^ 766) with (2 ^ 382 * 2 ^ 384 + 0) in E. pose proof (pval_381 x) as A. pose proof (pval_384 y) as B.
  assert (2 ^ 382 = 2 * 2 ^ 381) by reflexivity. set (q := 2 ^ 384) in *. nia.
Qed.
Lemma uncompressed_inj P Q : uncompressed_val P = uncompressed_val Q -> P = Q.
Proof.
  destruct P as [|x y], Q as [|x' y']; cbn [uncompressed_val]; intros E.
  - reflexivity.
  - exfalso. exact (uncompressed_not_inf x' y' (eq_sym E)).
  - exfalso. exact (uncompressed_not_inf x y E).
  - pose proof (pval_384 y) as A. pose proof (pval_384 y') as B. set (q := 2 ^ 384) in *.
    assert (H : pval x = pval x') by nia. assert (H' : pval y = pval y') by nia.
    apply pval_inj in H. apply pval_inj in H'. rewrite H, H'. reflexivity.
Qed.
Theorem from_uncompressed_ok checked bs : is_bytes 96 bs ->
  match g1_from_uncompressed checked bs with
  | Ok (Some q) => exists P, astands q P /\ inr P /\ uncompressed_val P = be_val bs
  | Ok None => forall P, inr P -> uncompressed_val P <> be_val bs
  | _ => False
  end.
Proof.
  intros B. pose proof (from_uncompressed_unchecked_ok bs B) as U. unfold g1_from_uncompressed.
  destruct (g1_from_uncompressed_unchecked bs) as [q|].
  2: { destruct U as [U1 U2]. intros [|x y] _ E; cbn [uncompressed_val] in E; [apply U1; symmetry; exact E|exact (U2 x y (eq_sym E))]. }
  destruct U as [(-> & V) | (x & y & X & Y & -> & RX & RY & V)].
  - pose proof (aff_identity_ok fp_ops_ok) as S.
    destruct (torsion_free_ok checked _ _ S) as (t & -> & T). cbn [bind].
    assert (t = true) by (apply T; apply (pt_zmul_inf (b:=b4) Fp_two Fp_NoTwo)). subst t.
    assert (OC : @aff_is_on_curve fp_ops aff_identity = true) by apply orb_true_r. rewrite OC. cbn [andb].
    exists Infinity. split; [exact S|]. split; [split; [exact I|apply (pt_zmul_inf (b:=b4) Fp_two Fp_NoTwo)]|]. symmetry. exact V.
  - destruct (torsion_free_total checked x y false X Y RX RY) as (t & E). rewrite E. cbn [bind].
    pose proof (aff_is_on_curve_ok fp_ops_ok x y false X Y RX RY) as OC.
    destruct (@aff_is_on_curve fp_ops (Aff x y false)) eqn:EO.
    + destruct (proj1 OC eq_refl) as [|C]; [discriminate|].
      assert (S : astands (@Aff fp_ops x y false) (Affine X Y)).
      { exists X, Y. split; [exact RX|]. split; [exact RY|]. split; [exact C|reflexivity]. }
      destruct (torsion_free_ok checked _ _ S) as (t' & E' & T). rewrite E' in E. injection E as ->. cbn [andb].
      destruct t.
      * exists (Affine X Y). split; [exact S|]. split; [split; [exact C|apply T; reflexivity]|]. symmetry. exact V.
      * intros P [_ O] V'. rewrite V in V'. change (pval X * 2 ^ 384 + pval Y) with (uncompressed_val (Affine X Y)) in V'.
        apply uncompressed_inj in V'. subst P. apply T in O. discriminate O.
    + cbn [andb]. intros P [C _] V'. rewrite V in V'. change (pval X * 2 ^ 384 + pval Y) with (uncompressed_val (Affine X Y)) in V'.
      apply uncompressed_inj in V'. subst P. assert (false = true) by (apply OC; right; exact C). discriminate.
Qed.
