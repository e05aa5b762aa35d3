(** * Proof_ArkFK20: batch proofs of the Arkworks backend *)
From Coq Require Import List Arith Lia Bool ZArith NArith Field.
From Verif Require Import Base Fld Poly Loops Model_Utils Proof_Utils Model_FFT Spec Spec_More Proof_FFT Zr ZrTables Proof_FFTFr.
From Verif Require Import Model_Poly Proof_Poly1 Proof_Poly2 Proof_PolyFr Proof_MclPoly Proof_MclFr Model_KZG Spec_KZG Proof_KZG Proof_KZGFr.
From Verif Require Import Proof_Recovery Model_FK20 Proof_FK20 Proof_FK20Fr Model_Zk Proof_Zk Spec_ZkKZG Proof_ZkKZG Proof_ZkFK20.
From Verif Require Import Model_Ark Proof_Ark Spec_Ark Proof_ArkFr Model_ArkKZG Spec_ArkKZG Proof_ArkKZG Model_ArkFK20.
Import ListNotations.

Lemma std_is_pow2_pow k : std_is_pow2 (2 ^ k) = true.
Proof. apply std_is_pow2_spec. eauto. Qed.

Lemma is_pow2_double n : is_pow2 (n * 2) = std_is_pow2 n.
Proof.
  apply eq_true_iff_eq. rewrite is_pow2_spec, std_is_pow2_spec. split.
  - intros ([|k] & E); [change (2 ^ 0) with 1 in E; lia|]. exists k. replace (2 ^ S k) with (2 ^ k * 2) in E by (simpl; lia). lia.
  - intros (k & ->). exists (S k). simpl. lia.
Qed.

Lemma std_is_pow2_is n : std_is_pow2 n = is_pow2 n.
Proof. apply eq_true_iff_eq. now rewrite is_pow2_spec, std_is_pow2_spec. Qed.

(** filling a prepared vector against pushing *)
Lemma fill_push {A B} (l : list A) (f : A -> B) (next : nat -> nat) (d : B) n : forall a j (xs : list B) m, length xs = a -> n <= m ->
  for_ n a (fun i (st : nat * list B) => let (j, x) := st in let* v := idx l j in let* x := upd x i (f v) in Ok (next j, x)) (j, xs ++ repeat d m)
  = let* st := for_ n a (fun _ (st : nat * list B) => let (j, x) := st in let* v := idx l j in Ok (next j, x ++ [f v])) (j, xs) in
    Ok (fst st, snd st ++ repeat d (m - n)).
Proof.
  induction n as [|n IH]; intros a j xs m La Hm; [cbn [for_ bind fst snd]; now rewrite Nat.sub_0_r|].
  cbn [for_]. destruct (idx l j) as [v| | |]; cbn [bind]; auto.
  rewrite upd_ok by (rewrite app_length, repeat_length; lia). cbn [bind].
  replace (set (xs ++ repeat d m) a (f v)) with ((xs ++ [f v]) ++ repeat d (m - 1)).
  - rewrite IH by (try rewrite app_length; cbn [length]; lia). destruct (for_ n _ _ _); cbn [bind]; auto.
    now replace (m - S n) with (m - 1 - n) by lia.
  - destruct m as [|m]; [lia|]. cbn [repeat]. rewrite <- app_assoc. cbn [app]. replace (S m - 1) with m by lia.
    clear -La. revert a La. induction xs as [|x xs IH]; intros a La; cbn [length] in La; subst a; cbn [app set]; [reflexivity|].
    f_equal. now apply IH.
Qed.

Lemma idx_map {A B} (f : A -> B) l i : idx (map f l) i = let* v := idx l i in Ok (f v).
Proof. unfold idx. rewrite nth_error_map. now destruct (nth_error l i). Qed.

(** carrying a scratch value along *)
Lemma for_scratch {S T} (I : T -> Prop) (bA : nat -> T * S -> res (T * S)) (bB : nat -> S -> res S) n : forall a t s, I t ->
  (forall i t s, a <= i < a + n -> I t -> exists t', I t' /\ bA i (t, s) = let* s' := bB i s in Ok (t', s')) ->
  exists t', for_ n a bA (t, s) = let* s' := for_ n a bB s in Ok (t', s').
Proof.
  induction n as [|n IH]; intros a t s Ht H; [exists t; reflexivity|]. cbn [for_].
  destruct (H a t s) as (t' & Ht' & E); [lia|auto|]. rewrite E. destruct (bB a s) as [s'| | |]; cbn [bind]; try (exists t; reflexivity).
  apply IH; auto. intros i u v Hi. apply H. lia.
Qed.

Section T.
Context {M : gmod Fr}.
Variable W : Fr.
Hypothesis HW : lib_root W.

Lemma ark_fft_g1_blst s (data : list M) inverse : ark_fft_g1 s data inverse = fft_g1 s data inverse.
Proof.
  destruct data as [|x data]; [|apply (afftg M s (x :: data) inverse); discriminate].
  rewrite ark_fft_g1_empty. unfold fft_g1. cbn [length]. destruct (max_width s <? 0); reflexivity.
Qed.

Lemma ark_part1_eq (x : list M) fs : unwrap (ark_toeplitz_part_1 x fs) = toeplitz_part_1 fs x.
Proof.
  unfold ark_toeplitz_part_1, toeplitz_part_1.
  rewrite (Proof_Recovery.push_loop _ (fun i => nth i x g0)) by (intros i l Hi; rewrite (idx_ok x i g0) by lia; reflexivity).
  cbn [bind]. rewrite push_const by lia. cbn [bind]. now rewrite ark_fft_g1_blst.
Qed.

Lemma ark_part2_eq k (c : list Fr) (x : list M) fs : fft_settings_new blst_table k = Ok fs ->
  unwrap (ark_toeplitz_part_2 W c x fs) = toeplitz_part_2 fs c x.
Proof.
  intros N. unfold ark_toeplitz_part_2, toeplitz_part_2. rewrite (afft W HW k) by exact N.
  destruct (fft_fr fs c false) as [f| | |]; cbn [unwrap bind]; auto.
  assert (H : forall n a l, for_ n a (fun i out => let* x := idx x i in let* c := idx f i in Ok (out ++ [smul c x])) l <> Err).
  { induction n as [|n IH]; intros a l; cbn [for_]; [discriminate|]. unfold idx at 1. destruct (nth_error x a); cbn [bind]; [|discriminate].
    unfold idx at 1. destruct (nth_error f a); cbn [bind]; [apply IH|discriminate]. }
  unfold for_range. specialize (H (length c - 0) 0 []). destruct (for_ _ _ _ _); cbn [unwrap]; auto. now elim H.
Qed.

Lemma ark_clear_eq (l : list M) a b : a <= b -> b <= length l -> Ok (ark_clear l a b) = clear_range l a b.
Proof.
  intros H1 H2. unfold ark_clear, clear_range. rewrite Nat.min_l by auto. rewrite Nat.max_r by auto.
  now rewrite (proj2 (Nat.leb_le a b) H1), (proj2 (Nat.leb_le b _) H2).
Qed.

Lemma part3_inv k (h h' : list M) fs : fft_settings_new blst_table k = Ok fs -> toeplitz_part_3 fs h = Ok h' ->
  length h' = length h /\ acceptable fs (length h).
Proof.
  intros N. unfold toeplitz_part_3. destruct (fft_g1_total M k fs h true N) as (A & B).
  assert (D : acceptable fs (length h) \/ ~ acceptable fs (length h)).
  { unfold acceptable. destruct (Nat.le_gt_cases (length h) (max_width fs)); [|right; lia].
    destruct (is_pow2 (length h)) eqn:E; [left|right].
    - split; auto. now apply is_pow2_spec.
    - intros (_ & X). apply is_pow2_spec in X. congruence. }
  destruct D as [D|D]; [|rewrite B by auto; discriminate].
  destruct (A D) as (out & -> & L). cbn [unwrap bind]. unfold clear_range. rewrite L.
  destruct (Nat.leb_spec (length h / 2) (length h)); [|discriminate]. destruct (Nat.leb_spec (length h) (length h)); [|lia].
  cbn [andb]. intros E. apply Ok_inj in E. subst h'. split; auto.
  rewrite !app_length, firstn_length, repeat_length, skipn_length. lia.
Qed.

Lemma ark_part3_eq k (h : list M) fs : fft_settings_new blst_table k = Ok fs ->
  unwrap (ark_toeplitz_part_3 h fs) = toeplitz_part_3 fs h.
Proof.
  intros N. unfold ark_toeplitz_part_3, toeplitz_part_3. rewrite ark_fft_g1_blst. destruct (fft_g1_total M k fs h true N) as (A & B).
  destruct (fft_g1 fs h true) as [out| | |] eqn:E; cbn [unwrap bind]; auto.
  assert (L : length out = length h).
  { unfold fft_g1 in E. destruct (Nat.ltb_spec (max_width fs) (length h)); [discriminate|]. destruct (is_pow2 (length h)) eqn:Pw; [|discriminate].
    destruct A as (o & Eo & Lo); [split; auto; now apply is_pow2_spec|]. apply Ok_inj in Eo. now subst. }
  rewrite <- ark_clear_eq; [reflexivity| |lia]. apply Nat.div_le_upper_bound; lia.
Qed.

Lemma ark_stride_spec (p : list Fr) kk l off : 0 < kk -> off < l -> length p = kk * l ->
  ark_toeplitz_coeffs_stride p off l (kk * 2) = Ok (map (tcoef p kk l off) (seq 0 (kk * 2))).
Proof.
  intros Hk Ho L. unfold ark_toeplitz_coeffs_stride. destruct (Nat.eqb_spec l 0); [lia|].
  assert (D : length p / l = kk) by (rewrite L; apply Nat.div_mul; lia). rewrite D.
  destruct (Nat.ltb_spec (kk * 2) (kk * 2)); [lia|].
  assert (LL : l <= length p) by nia.
  rewrite usub_ok by lia. cbn [bind]. rewrite usub_ok by lia. cbn [bind].
  rewrite (idx_ok p _ f0) by lia. cbn [bind]. rewrite upd_ok by (rewrite repeat_length; lia). cbn [bind].
  set (c := nth (length p - 1 - off) p f0). set (out := set (repeat f0 (kk * 2)) 0 c).
  assert (Lo : length out = kk * 2) by (unfold out; now rewrite set_length, repeat_length).
  assert (No : forall i, 0 < i -> nth i out f0 = f0) by (intros i Hi; unfold out; rewrite nth_set_other by (rewrite ?repeat_length; lia); apply nth_repeat_same).
  match goal with |- context [while_ ?fu ?cond ?bd ?s0] =>
    destruct (while_inv (fun st : nat * list Fr => 1 <= fst st /\ snd st = out) (fun st => kk * 2 - fst st) cond bd fu s0) as ((i & o) & -> & (I1 & I2) & _) end.
  - cbn [fst snd]. auto.
  - cbn [fst]. lia.
  - intros (i & o) (I1 & I2) C. cbn [fst snd] in *. subst o. apply andb_true_iff in C as (C1 & C2). apply Nat.ltb_lt in C2.
    rewrite upd_ok by lia. cbn [bind]. eexists. split; [reflexivity|]. cbn [fst snd]. split; [|lia]. split; [lia|].
    apply (nth_ext' f0); [now rewrite set_length|]. intros t Ht. rewrite set_length in Ht. destruct (Nat.eq_dec t i) as [->|]; [rewrite nth_set_same by lia; symmetry; apply No; lia|rewrite nth_set_other by lia; reflexivity].
  - cbn [snd] in *. subst o. cbn [bind]. rewrite usub_ok by lia. cbn [bind]. rewrite usub_ok by lia. cbn [bind].
    assert (Init : out = map (fun t => if t <? kk + 2 then tcoef p kk l off t else f0) (seq 0 (kk * 2))).
    { apply (nth_ext' f0); [now rewrite length_map_seq|]. intros t Ht. rewrite nth_map_seq by lia. unfold tcoef.
      destruct (Nat.ltb_spec t (kk + 2)); [|apply No; lia]. destruct (Nat.eqb_spec t 0) as [->|]; [|apply No; lia].
      unfold out. rewrite nth_set_same by (rewrite repeat_length; lia). unfold c, coef. f_equal. lia. }
    assert (E : exists j', for_range (kk + 2) (kk * 2) (fun i (st : nat * list Fr) => let (j, out) := st in let* c := idx p j in let* out := upd out i c in Ok (j + l, out)) (2 * l - off - 1, out)
        = Ok (j', map (tcoef p kk l off) (seq 0 (kk * 2)))).
    { destruct (Nat.le_gt_cases (kk + 2) (kk * 2)) as [K|K].
      - match goal with |- context [for_range ?a ?b ?bd ?s0] =>
          destruct (for_range_inv (fun i (st : nat * list Fr) => fst st = (i - kk) * l - off - 1 /\ snd st = map (fun t => if t <? i then tcoef p kk l off t else f0) (seq 0 (kk * 2))) bd a b s0) as ((j' & o') & -> & (_ & E2)) end.
        + exact K.
        + cbn [fst snd]. split; [|exact Init]. f_equal. f_equal. f_equal. lia.
        + clear i I1; intros i (j & o) Hi (E1 & E2). cbn [fst snd] in *. subst j o. assert ((i - kk) * l <= kk * l - l) by nia. assert (2 * l <= (i - kk) * l) by nia.
          rewrite (idx_ok p _ f0) by lia. cbn [bind]. rewrite upd_ok by (rewrite length_map_seq; lia). cbn [bind]. eexists. split; [reflexivity|]. cbn [fst snd]. split; [nia|].
          apply (nth_ext' f0); [now rewrite set_length, !length_map_seq|]. intros t Ht. rewrite set_length, length_map_seq in Ht. rewrite (nth_map_seq _ (kk * 2)) by lia.
          destruct (Nat.eq_dec t i) as [->|Ne].
          * rewrite nth_set_same by (rewrite length_map_seq; lia). destruct (Nat.ltb_spec i (S i)); [|lia]. unfold tcoef.
            destruct (Nat.eqb_spec i 0); [lia|]. destruct (Nat.ltb_spec i (kk + 2)); [lia|]. reflexivity.
          * rewrite nth_set_other by (rewrite ?length_map_seq; lia). rewrite nth_map_seq by lia. destruct (Nat.ltb_spec t i), (Nat.ltb_spec t (S i)); try lia; reflexivity.
        + exists j'. cbn [snd] in E2. subst o'. do 2 f_equal. apply map_ext_in. intros t Ht. apply in_seq in Ht. destruct (Nat.ltb_spec t (kk * 2)); [reflexivity|lia].
      - unfold for_range. replace (kk * 2 - (kk + 2)) with 0 by lia. cbn [for_]. eexists. do 2 f_equal. rewrite Init. apply map_ext_in. intros t Ht. apply in_seq in Ht.
        destruct (Nat.ltb_spec t (kk + 2)); [reflexivity|lia]. }
    destruct E as (j' & E); cbn [snd]; rewrite E; reflexivity.
Qed.
End T.

Section P.
Context {P : pairing Fr} (L : ark_lib P).
Variable HW : lib_root (lib_W L).
Implicit Types (ks : ark_kzg P).

(** settings of which only the transform part is used *)
Definition bare (fs : fft_settings Fr) : kzg_settings P := mkKZG fs [] [].

Lemma clone_id s : ark_settings_clone (lib_W L) s = Ok s.
Proof. apply (ark_clone_ok _ blst_table blst_table_ok blst_table_length (aHD _ HW)). Qed.

Lemma ark_single_new_eq ks n2 : ark_fk20_single_new (lib_W L) ks n2 =
  let* fk := fk20_single_new blst_table (view ks) n2 in Ok (mkFKS (bare (ak_fs ks)) (fks_x_ext_fft fk)).
Proof.
  unfold ark_fk20_single_new, fk20_single_new. cbn [view kzg_fs secret_g1]. destruct (max_width (ak_fs ks) <? n2); auto.
  rewrite std_is_pow2_is. destruct (negb (is_pow2 n2)); auto. destruct (n2 <? 2); auto.
  destruct (usub (n2 / 2) 1) as [a| | |]; cbn [bind]; auto.
  match goal with |- (let* x := for_range 0 a ?b1 [] in _) = (let* fk := (let* y := for_range 0 a ?b2 [] in _) in _) =>
    assert (E : for_range 0 a b1 [] = for_range 0 a b2 []) end.
  { apply for_range_ext. intros i st Hi. destruct (usub (n2 / 2) 2); cbn [bind]; auto. destruct (usub _ i); cbn [bind]; auto.
    rewrite idx_map. unfold ark_point. match goal with |- context [idx (ak_g1 ks) ?t] => destruct (@idx (PG1 P * limbs6) (ak_g1 ks) t) end; reflexivity. }
  unfold ark_point in *. rewrite E. match goal with |- (let* x := ?f in _) = _ => destruct f as [x| | |] end; cbn [bind]; auto.
  rewrite clone_id. cbn [bind]. rewrite ark_part1_eq. destruct (toeplitz_part_1 (ak_fs ks) (x ++ [g0])); cbn [bind]; [|reflexivity..].
  rewrite kzg_clone_ok by auto using blst_table_ok, tl0. reflexivity.
Qed.

Lemma ark_multi_new_eq ks n2 c : ark_fk20_multi_new (lib_W L) ks n2 c =
  let* fk := fk20_multi_new blst_table (view ks) n2 c in Ok (mkFKM (bare (ak_fs ks)) (fkm_chunk_len fk) (fkm_files fk)).
Proof.
  unfold ark_fk20_multi_new, fk20_multi_new. cbn [view kzg_fs secret_g1]. destruct (max_width (ak_fs ks) <? n2); auto.
  rewrite !std_is_pow2_is. destruct (negb (is_pow2 n2)); auto. destruct (n2 <? 2); auto.
  destruct (Nat.ltb_spec (n2 / 2) c) as [|C]; auto. destruct (is_pow2 c) eqn:E; auto. cbn [negb].
  apply is_pow2_spec in E as (a & Ec). assert (Pa := pow2_pos a). destruct (Nat.eqb_spec c 0) as [|_]; [lia|].
  assert (K1 : 1 <= n2 / 2 / c) by (apply Nat.div_le_lower_bound; lia). set (n := n2 / 2) in *. set (k := n / c) in *. clearbody k.
  match goal with |- (let* x := for_range 0 c ?b1 [] in _) = (let* fk := (let* y := for_range 0 c ?b2 [] in _) in _) =>
    assert (E : for_range 0 c b1 [] = for_range 0 c b2 []) end.
  { apply for_range_ext. intros off st Hi. cbv zeta. rewrite usub_ok by lia. cbn [bind]. set (start := if c + 1 + off <=? n then _ else _).
    unfold for_range. rewrite Nat.sub_0_r.
    assert (F := fill_push (ak_g1 ks) fst (fun j => if c <=? j then j - c else 0) g0 (k - 1) 0 start [] k eq_refl ltac:(lia)). cbn [app] in F.
    unfold ark_point in *. rewrite F. clear F.
    set (bd := fun st : nat * list (PG1 P) => let (j, x) := st in let* v := idx (map fst (ak_g1 ks)) j in Ok (if c <=? j then j - c else 0, x ++ [v])).
    assert (Wf := while_for bd (k - 1) (S k) 0 (start, []) ltac:(lia)).
    set (g := fun st : nat * nat * list (PG1 P) => let '(i, j, ret) := st in (i, (j, ret))).
    match goal with |- _ = let* st := while_ ?fu ?cond ?body ?s0 in _ =>
      assert (E := while_map g cond body (fun st : nat * (nat * list (PG1 P)) => fst st <? k - 1) (fun st => let* s := bd (snd st) in Ok (fst st + 1, s))) end.
    specialize (E ltac:(intros ((a' & b') & d); cbn [g fst]; apply eq_true_iff_eq; rewrite !Nat.ltb_lt; lia)).
    specialize (E ltac:(intros ((a' & b') & d); cbn [g snd fst bd]; destruct (idx (map fst (ak_g1 ks)) b'); reflexivity)).
    specialize (E (S k) (0, start, [])). cbn [g] in E. rewrite Wf in E. clear Wf. unfold for_range in E. rewrite Nat.sub_0_r in E.
    assert (B : for_ (k - 1) 0 (fun _ (st : nat * list (PG1 P)) => let (j, x) := st in let* v := idx (ak_g1 ks) j in Ok (if c <=? j then j - c else 0, x ++ [fst v])) (start, [])
       = for_ (k - 1) 0 (fun _ => bd) (start, [])).
    { apply for_ext. intros j (j' & x) _. cbn [bd]. rewrite idx_map. unfold ark_point. match goal with |- context [idx (ak_g1 ks) ?t] => destruct (@idx (PG1 P * limbs6) (ak_g1 ks) t) end; reflexivity. }
    unfold ark_point in *. rewrite B. clear B.
    assert (LEN : forall t, for_ (k - 1) 0 (fun _ => bd) (start, []) = Ok t -> length (snd t) = k - 1).
    { assert (G : forall m a s t, for_ m a (fun _ => bd) s = Ok t -> length (snd t) = length (snd s) + m).
      { induction m as [|m IH]; intros a' s t H; [cbn [for_] in H; apply Ok_inj in H; subst; lia|]. cbn [for_] in H.
        destruct s as (j & x). cbn [bd] in H. destruct (idx (map fst (ak_g1 ks)) j); cbn [bind] in H; [|discriminate H..].
        apply IH in H. cbn [snd] in *. rewrite app_length in H. cbn [length] in H. lia. }
      intros t H. apply G in H. exact H. }
    match type of E with (let* t := ?w in _) = _ => destruct w as [((a' & b') & d)| | |] end; cbn [bind g] in E |- *;
      destruct (for_ (k - 1) 0 (fun _ => bd) (start, [])) as [(a2 & d')| | |] eqn:Fo; cbn [bind fst snd] in E |- *;
      [|try discriminate E; reflexivity..].
    apply Ok_inj in E. inversion E; subst. specialize (LEN _ eq_refl). cbn [snd] in LEN.
    replace (k - (k - 1)) with 1 by lia. cbn [repeat]. rewrite upd_ok by (rewrite app_length; cbn [length]; lia). cbn [bind].
    replace (set (d' ++ [g0]) (k - 1) g0) with (d' ++ [g0 : PG1 P]).
    - now rewrite ark_part1_eq.
    - rewrite <- LEN. clear. induction d' as [|x d' IH]; cbn [app set length]; [reflexivity|]. f_equal. exact IH. }
  rewrite E. match goal with |- (let* x := ?f in _) = _ => destruct f as [x| | |] end; cbn [bind]; auto.
  rewrite clone_id. cbn [bind]. rewrite kzg_clone_ok by auto using blst_table_ok, tl0. reflexivity.
Qed.

Lemma fft_ok k fs (h : list (PG1 P)) : fft_settings_new blst_table k = Ok fs -> acceptable fs (length h) ->
  ark_fft_g1 fs h false = unwrap (fft_g1 fs h false).
Proof. intros N A. rewrite ark_fft_g1_blst. destruct (fft_g1_total (PG1 P) k fs h false N) as (T & _). destruct (T A) as (o & -> & _). reflexivity. Qed.

Lemma ark_single_da_opt_eq k (fk : fk20_single P) (p : list Fr) : fft_settings_new blst_table k = Ok (kzg_fs (fks_kzg fk)) ->
  ark_fk20_single_da_opt (lib_W L) fk p = fk20_single_da_opt fk p.
Proof.
  intros N. unfold ark_fk20_single_da_opt, fk20_single_da_opt. set (fs := kzg_fs (fks_kzg fk)) in *.
  destruct (max_width fs <? length p * 2); auto. rewrite is_pow2_double.
  destruct (std_is_pow2 (length p)) eqn:E; cbn [negb]; auto.
  assert (Lp : 0 < length p). { destruct p; [discriminate|cbn [length]; lia]. }
  unfold ark_toeplitz_coeffs_step, toeplitz_coeffs_step. rewrite (Nat.mul_comm 2).
  rewrite (ark_stride_spec p (length p) 1 0) by lia. rewrite (stride_spec p (length p) 1 0) by lia. cbn [unwrap bind].
  rewrite (ark_part2_eq _ HW k) by exact N. destruct (toeplitz_part_2 fs _ _) as [h| | |]; cbn [bind]; auto.
  rewrite (ark_part3_eq k) by exact N. destruct (toeplitz_part_3 fs h) as [h'| | |] eqn:E3; cbn [bind]; auto.
  destruct (part3_inv k h h' fs N E3) as (L3 & A3). apply (fft_ok k); auto. now rewrite L3.
Qed.

Lemma unwrap_da_opt_single (fk : fk20_single P) (p : list Fr) k : fft_settings_new blst_table k = Ok (kzg_fs (fks_kzg fk)) ->
  ark_fk20_single_da (lib_W L) fk p = fk20_single_da fk p.
Proof.
  intros N. unfold ark_fk20_single_da, fk20_single_da. destruct (_ <? _); auto. rewrite is_pow2_double. destruct (negb _); auto.
  rewrite (ark_single_da_opt_eq k) by exact N. reflexivity.
Qed.

Lemma add_len N (h hf h' : list (PG1 P)) : for_range 0 N (fun j (h : list (PG1 P)) => let* a := idx h j in let* b := idx hf j in upd h j (gadd a b)) h = Ok h' -> length h' = length h.
Proof.
  unfold for_range. rewrite Nat.sub_0_r. generalize 0 at 1. revert h. induction N as [|N IH]; intros h a E; cbn [for_] in E; [apply Ok_inj in E; now subst|].
  destruct (idx h a); cbn [bind] in E; [|discriminate E..]. destruct (idx hf a); cbn [bind] in E; [|discriminate E..].
  unfold upd in E. destruct (a <? length h); cbn [bind] in E; [|discriminate E..]. apply IH in E. now rewrite set_length in E.
Qed.

Lemma ark_multi_da_opt_eq k a m (fk : fk20_multi P) (p : list Fr) : fft_settings_new blst_table k = Ok (kzg_fs (fkm_kzg fk)) ->
  fkm_chunk_len fk = 2 ^ a -> length p = 2 ^ m -> a <= m -> ark_fk20_multi_da_opt (lib_W L) fk p = fk20_multi_da_opt fk p.
Proof.
  intros N Ca Lm Ham. unfold ark_fk20_multi_da_opt, fk20_multi_da_opt. set (fs := kzg_fs (fkm_kzg fk)) in *. rewrite Ca.
  destruct (max_width fs <? length p * 2); auto. rewrite is_pow2_double.
  destruct (std_is_pow2 (length p)) eqn:E; cbn [negb]; auto.
  assert (Pa := pow2_pos a). assert (Pm := pow2_pos (m - a)). destruct (Nat.eqb_spec (2 ^ a) 0); [lia|]. cbn [bind].
  assert (EM : 2 ^ m = 2 ^ (m - a) * 2 ^ a) by (rewrite <- Nat.pow_add_r; f_equal; lia).
  assert (D : length p * 2 / 2 = 2 ^ m) by (rewrite Lm; apply Nat.div_mul; lia). rewrite D.
  assert (Dk : 2 ^ m / 2 ^ a = 2 ^ (m - a)) by (rewrite EM; apply Nat.div_mul; lia). rewrite Dk.
  assert (D2 : length p * 2 / 2 ^ a = 2 ^ (m - a) * 2). { rewrite Lm, EM. replace (2 ^ (m - a) * 2 ^ a * 2) with (2 ^ (m - a) * 2 * 2 ^ a) by lia. apply Nat.div_mul. lia. }
  rewrite D2. set (kk := 2 ^ (m - a)) in *. set (l := 2 ^ a) in *. rewrite push_const by lia. cbn [bind app]. rewrite Nat.sub_0_r.
  unfold for_range at 1 3. rewrite Nat.sub_0_r.
  match goal with |- (let* st := for_ l 0 ?bA (?t0, ?s0) in _) = (let* h := for_ l 0 ?bB _ in _) =>
    destruct (for_scratch (fun t : list Fr => length t = kk * 2) bA bB l 0 t0 s0) as (t' & Et);
      [apply repeat_length| |rewrite Et; clear Et; destruct (for_ l 0 bB s0) as [hx| | |] eqn:Eh] end; cbn [bind snd]; [| |reflexivity..].
  - intros i t s Hi Ht. rewrite Ht. rewrite ark_stride_spec by lia. cbn [unwrap bind].
    exists (map (tcoef p kk l i) (seq 0 (kk * 2))). split; [apply length_map_seq|]. rewrite (stride_spec p kk l i) by lia. cbn [bind].
    destruct (idx (fkm_files fk) i) as [f| | |]; cbn [bind]; auto. rewrite (ark_part2_eq _ HW k) by exact N.
    destruct (toeplitz_part_2 fs _ f) as [hf| | |]; cbn [bind]; auto.
  - assert (Lh : length hx = kk * 2).
    { assert (G : forall n a s t, length s = kk * 2 -> for_ n a (fun i (h : list (PG1 P)) =>
          let* tc := toeplitz_coeffs_stride p i l in let* file := idx (fkm_files fk) i in let* hf := toeplitz_part_2 fs tc file in
          for_range 0 (kk * 2) (fun j (h : list (PG1 P)) => let* a := idx h j in let* b := idx hf j in upd h j (gadd a b)) h) s = Ok t -> length t = kk * 2).
      { induction n0 as [|n0 IH]; intros a0 s t Hs H; cbn [for_] in H; [apply Ok_inj in H; now subst|].
        destruct (toeplitz_coeffs_stride p a0 l); cbn [bind] in H; [|discriminate H..]. destruct (idx (fkm_files fk) a0); cbn [bind] in H; [|discriminate H..].
        destruct (toeplitz_part_2 fs _ _); cbn [bind] in H; [|discriminate H..].
        match type of H with (let* x := ?f in _) = _ => destruct f as [s'| | |] eqn:Ef end; cbn [bind] in H; [|discriminate H..].
        apply add_len in Ef. apply IH in H; auto. lia. }
      eapply G; [|exact Eh]. apply repeat_length. }
    rewrite (ark_part3_eq k) by exact N. destruct (toeplitz_part_3 fs hx) as [h'| | |] eqn:E3; cbn [bind]; auto.
    destruct (part3_inv k hx h' fs N E3) as (L3 & A3). rewrite <- ark_clear_eq by lia. cbn [bind].
    apply (fft_ok k); auto. unfold ark_clear. rewrite !app_length, firstn_length, repeat_length, skipn_length.
    rewrite L3, Lh in *. replace (Nat.min kk (kk * 2) + _) with (kk * 2) by lia. exact A3.
Qed.

Lemma ark_multi_da_eq k a m (fk : fk20_multi P) (p : list Fr) : fft_settings_new blst_table k = Ok (kzg_fs (fkm_kzg fk)) ->
  fkm_chunk_len fk = 2 ^ a -> length p = 2 ^ m -> a <= m -> ark_fk20_multi_da (lib_W L) fk p = fk20_multi_da fk p.
Proof.
  intros N Ca Lm Ham. unfold ark_fk20_multi_da, fk20_multi_da. destruct (_ <? _); auto. rewrite is_pow2_double. destruct (negb _); auto.
  rewrite (ark_multi_da_opt_eq k a m) by auto. reflexivity.
Qed.

(** ** values *)
Lemma trimmed_quotient (p p' q q' : list Fr) n y s : 0 < n -> trimmed p p' -> euclid p (binomial n y) q -> euclid p' (binomial n y) q' -> peval q s = peval q' s.
Proof.
  intros Hn T (_ & r0 & L0 & E0) (_ & r1 & L1 & E1). apply peval_ext. assert (B := binomial_length n y Hn).
  refine (proj1 (euclid_unique (binomial n y) q r0 q' r1 _ _ L0 L1 _)).
  - intros Z. rewrite Z in B. discriminate B.
  - rewrite B. replace (S n - 1) with n by lia. rewrite binomial_monic by auto. apply f1_neq_0.
  - intros i. rewrite <- E0, <- E1. now apply trimmed_coef.
Qed.

Lemma zero_quotient (p : list Fr) n y q s : 0 < n -> (forall i, coef p i = f0) -> euclid p (binomial n y) q -> peval q s = f0.
Proof.
  intros Hn Z (_ & r0 & L0 & E0). assert (B := binomial_length n y Hn). change f0 with (peval (@nil Fr) s). apply peval_ext.
  refine (proj1 (euclid_unique (binomial n y) q r0 [] [] _ _ L0 _ _)).
  - intros Z'. rewrite Z' in B. discriminate B.
  - rewrite B. replace (S n - 1) with n by lia. rewrite binomial_monic by auto. apply f1_neq_0.
  - rewrite B. cbn [length]. lia.
  - intros i. rewrite <- E0, Z. rewrite convol_nil_l. cbn [coef nth]. unfold coef. destruct i; cbn [nth]; symmetry; apply fadd_0_l'.
Qed.

Lemma degree_trimmed (p p' : list Fr) d : trimmed p p' -> (forall i, d <= i -> coef p i = f0) -> length p' <= d.
Proof.
  intros T H. destruct (Nat.le_gt_cases (length p') d) as [|G]; [auto|]. exfalso.
  assert (N : last p' f0 <> f0) by apply T. apply N. rewrite last_coef, <- (trimmed_coef _ _ T). apply H. lia.
Qed.

Lemma single_value ks k u beta (p q : list Fr) x : ark_made L ks k u beta -> 0 < u -> (forall i, ark_powers u <= i -> coef p i = f0) ->
  euclid p (binomial 1 x) q -> ark_compute_proof_single ks p x = Ok (smul (peval q beta) gen1).
Proof.
  intros H U B Q. destruct (C79_compute_proof L HW ks k u beta p x H) as (_ & Z & N & _).
  destruct (iszero_dec p) as [E|E].
  - rewrite Z by auto. f_equal. rewrite (zero_quotient p 1 x q beta) by auto. symmetry. apply smul_0_l.
  - destruct (trimmed_exists p E) as (p' & T). destruct (N p' U T (degree_trimmed _ _ _ T B)) as (q' & Q' & ->).
    do 2 f_equal. symmetry. apply (trimmed_quotient p p' q q' 1 x); auto.
Qed.

Lemma multi_value ks k u beta (p q : list Fr) x n : ark_made L ks k u beta -> fits (2 * length p) -> 0 < n -> (exists i, coef p i <> f0) ->
  (forall i, ark_powers u + n <= i -> coef p i = f0) -> length p <= u + 1 + n ->
  euclid p (binomial n (fpow x n)) q -> ark_compute_proof_multi L ks p x n = Ok (smul (peval q beta) gen1).
Proof.
  intros H F Hn NZ B Lp Q. destruct (trimmed_exists p NZ) as (p' & T).
  destruct (C80_compute_proof L HW ks k u beta p p' x n H F Hn T) as (A & _).
  destruct A as (q' & Q' & ->); [now apply (degree_trimmed p)|lia|]. do 2 f_equal. symmetry. now apply (trimmed_quotient p p' q q' n (fpow x n)).
Qed.

Lemma quotient_exists ks u beta (p : list Fr) x a : shape L ks u beta -> fits (2 * length p) -> exists q, euclid p (binomial (2 ^ a) (fpow x (2 ^ a))) q.
Proof. intros S F. destruct (proof_multi_spec blst_table Hdiv_Fr (view ks) beta (u + 1) a p x (view_setup L ks u beta S) F) as (q & r & Hq & _). eauto. Qed.

(** ** the constructors *)
Let file (k m : nat) (beta : Fr) l off : list (PG1 P) := dft (fpow (root k) (2 ^ (k - S m))) (2 ^ S m) (xvec beta (2 ^ m) l off ++ repeat g0 (2 ^ m)).

Lemma single_new_ok ks k u beta m : ark_made L ks k u beta -> S m <= k -> 2 ^ m <= u + 2 ->
  ark_fk20_single_new (lib_W L) ks (2 ^ S m) = Ok (mkFKS (bare (ak_fs ks)) (file k m beta 1 0)).
Proof.
  intros H Hm Hn. destruct (made_inv L HW ks k u beta H) as (K32 & S' & HF & N). assert (V := view_setup L ks u beta S').
  rewrite ark_single_new_eq, (single_new_gen blst_table blst_table_ok tl0 (view ks) beta (u + 1) k (root k)) by (auto; lia). reflexivity.
Qed.

Lemma multi_new_ok ks k u beta m a : ark_made L ks k u beta -> S m <= k -> a <= m -> 2 ^ m <= 2 ^ a + (u + 1) ->
  ark_fk20_multi_new (lib_W L) ks (2 ^ S m) (2 ^ a) = Ok (mkFKM (bare (ak_fs ks)) (2 ^ a) (map (file k (m - a) beta (2 ^ a)) (seq 0 (2 ^ a)))).
Proof.
  intros H Hm Ha Hn. destruct (made_inv L HW ks k u beta H) as (K32 & S' & HF & N). assert (V := view_setup L ks u beta S').
  rewrite ark_multi_new_eq, (multi_new_gen blst_table blst_table_ok tl0 (view ks) beta (u + 1) k (root k)) by (auto; lia). reflexivity.
Qed.

Lemma C81_single_new_proof ks k u beta n2 : ark_made L ks k u beta ->
  (~ (n2 <= 2 ^ k /\ exists m, n2 = 2 ^ S m) -> ark_fk20_single_new (lib_W L) ks n2 = Err) /\
  (forall m, n2 = 2 ^ S m -> S m <= k ->
     (2 ^ m <= u + 2 -> exists fk, ark_fk20_single_new (lib_W L) ks n2 = Ok fk) /\
     (u + 2 < 2 ^ m -> ark_fk20_single_new (lib_W L) ks n2 = Panic)).
Proof.
  intros H. destruct (made_inv L HW ks k u beta H) as (K32 & S' & HF & N). pose proof HF as (W & _). split.
  - intros Hn. unfold ark_fk20_single_new. rewrite W.
    destruct (Nat.ltb_spec (2 ^ k) n2) as [|L']; [reflexivity|]. destruct (std_is_pow2 n2) eqn:E; [|reflexivity]. cbn [negb].
    apply std_is_pow2_spec in E as ([|m] & ->); [reflexivity|]. elim Hn. eauto.
  - intros m -> Hm. split; intros Lu.
    + eexists. now apply (single_new_ok ks k u beta).
    + unfold ark_fk20_single_new. rewrite W. assert (P2 := pow2_pos m).
      assert (2 ^ S m <= 2 ^ k) by (apply Nat.pow_le_mono_r; lia).
      assert (E2 : 2 ^ S m = 2 ^ m * 2) by (simpl; lia).
      destruct (Nat.ltb_spec (2 ^ k) (2 ^ S m)); [lia|]. rewrite std_is_pow2_pow. cbn [negb].
      destruct (Nat.ltb_spec (2 ^ S m) 2); [lia|].
      assert (D : 2 ^ S m / 2 = 2 ^ m) by (rewrite E2; apply Nat.div_mul; lia). rewrite D.
      rewrite usub_ok by lia. cbn [bind]. set (N' := 2 ^ m) in *. clearbody N'. unfold for_range. rewrite Nat.sub_0_r.
      replace (N' - 1) with (S (N' - 2)) by lia. cbn [for_]. rewrite usub_ok by lia. cbn [bind]. rewrite usub_ok by lia. cbn [bind].
      destruct S' as (S1 & _). unfold ark_point. rewrite S1, idx_panic by (rewrite length_map_seq; lia). reflexivity.
Qed.

Lemma C81_multi_new_proof ks k u beta n2 cl : ark_made L ks k u beta ->
  (~ (n2 <= 2 ^ k /\ exists m a, n2 = 2 ^ S m /\ cl = 2 ^ a /\ a <= m) -> ark_fk20_multi_new (lib_W L) ks n2 cl = Err) /\
  (forall m a, n2 = 2 ^ S m -> cl = 2 ^ a -> a <= m -> S m <= k ->
     (2 ^ m <= 2 ^ a + (u + 1) -> exists fk, ark_fk20_multi_new (lib_W L) ks n2 cl = Ok fk) /\
     (2 ^ a + (u + 1) < 2 ^ m -> ark_fk20_multi_new (lib_W L) ks n2 cl = Panic)).
Proof.
  intros H. destruct (made_inv L HW ks k u beta H) as (K32 & S' & HF & N). pose proof HF as (W & _). split.
  - intros Hn. unfold ark_fk20_multi_new. rewrite W.
    destruct (Nat.ltb_spec (2 ^ k) n2) as [|L']; [reflexivity|]. destruct (std_is_pow2 n2) eqn:E; [|reflexivity]. cbn [negb].
    apply std_is_pow2_spec in E as ([|m] & ->); [reflexivity|].
    assert (P2 := pow2_pos m). assert (E2 : 2 ^ S m = 2 ^ m * 2) by (simpl; lia).
    destruct (Nat.ltb_spec (2 ^ S m) 2); [reflexivity|].
    assert (D : 2 ^ S m / 2 = 2 ^ m) by (rewrite E2; apply Nat.div_mul; lia). rewrite D.
    destruct (Nat.ltb_spec (2 ^ m) cl) as [|C]; [reflexivity|]. destruct (std_is_pow2 cl) eqn:E; [|reflexivity]. cbn [negb].
    apply std_is_pow2_spec in E as (a & ->). elim Hn. split; auto. exists m, a. split; auto. split; auto. now apply pow2_le_inv.
  - intros m a -> -> Ha Hm. split; intros Lu.
    + eexists. now apply (multi_new_ok ks k u beta).
    + unfold ark_fk20_multi_new. rewrite W. assert (P2 := pow2_pos m). assert (Pa := pow2_pos a). assert (Pk := pow2_pos (m - a)).
      assert (2 ^ S m <= 2 ^ k) by (apply Nat.pow_le_mono_r; lia).
      assert (E2 : 2 ^ S m = 2 ^ m * 2) by (simpl; lia).
      assert (EM : 2 ^ m = 2 ^ (m - a) * 2 ^ a) by (rewrite <- Nat.pow_add_r; f_equal; lia).
      destruct (Nat.ltb_spec (2 ^ k) (2 ^ S m)); [lia|]. rewrite std_is_pow2_pow. cbn [negb].
      destruct (Nat.ltb_spec (2 ^ S m) 2); [lia|].
      assert (D : 2 ^ S m / 2 = 2 ^ m) by (rewrite E2; apply Nat.div_mul; lia). rewrite D.
      destruct (Nat.ltb_spec (2 ^ m) (2 ^ a)); [nia|]. rewrite std_is_pow2_pow. cbn [negb].
      destruct (Nat.eqb_spec (2 ^ a) 0); [lia|].
      assert (Dk : 2 ^ m / 2 ^ a = 2 ^ (m - a)) by (rewrite EM; apply Nat.div_mul; lia). rewrite Dk.
      assert (K2 : 2 <= 2 ^ (m - a)) by nia.
      set (kk := 2 ^ (m - a)) in *. set (l := 2 ^ a) in *. unfold for_range. rewrite !Nat.sub_0_r.
      destruct l as [|l'] eqn:El; [lia|]. cbn [for_]. rewrite <- El in *. rewrite usub_ok by lia. cbn [bind].
      destruct (Nat.leb_spec (l + 1 + 0) (2 ^ m)); [|lia]. rewrite Nat.sub_0_r. destruct kk as [|[|kk']] eqn:Ek; [lia|lia|]. replace (S (S kk') - 1) with (S kk') by lia. cbn [for_].
      destruct S' as (S1 & _). unfold ark_point. rewrite S1, idx_panic by (rewrite length_map_seq; lia). reflexivity.
Qed.

Lemma single_new_inv ks k u beta n2 fk : ark_made L ks k u beta -> ark_fk20_single_new (lib_W L) ks n2 = Ok fk ->
  exists m, n2 = 2 ^ S m /\ S m <= k /\ 2 ^ m <= u + 2 /\ fk = mkFKS (bare (ak_fs ks)) (file k m beta 1 0).
Proof.
  intros H E. destruct (C81_single_new_proof ks k u beta n2 H) as (A & B).
  destruct (Nat.le_gt_cases n2 (2 ^ k)) as [L1|L1]; [|rewrite A in E by lia; discriminate E].
  destruct (std_is_pow2 n2) eqn:P2; [apply std_is_pow2_spec in P2 as ([|m] & ->)|].
  - rewrite A in E; [discriminate E|]. intros (_ & m & Em). assert (Q := pow2_pos m). simpl in Em. lia.
  - assert (Hm : S m <= k) by now apply pow2_le_inv. destruct (B m eq_refl Hm) as (_ & C).
    destruct (Nat.le_gt_cases (2 ^ m) (u + 2)) as [L2|L2]; [|rewrite C in E by lia; discriminate E].
    exists m. repeat split; auto. rewrite (single_new_ok ks k u beta) in E by auto. apply Ok_inj in E. now symmetry.
  - rewrite A in E; [discriminate E|]. intros (_ & m & Em). assert (X : std_is_pow2 n2 = true) by (apply std_is_pow2_spec; eauto). congruence.
Qed.

Lemma multi_new_inv ks k u beta n2 cl fk : ark_made L ks k u beta -> ark_fk20_multi_new (lib_W L) ks n2 cl = Ok fk ->
  exists m a, n2 = 2 ^ S m /\ cl = 2 ^ a /\ a <= m /\ S m <= k /\ 2 ^ m <= 2 ^ a + (u + 1) /\
    fk = mkFKM (bare (ak_fs ks)) (2 ^ a) (map (file k (m - a) beta (2 ^ a)) (seq 0 (2 ^ a))).
Proof.
  intros H E. destruct (C81_multi_new_proof ks k u beta n2 cl H) as (A & B).
  assert (D : (n2 <= 2 ^ k /\ exists m a, n2 = 2 ^ S m /\ cl = 2 ^ a /\ a <= m) \/ ~ (n2 <= 2 ^ k /\ exists m a, n2 = 2 ^ S m /\ cl = 2 ^ a /\ a <= m)).
  { destruct (Nat.le_gt_cases n2 (2 ^ k)) as [L1|L1]; [|right; lia].
    destruct (std_is_pow2 n2) eqn:P2; [apply std_is_pow2_spec in P2 as ([|m] & ->)|].
    - right. intros (_ & m & a & Em & _). assert (Q := pow2_pos m). simpl in Em. lia.
    - destruct (std_is_pow2 cl) eqn:P3; [apply std_is_pow2_spec in P3 as (a & ->)|].
      + destruct (Nat.le_gt_cases a m); [left; eauto 8|right]. intros (_ & m' & a' & Em & Ea & Hl).
        apply Nat.pow_inj_r in Em; [|lia]. apply Nat.pow_inj_r in Ea; lia.
      + right. intros (_ & m' & a' & _ & Ea & _). assert (X : std_is_pow2 cl = true) by (apply std_is_pow2_spec; eauto). congruence.
    - right. intros (_ & m & a' & Em & _). assert (X : std_is_pow2 n2 = true) by (apply std_is_pow2_spec; eauto). congruence. }
  destruct D as [(L1 & m & a & -> & -> & Ha)|D]; [|rewrite A in E by exact D; discriminate E].
  assert (Hm : S m <= k) by now apply pow2_le_inv. destruct (B m a eq_refl eq_refl Ha Hm) as (_ & C).
  destruct (Nat.le_gt_cases (2 ^ m) (2 ^ a + (u + 1))) as [L2|L2]; [|rewrite C in E by lia; discriminate E].
  exists m, a. repeat split; auto. rewrite (multi_new_ok ks k u beta) in E by auto. apply Ok_inj in E. now symmetry.
Qed.

Lemma rev_step A (out : list A) n : n < 32 -> length out = 2 ^ n ->
  exists rev, reverse_bit_order out = Ok rev /\ length rev = 2 ^ n /\ forall i, i < 2 ^ n -> nth_error rev i = nth_error out (bitrev n i).
Proof. intros Hn Lo. destruct (reverse_bit_order_correct n out ltac:(lia) Lo) as (l' & E & L' & I & _). eauto. Qed.

(** ** the batches *)
Lemma C81_single_proof ks k u beta m (p : list Fr) : ark_made L ks k u beta -> S m <= k -> 2 ^ m <= u + 2 -> length p = 2 ^ m ->
  exists fk out, ark_fk20_single_new (lib_W L) ks (2 ^ S m) = Ok fk /\ ark_fk20_single_da_opt (lib_W L) fk p = Ok out /\ length out = 2 ^ S m /\
    (forall i, i < 2 ^ S m -> exists q, euclid p [fneg (fpow (root (S m)) i); f1] q /\ nth_error out i = Some (smul (peval q beta) gen1)) /\
    (0 < u -> (forall i, ark_powers u <= i -> coef p i = f0) -> forall i, i < 2 ^ S m ->
       exists pf, ark_compute_proof_single ks p (fpow (root (S m)) i) = Ok pf /\ nth_error out i = Some pf) /\
    exists rev, ark_fk20_single_da (lib_W L) fk p = Ok rev /\ length rev = 2 ^ S m /\
      forall i, i < 2 ^ S m -> nth_error rev i = nth_error out (bitrev (S m) i).
Proof.
  intros H Hm Hn Lp. destruct (made_inv L HW ks k u beta H) as (K32 & S' & HF & N). assert (P2 := pow2_pos m).
  do 2 eexists. split; [apply (single_new_ok ks k u beta); auto|].
  assert (DA := single_da_opt_gen blst_table tl0 (bare (ak_fs ks)) beta k (root k) HF m p Hm Lp).
  split; [rewrite (ark_single_da_opt_eq k) by exact N; exact DA|]. split; [apply length_map_seq|].
  assert (VAL : forall i, i < 2 ^ S m -> exists q, euclid p (binomial 1 (fpow (root (S m)) i)) q /\
     smul (sum (2 ^ m) (fun j => fmul (fpow (fpow (fpow (root k) (2 ^ (k - S m))) i) j) (peval (skipn ((j + 1) * 1) p) beta))) (gen1 : PG1 P) = smul (peval q beta) gen1).
  { intros i Hi. destruct (quotient_exists ks u beta p (fpow (root (S m)) i) 0 S') as (q & Q); [rewrite Lp; apply fits_pow; lia|].
    change (2 ^ 0) with 1 in Q. rewrite fpow_1 in Q. exists q. split; [exact Q|]. f_equal.
    rewrite (quotient_value p q (2 ^ m) 1 (fpow (root (S m)) i) beta) by (try lia; exact Q).
    apply sum_ext. intros j Hj. do 2 f_equal. now rewrite root_pow by lia. }
  split; [|split].
  - intros i Hi. destruct (VAL i Hi) as (q & Q & E). exists q. split; [exact Q|]. rewrite nth_error_map_seq by auto. f_equal. exact E.
  - intros U B i Hi. destruct (VAL i Hi) as (q & Q & E). eexists. split; [apply (single_value ks k u beta p q); auto|].
    rewrite nth_error_map_seq by auto. f_equal. exact E.
  - match type of DA with _ = Ok ?o => destruct (rev_step _ o (S m) ltac:(lia) (length_map_seq _ _)) as (l' & E & L' & I) end.
    exists l'. split; [|split; auto]. rewrite (unwrap_da_opt_single _ p k) by exact N. unfold fk20_single_da, file. rewrite DA. cbn [fks_kzg bare kzg_fs unwrap bind].
    pose proof HF as (W & _). rewrite W, Lp. replace (2 ^ m * 2) with (2 ^ S m) by (simpl; lia).
    assert (2 ^ S m <= 2 ^ k) by (apply Nat.pow_le_mono_r; lia).
    destruct (Nat.ltb_spec (2 ^ k) (2 ^ S m)); [lia|]. rewrite is_pow2_pow. exact E.
Qed.

Lemma C81_multi_proof ks k u beta m a (p : list Fr) : ark_made L ks k u beta -> S m <= k -> a <= m -> 2 ^ m <= 2 ^ a + (u + 1) -> length p = 2 ^ m ->
  exists fk out, ark_fk20_multi_new (lib_W L) ks (2 ^ S m) (2 ^ a) = Ok fk /\ ark_fk20_multi_da_opt (lib_W L) fk p = Ok out /\ length out = 2 ^ S (m - a) /\
    (forall i, i < 2 ^ S (m - a) -> exists q, euclid p ([fneg (fpow (fpow (root (S m)) i) (2 ^ a))] ++ repeat f0 (2 ^ a - 1) ++ [f1]) q /\
       nth_error out i = Some (smul (peval q beta) gen1)) /\
    ((exists i, coef p i <> f0) -> (forall i, ark_powers u + 2 ^ a <= i -> coef p i = f0) -> forall i, i < 2 ^ S (m - a) ->
       exists pf, ark_compute_proof_multi L ks p (fpow (root (S m)) i) (2 ^ a) = Ok pf /\ nth_error out i = Some pf) /\
    ((forall i, coef p i = f0) -> out = repeat g0 (2 ^ S (m - a))) /\
    exists rev, ark_fk20_multi_da (lib_W L) fk p = Ok rev /\ length rev = 2 ^ S (m - a) /\
      forall i, i < 2 ^ S (m - a) -> nth_error rev i = nth_error out (bitrev (S (m - a)) i).
Proof.
  intros H Hm Ha Hn Lp. destruct (made_inv L HW ks k u beta H) as (K32 & S' & HF & N).
  assert (P2 := pow2_pos m). assert (Pa := pow2_pos a).
  assert (EM : 2 ^ m = 2 ^ (m - a) * 2 ^ a) by (rewrite <- Nat.pow_add_r; f_equal; lia).
  do 2 eexists. split; [apply (multi_new_ok ks k u beta); auto|].
  assert (DA := multi_da_opt_gen blst_table tl0 (bare (ak_fs ks)) beta k (root k) HF m a p Hm Ha Lp).
  split; [rewrite (ark_multi_da_opt_eq k a m); [exact DA|exact N|reflexivity|exact Lp|exact Ha]|]. split; [apply length_map_seq|].
  assert (FT : fits (2 * length p)) by (rewrite Lp; apply fits_pow; lia).
  assert (VAL : forall i, i < 2 ^ S (m - a) -> exists q, euclid p (binomial (2 ^ a) (fpow (fpow (root (S m)) i) (2 ^ a))) q /\
     smul (sum (2 ^ (m - a)) (fun j => fmul (fpow (fpow (fpow (root k) (2 ^ (k - S (m - a)))) i) j) (peval (skipn ((j + 1) * 2 ^ a) p) beta))) (gen1 : PG1 P) = smul (peval q beta) gen1).
  { intros i Hi. destruct (quotient_exists ks u beta p (fpow (root (S m)) i) a S' FT) as (q & Q). exists q. split; [exact Q|]. f_equal.
    rewrite (quotient_value p q (2 ^ (m - a)) (2 ^ a) (fpow (fpow (root (S m)) i) (2 ^ a)) beta) by (try lia; exact Q).
    apply sum_ext. intros j Hj. do 2 f_equal. rewrite root_pow by lia.
    rewrite <- fpow_mul, (Nat.mul_comm i), fpow_mul. f_equal. symmetry.
    replace a with (S m - S (m - a)) at 1 by lia. apply root_pow; lia. }
  split; [|split; [|split]].
  - intros i Hi. destruct (VAL i Hi) as (q & Q & E). exists q. split; [exact Q|]. rewrite nth_error_map_seq by auto. f_equal. exact E.
  - intros NZ B i Hi. destruct (VAL i Hi) as (q & Q & E). eexists. split; [apply (multi_value ks k u beta p q); auto; lia|].
    rewrite nth_error_map_seq by auto. f_equal. exact E.
  - intros Z. apply (nth_ext' g0); [now rewrite map_length, seq_length, repeat_length|]. intros i Hi.
    rewrite map_length, seq_length in Hi. rewrite nth_map_seq by auto. rewrite nth_repeat_same.
    destruct (VAL i Hi) as (q & Q & E). rewrite (zero_quotient p _ _ q beta Pa Z Q) in E. etransitivity; [exact E|]. apply smul_0_l.
  - match type of DA with _ = Ok ?o => destruct (rev_step _ o (S (m - a)) ltac:(lia) (length_map_seq _ _)) as (l' & E & L' & I) end.
    exists l'. split; [|split; auto]. rewrite (ark_multi_da_eq k a m); [|exact N|reflexivity|exact Lp|exact Ha]. unfold fk20_multi_da, file. rewrite DA. cbn [fkm_kzg bare kzg_fs unwrap bind].
    pose proof HF as (W & _). rewrite W, Lp. replace (2 ^ m * 2) with (2 ^ S m) by (simpl; lia).
    assert (2 ^ S m <= 2 ^ k) by (apply Nat.pow_le_mono_r; lia).
    destruct (Nat.ltb_spec (2 ^ k) (2 ^ S m)); [lia|]. rewrite is_pow2_pow. exact E.
Qed.

(** ** polynomials of another size *)
Lemma C81_errors_proof ks k u beta n2 n2' cl fks fkm (p : list Fr) : ark_made L ks k u beta ->
  ark_fk20_single_new (lib_W L) ks n2 = Ok fks -> ark_fk20_multi_new (lib_W L) ks n2' cl = Ok fkm ->
  ~ (length p * 2 <= 2 ^ k /\ exists m, length p = 2 ^ m) ->
  ark_fk20_single_da_opt (lib_W L) fks p = Err /\ ark_fk20_single_da (lib_W L) fks p = Err /\
  ark_fk20_multi_da_opt (lib_W L) fkm p = Err /\ ark_fk20_multi_da (lib_W L) fkm p = Err.
Proof.
  intros H E1 E2 Hn. destruct (made_inv L HW ks k u beta H) as (K32 & S' & (W & _) & N).
  destruct (single_new_inv _ _ _ _ _ _ H E1) as (m1 & _ & _ & _ & ->). destruct (multi_new_inv _ _ _ _ _ _ _ H E2) as (m2 & a & _ & _ & _ & _ & _ & ->).
  assert (C : (2 ^ k <? length p * 2) = true \/ std_is_pow2 (length p) = false).
  { destruct (Nat.ltb_spec (2 ^ k) (length p * 2)); auto. right. destruct (std_is_pow2 (length p)) eqn:E; auto.
    apply std_is_pow2_spec in E. contradict Hn. split; assumption. }
  unfold ark_fk20_single_da_opt, ark_fk20_single_da, ark_fk20_multi_da_opt, ark_fk20_multi_da. cbn [fks_kzg fkm_kzg bare kzg_fs]. rewrite W.
  destruct C as [-> | ->]; cbn [negb]; [auto|]. destruct (2 ^ k <? length p * 2); auto.
Qed.

Lemma C81_long_proof ks k u beta m m' a fks fkm (p : list Fr) : ark_made L ks k u beta -> m < m' -> S m' <= k -> length p = 2 ^ m' ->
  (ark_fk20_single_new (lib_W L) ks (2 ^ S m) = Ok fks -> ark_fk20_single_da_opt (lib_W L) fks p = Panic /\ ark_fk20_single_da (lib_W L) fks p = Panic) /\
  (ark_fk20_multi_new (lib_W L) ks (2 ^ S m) (2 ^ a) = Ok fkm -> ark_fk20_multi_da_opt (lib_W L) fkm p = Panic /\ ark_fk20_multi_da (lib_W L) fkm p = Panic).
Proof.
  intros H Hm Hm' Lp. destruct (made_inv L HW ks k u beta H) as (K32 & S' & HF & N). pose proof HF as (W & _).
  assert (P2 := pow2_pos m'). assert (2 ^ S m' <= 2 ^ k) by (apply Nat.pow_le_mono_r; lia).
  assert (E2 : 2 ^ m' * 2 = 2 ^ S m') by (simpl; lia).
  split; intros E.
  - destruct (single_new_inv _ _ _ _ _ _ H E) as (m1 & Em & _ & Hu & ->). apply Nat.pow_inj_r in Em; [|lia]. injection Em as <-.
    assert (2 ^ S m < 2 ^ S m') by (apply Nat.pow_lt_mono_r; lia).
    match goal with |- ark_fk20_single_da_opt _ ?fk p = _ /\ _ => assert (DA : fk20_single_da_opt fk p = Panic) end.
    { unfold fk20_single_da_opt. cbn [fks_kzg fks_x_ext_fft bare kzg_fs]. rewrite W, Lp, E2.
      destruct (Nat.ltb_spec (2 ^ k) (2 ^ S m')); [lia|]. rewrite is_pow2_pow. cbn [negb].
      unfold toeplitz_coeffs_step. rewrite (stride_spec p (2 ^ m') 1 0) by lia. cbn [bind]. rewrite E2.
      rewrite (part2_short_panics (ak_fs ks) k (root k) HF (S m') 0); auto.
      - now rewrite map_length, seq_length.
      - unfold file. now rewrite dft_length. }
    rewrite (unwrap_da_opt_single _ p k), (ark_single_da_opt_eq k) by exact N. split; [exact DA|]. unfold fk20_single_da. rewrite DA. cbn [fks_kzg bare kzg_fs]. rewrite W, Lp, E2.
    destruct (Nat.ltb_spec (2 ^ k) (2 ^ S m')); [lia|]. rewrite is_pow2_pow. reflexivity.
  - destruct (multi_new_inv _ _ _ _ _ _ _ H E) as (m1 & a1 & Em & Ea & Ha & _ & Hu & ->). apply Nat.pow_inj_r in Em; [|lia]. apply Nat.pow_inj_r in Ea; [|lia]. injection Em as <-. subst a1.
    assert (Pa := pow2_pos a). assert (Pk := pow2_pos (m' - a)).
    assert (2 ^ S (m - a) < 2 ^ S (m' - a)) by (apply Nat.pow_lt_mono_r; lia).
    assert (Ek : 2 ^ (m' - a) * 2 = 2 ^ S (m' - a)) by (simpl; lia).
    assert (EM : 2 ^ m' = 2 ^ (m' - a) * 2 ^ a) by (rewrite <- Nat.pow_add_r; f_equal; lia).
    match goal with |- ark_fk20_multi_da_opt _ ?fk p = _ /\ _ => assert (DA : fk20_multi_da_opt fk p = Panic) end.
    { unfold fk20_multi_da_opt. cbn [fkm_kzg fkm_chunk_len fkm_files bare kzg_fs]. rewrite W, Lp, E2.
      destruct (Nat.ltb_spec (2 ^ k) (2 ^ S m')); [lia|]. rewrite is_pow2_pow. cbn [negb].
      destruct (Nat.eqb_spec (2 ^ a) 0); [lia|]. cbn [bind].
      assert (D : 2 ^ S m' / 2 = 2 ^ m') by (rewrite <- E2; apply Nat.div_mul; lia). rewrite D.
      assert (Dk : 2 ^ m' / 2 ^ a = 2 ^ (m' - a)) by (rewrite EM; apply Nat.div_mul; lia). rewrite Dk.
      set (l := 2 ^ a) in *. unfold for_range at 1. rewrite Nat.sub_0_r.
      destruct l as [|l'] eqn:El; [lia|]. cbn [for_]. rewrite <- El in *.
      rewrite (stride_spec p (2 ^ (m' - a)) l 0) by lia. cbn [bind].
      rewrite (idx_ok _ 0 []) by (rewrite map_length, seq_length; lia). cbn [bind]. rewrite nth_map_seq by lia. rewrite Ek.
      rewrite (part2_short_panics (ak_fs ks) k (root k) HF (S (m' - a)) 0); auto.
      - lia.
      - now rewrite map_length, seq_length.
      - unfold file. now rewrite dft_length. }
    rewrite (ark_multi_da_eq k a m'), (ark_multi_da_opt_eq k a m'); try exact N; try reflexivity; try exact Lp; try lia.
    split; [exact DA|]. unfold fk20_multi_da. rewrite DA. cbn [fkm_kzg bare kzg_fs]. rewrite W, Lp, E2.
    destruct (Nat.ltb_spec (2 ^ k) (2 ^ S m')); [lia|]. rewrite is_pow2_pow. reflexivity.
Qed.

Lemma C81_short_multi_proof ks k u beta n2 a b fk (p : list Fr) : ark_made L ks k u beta -> b < a ->
  ark_fk20_multi_new (lib_W L) ks n2 (2 ^ a) = Ok fk -> length p = 2 ^ b ->
  ark_fk20_multi_da_opt (lib_W L) fk p = Panic /\ ark_fk20_multi_da (lib_W L) fk p = Panic.
Proof.
  intros H Hb E Lp. destruct (made_inv L HW ks k u beta H) as (K32 & S' & HF & N). pose proof HF as (W & _).
  destruct (multi_new_inv _ _ _ _ _ _ _ H E) as (m & a1 & -> & Ea & Ha & Hm & Hu & ->). apply Nat.pow_inj_r in Ea; [|lia]. subst a1.
  assert (Pb := pow2_pos b). assert (2 ^ S b <= 2 ^ k) by (apply Nat.pow_le_mono_r; lia).
  assert (2 ^ b < 2 ^ a) by (apply Nat.pow_lt_mono_r; lia).
  assert (E2 : 2 ^ b * 2 = 2 ^ S b) by (simpl; lia). assert (B2 : 2 ^ S b <= 2 ^ a) by (apply Nat.pow_le_mono_r; lia).
  match goal with |- ark_fk20_multi_da_opt _ ?fk p = _ /\ _ => assert (DA : ark_fk20_multi_da_opt (lib_W L) fk p = Panic) end.
  { unfold ark_fk20_multi_da_opt. cbn [fkm_kzg fkm_chunk_len fkm_files bare kzg_fs]. rewrite W, Lp, E2.
    destruct (Nat.ltb_spec (2 ^ k) (2 ^ S b)); [lia|]. rewrite std_is_pow2_pow. cbn [negb].
    destruct (Nat.eqb_spec (2 ^ a) 0); [lia|]. cbn [bind].
    assert (D : 2 ^ S b / 2 = 2 ^ b) by (rewrite <- E2; apply Nat.div_mul; lia). rewrite D.
    rewrite (Nat.div_small (2 ^ b) (2 ^ a)) by lia. change (0 * 2) with 0. unfold for_range at 1. rewrite Nat.sub_0_r. cbn [for_ bind].
    assert (DD : 2 ^ S b / 2 ^ a <= 1) by (apply Nat.div_le_upper_bound; lia).
    set (files := map _ (seq 0 (2 ^ a))). unfold for_range at 1. rewrite Nat.sub_0_r. replace (2 ^ a) with (2 ^ b + S (2 ^ a - 2 ^ b - 1)) at 1 by lia.
    match goal with |- (let* h := for_ _ _ ?bd _ in _) = _ => set (body := bd) end.
    assert (ST : forall i d, i < length p -> ark_toeplitz_coeffs_stride p i (2 ^ a) d = if d =? 0 then Panic else Ok (set (repeat f0 d) 0 (nth (length p - 1 - i) p f0))).
    { intros i d Hi. unfold ark_toeplitz_coeffs_stride. destruct (Nat.eqb_spec (2 ^ a) 0); [lia|].
      rewrite (Nat.div_small (length p) (2 ^ a)) by lia. change (0 * 2) with 0. destruct (Nat.ltb_spec d 0); [lia|].
      rewrite usub_ok by lia. cbn [bind]. rewrite usub_ok by lia. cbn [bind].
      rewrite (idx_ok p _ f0) by lia. cbn [bind]. unfold upd. rewrite repeat_length. destruct (Nat.ltb_spec 0 d), (Nat.eqb_spec d 0); try lia; [|reflexivity].
      cbn [bind while_ fst snd]. change ((1 <=? 0 + 1) && (1 <? 0)) with false. cbn [bind snd].
      rewrite usub_ok by lia. cbn [bind]. rewrite usub_ok by lia. cbn [bind]. unfold for_range. change (0 - (0 + 2)) with 0. reflexivity. }
    assert (BB : forall i t h, i < 2 ^ b -> length t <= 1 -> body i (t, h) = Panic \/ exists t', length t' <= 1 /\ body i (t, h) = Ok (t', h)).
    { intros i t h Hi Ht. unfold body. rewrite ST by lia. destruct (Nat.eqb_spec (length t) 0); cbn [unwrap bind]; [left; reflexivity|right].
      replace (length t) with 1 by lia. cbn [repeat set]. rewrite (idx_ok files i []) by (unfold files; rewrite length_map_seq; lia). cbn [bind].
      rewrite (ark_part2_eq _ HW k) by exact N.
      destruct (part2_total (ak_fs ks) k (root k) 0 [nth (length p - 1 - i) p f0] (nth i files [])) as (h' & Eh); [exact HF|lia|reflexivity| |].
      - unfold files. rewrite nth_map_seq by lia. unfold file. rewrite dft_length. change (2 ^ 0) with 1. assert (Q := pow2_pos (S (m - a))). lia.
      - rewrite Eh. eexists. split; [|reflexivity]. cbn [length]. lia. }
    assert (BP : forall t h, body (2 ^ b) (t, h) = Panic).
    { intros t h. unfold body, ark_toeplitz_coeffs_stride. destruct (Nat.eqb_spec (2 ^ a) 0); [lia|].
      rewrite (Nat.div_small (length p) (2 ^ a)) by lia. change (0 * 2) with 0. destruct (Nat.ltb_spec (length t) 0); [lia|].
      rewrite Lp, usub_ok by lia. cbn [bind]. unfold usub. destruct (Nat.leb_spec (2 ^ b) (2 ^ b - 1)); [lia|reflexivity]. }
    assert (G : forall n j t h, j + n = 2 ^ b -> length t <= 1 -> for_ (n + S (2 ^ a - 2 ^ b - 1)) j body (t, h) = Panic).
    { induction n0 as [|n0 IH]; intros j t h Hj Ht.
      - cbn [Nat.add for_]. replace j with (2 ^ b) by lia. now rewrite BP.
      - cbn [Nat.add for_]. destruct (BB j t h ltac:(lia) Ht) as [-> | (t' & Ht' & ->)]; cbn [bind]; [reflexivity|]. apply IH; lia. }
    rewrite G; [reflexivity|lia|]. rewrite repeat_length. exact DD. }
  split; [exact DA|]. unfold ark_fk20_multi_da. rewrite DA. cbn [fkm_kzg bare kzg_fs]. rewrite W, Lp, E2.
  destruct (Nat.ltb_spec (2 ^ k) (2 ^ S b)); [lia|]. rewrite std_is_pow2_pow. reflexivity.
Qed.

Lemma C81_short_proof ks k u beta fk (c : Fr) : ark_made L ks k u beta -> 0 < u -> c <> f0 ->
  ark_fk20_single_new (lib_W L) ks 4 = Ok fk ->
  ark_fk20_single_da_opt (lib_W L) fk [c] = Ok [smul c gen1; smul c gen1] /\
  forall x, ark_compute_proof_single ks [c] x = Ok g0.
Proof.
  intros H U Hc E. destruct (made_inv L HW ks k u beta H) as (K32 & S' & HF & N). pose proof HF as (W & _).
  destruct (single_new_inv _ _ _ _ _ _ H E) as (m1 & Em & Hk & Hu & ->). change 4 with (2 ^ 2) in Em. apply Nat.pow_inj_r in Em; [|lia]. injection Em as <-.
  split.
  - rewrite (ark_single_da_opt_eq k) by exact N. unfold fk20_single_da_opt. cbn [fks_kzg fks_x_ext_fft bare kzg_fs]. rewrite W. change (length [c] * 2) with (2 ^ 1).
    assert (2 ^ 2 <= 2 ^ k) by (apply Nat.pow_le_mono_r; lia). change (2 ^ 2) with 4 in *.
    destruct (Nat.ltb_spec (2 ^ k) (2 ^ 1)) as [L'|L']; [simpl in L'; lia|]. rewrite is_pow2_pow. cbn [negb].
    unfold toeplitz_coeffs_step. rewrite (stride_spec [c] 1 1 0) by (auto; lia). cbn [bind]. unfold file.
    set (w2 := fpow (root k) (2 ^ (k - S 1))).
    assert (X : firstn 2 (dft w2 (2 ^ S 1) (xvec beta (2 ^ 1) 1 0 ++ repeat g0 (2 ^ 1))) = dft (fpow (root k) (2 ^ (k - 1))) (2 ^ 1) [gen1 : PG1 P; g0]).
    { cbn [dft Nat.pow Nat.mul Nat.add seq map firstn gsum xvec app repeat nth Nat.ltb Nat.leb Nat.sub fpow].
      rewrite !smul_0_r, !gadd_0_l, !gadd_0_r, !smul_1. reflexivity. }
    rewrite part2_prefix by (rewrite dft_length; cbn; lia). change (length (map (tcoef [c] 1 1 0) (seq 0 (1 * 2)))) with 2. match goal with |- context [firstn 2 ?d] => replace (firstn 2 d) with (dft (fpow (root k) (2 ^ (k - 1))) (2 ^ 1) [gen1 : PG1 P; g0]) by (symmetry; exact X) end.
    rewrite (part2_spec (ak_fs ks) k (root k) HF 1) by (auto; lia). cbn [bind].
    rewrite (part3_spec (ak_fs ks) k (root k) HF 0) by (auto; lia). cbn [bind].
    rewrite (fft_g1_spec (ak_fs ks) k (root k) 1) by (auto; lia). cbn [unwrap]. f_equal.
    set (w1 := fpow (root k) (2 ^ (k - 1))). clearbody w1.
    change (firstn (2 ^ 0) (cyc (2 ^ 1) (map (tcoef [c] 1 1 0) (seq 0 (1 * 2))) [gen1 : PG1 P; g0]))
      with [gadd (gadd g0 (smul c (gen1 : PG1 P))) (smul f0 g0)].
    cbn [dft Nat.pow Nat.mul Nat.add seq map gsum app repeat nth fpow].
    rewrite !smul_0_r, !gadd_0_l, !gadd_0_r, !smul_1. reflexivity.
  - intros x. destruct (quotient_exists ks u beta [c] x 0 S') as (q & Q); [unfold fits; cbn; lia|]. change (2 ^ 0) with 1 in Q. rewrite fpow_1 in Q.
    rewrite (single_value ks k u beta [c] q x H U); [| |exact Q].
    + destruct Q as (Lq & _). rewrite (binomial_length 1 x) in Lq by lia. cbn [length] in Lq. destruct q; [|discriminate Lq]. f_equal. apply smul_0_l.
    + intros i Hi. apply coef_over. cbn [length]. unfold ark_powers in Hi. destruct (u =? 2); lia.
Qed.
End P.

(** the quotient of a + b X by X - w, for the examples *)
Section Linear.
Context {K : fld}.
Add Field Klinear : (fld_field K).
Lemma linear_quotient (a b w : K) q : euclid [a; b] [fneg w; f1] q -> q = [b].
Proof.
  intros (Lq & rr & Lr & H). destruct q as [|x [|y q]]; cbn [length] in Lq; try lia. f_equal.
  specialize (H 1). unfold convol in H. cbn [sum coef nth Nat.sub] in H.
  assert (R : coef rr 1 = f0) by (apply coef_over; cbn [length] in Lr; lia). rewrite R in H. unfold coef in H. cbn [nth] in H. rewrite H. ring.
Qed.
End Linear.
Lemma all_val (l : list Fr) n v : length l = n -> (forall i, i < n -> exists x : Fr, nth_error l i = Some x /\ val x = v) -> map val l = repeat v n.
Proof.
  revert n. induction l as [|a l IH]; intros n Hn H; subst n; [reflexivity|]. cbn [map length repeat].
  destruct (H 0) as (x & E & V); [cbn [length]; lia|]. apply f_equal2; [|apply IH; [reflexivity|]].
  - cbn [nth_error] in E. apply (f_equal (fun o => match o with Some t => val t | None => v end)) in E. etransitivity; [exact E|exact V].
  - intros i Hi. apply (H (S i)). cbn [length]. lia.
Qed.
