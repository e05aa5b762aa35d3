(** * Proof_Zero2: the reduction tree of [zero_poly_via_multiplication] *)
From Coq Require Import List Arith Lia Bool NArith Field Ring.
From Verif Require Import Base Fld Poly Loops Model_Utils Proof_Utils Model_FFT Spec Proof_FFT Model_ZeroPoly Proof_Zero1.
Import ListNotations.

Lemma splice_ok {A} (l : list A) a b v : a <= b -> b <= length l -> splice l a b v = Ok (firstn a l ++ v ++ skipn b l).
Proof. intros H1 H2. unfold splice. apply Nat.leb_le in H1, H2. now rewrite H1, H2. Qed.

Lemma splice_length {A} (l v : list A) a : a + length v <= length l ->
  length (firstn a l ++ v ++ skipn (a + length v) l) = length l.
Proof. intros H. rewrite !app_length, firstn_length, skipn_length. lia. Qed.

Lemma splice_nth {A} (l v : list A) a x d : a + length v <= length l ->
  nth x (firstn a l ++ v ++ skipn (a + length v) l) d =
  if (a <=? x) && (x <? a + length v) then nth (x - a) v d else nth x l d.
Proof.
  intros H. destruct (Nat.leb_spec a x); cbn [andb].
  - rewrite app_nth2 by (rewrite firstn_length; lia). rewrite firstn_length. replace (Nat.min a (length l)) with a by lia.
    destruct (Nat.ltb_spec x (a + length v)).
    + now rewrite app_nth1 by lia.
    + rewrite app_nth2 by lia. rewrite nth_skipn'. f_equal. lia.
  - rewrite app_nth1 by (rewrite firstn_length; lia). now rewrite nth_firstn' by lia.
Qed.

Lemma next_pow2_between n j : (N.of_nat n <= 2 ^ 63)%N -> 2 ^ j < n <= 2 ^ (S j) -> next_pow2 n = Ok (2 ^ (S j)).
Proof.
  intros Hb H. destruct (next_pow2_spec n) as (k & E & L & M); [lia|auto|].
  rewrite E. f_equal. f_equal. assert (k <= S j) by (apply M; lia).
  destruct (Nat.eq_dec k (S j)); auto. assert (2 ^ k <= 2 ^ j) by (apply Nat.pow_le_mono_r; lia). lia.
Qed.

Section Z2.
Context {K : fld}.
Add Field Kfz2 : (fld_field K).
Local Open Scope fld_scope.

(** ** products of vanishing polynomials *)
Lemma pprod_ext (ps qs : list (list K)) : Forall2 (fun p q => forall k, coef p k = coef q k) ps qs ->
  forall k, coef (pprod ps) k = coef (pprod qs) k.
Proof.
  induction 1 as [|p q ps qs H _ IH]; intros k; auto. cbn [pprod]. rewrite !coef_pmul. apply convol_ext; auto.
Qed.

Lemma pprod_vanish (gs : list (list K)) k : coef (pprod (map vanish_poly gs)) k = coef (vanish_poly (concat gs)) k.
Proof.
  revert k. induction gs as [|g gs IH]; intros k; auto. cbn [map pprod concat].
  rewrite coef_pmul, vanish_poly_coef_app. apply convol_ext; auto.
Qed.

Lemma degsum_map (A : Type) (f : A -> list K) (g : A -> nat) l :
  (forall x, In x l -> length (f x) = S (g x)) -> degsum (map f l) = fold_right (fun x d => (g x + d)%nat) 0%nat l.
Proof.
  induction l as [|x l IH]; intros H; auto. cbn [map degsum fold_right]. fold (degsum (map f l)).
  rewrite H by now left. rewrite IH by (intros; apply H; now right). lia.
Qed.

Variable rs : list K.
Notation m := (length rs).
Definition gsz (k : nat) : nat := (63 * 4 ^ k)%nat.
Definition grp (k t : nat) : list K := firstn (gsz k) (skipn (gsz k * t) rs).
Definition slotsz (k : nat) : nat := (64 * 4 ^ k)%nat.

Lemma pow4_pos k : (0 < 4 ^ k)%nat.
Proof. assert (4 ^ k <> 0)%nat by (apply Nat.pow_nonzero; lia). lia. Qed.

Lemma gsz_lt k : (gsz k + 1 <= slotsz k)%nat.
Proof. unfold gsz, slotsz. assert (P := pow4_pos k). lia. Qed.
Lemma gsz_S k : gsz (S k) = (4 * gsz k)%nat.
Proof. unfold gsz. cbn [Nat.pow]. lia. Qed.
Lemma slotsz_S k : slotsz (S k) = (4 * slotsz k)%nat.
Proof. unfold slotsz. cbn [Nat.pow]. lia. Qed.

Lemma grp_length k t : length (grp k t) = Nat.min (gsz k) (m - gsz k * t).
Proof. unfold grp. now rewrite firstn_length, skipn_length. Qed.

Lemma firstn_skipn_app {A} (l : list A) a b s :
  firstn a (skipn s l) ++ firstn b (skipn (s + a) l) = firstn (a + b) (skipn s l).
Proof.
  rewrite <- (skipn_skipn' l a s). generalize (skipn s l). clear. intros l. revert a.
  induction l as [|x l IH]; intros [|a]; simpl; auto.
  - now rewrite firstn_nil.
  - f_equal. apply IH.
Qed.

Lemma concat_grp k t num : concat (map (fun j => grp k (t + j)) (seq 0 num)) = firstn (num * gsz k) (skipn (gsz k * t) rs).
Proof.
  induction num as [|num IH].
  - reflexivity.
  - rewrite seq_S, map_app, concat_app, IH. cbn [map concat]. rewrite app_nil_r. unfold grp.
    replace (gsz k * (t + (0 + num)))%nat with (gsz k * t + num * gsz k)%nat by lia.
    rewrite firstn_skipn_app. f_equal. lia.
Qed.

Lemma grp_S k i num : (num <= 4)%nat -> (num = 4%nat \/ m <= gsz k * (4 * i + num))%nat ->
  concat (map (fun j => grp k (4 * i + j)) (seq 0 num)) = grp (S k) i.
Proof.
  intros H4 H. rewrite concat_grp. unfold grp. rewrite gsz_S. replace (4 * gsz k * i)%nat with (gsz k * (4 * i))%nat by lia.
  destruct H as [->|H]; auto.
  rewrite !firstn_all2; auto; rewrite skipn_length; nia.
Qed.

(** ** one level *)
Section Level.
Variables (s : fft_settings K) (ks : nat) (w : K).
Hypothesis HS : settings_ok s ks w.
Variables (D C W P k c : nat).
Notation S_ := (slotsz k).
Hypothesis Hc : (1 < c <= P)%nat.
Hypothesis HW : (c * S_ <= W)%nat.
Hypothesis Hm : (m <= gsz k * c)%nat.
Variables (work0 : list K) (lens0 : list nat).
Hypothesis Hlen0 : length lens0 = P.
Hypothesis Hslot : forall t x, (t < c)%nat -> (x < S_)%nat -> nth (t * S_ + x) work0 0 = coef (vanish_poly (grp k t)) x.
Hypothesis Hzero : forall x, (c * S_ <= x)%nat -> nth x work0 0 = 0.
Hypothesis Hfull : forall t, (t + 1 < c)%nat -> nth t lens0 0%nat = (gsz k + 1)%nat.
Hypothesis Hlast : (length (grp k (c - 1)) + 1 <= nth (c - 1) lens0 0 <= gsz k + 1)%nat.

Definition num (i : nat) : nat := Nat.min 4 (c - i * 4).
Definition newdeg (i : nat) : nat := fold_right (fun j d => (nth (i + j) lens0 0 - 1 + d)%nat) 0%nat (seq 0 (num i)).
Definition newlen (i : nat) : nat := if (1 <? num i)%nat then newdeg i + 1 else nth (i * 4) lens0 0%nat.
Notation c' := (1 + (c - 1) / 4)%nat.

Lemma lens_bounds i j : (i * 4 + j < c)%nat ->
  (length (grp k (4 * i + j)) + 1 <= nth (i + j) lens0 0 <= gsz k + 1)%nat.
Proof using HS Hc HW Hm Hlen0 Hslot Hzero Hfull Hlast.
  intros H. destruct (Nat.lt_ge_cases (i + j + 1) c) as [L|L].
  - rewrite Hfull by auto. rewrite grp_length. lia.
  - assert (i = 0)%nat as -> by lia. cbn [Nat.mul Nat.add] in *. replace j with (c - 1)%nat by lia. exact Hlast.
Qed.

Lemma num_bounds i : (i < c')%nat -> (1 <= num i <= 4)%nat /\ (i * 4 + num i <= c)%nat /\ (num i = 4 \/ i * 4 + num i = c)%nat.
Proof using HS Hc HW Hm Hlen0 Hslot Hzero Hfull Hlast.
  intros H. assert (i <= (c - 1) / 4)%nat by lia.
  assert (4 * ((c - 1) / 4) <= c - 1)%nat by (apply Nat.mul_div_le; lia). unfold num. lia.
Qed.

Definition midinv (i : nat) (st : list K * list nat * list nat) : Prop :=
  let '(work, lens, offs) := st in
  length work = W /\ length lens = P /\ length offs = P /\
  (forall x, (i * 4 * S_ <= x)%nat -> nth x work 0 = nth x work0 0) /\
  (forall t x, (t < i)%nat -> (x < 4 * S_)%nat -> nth (t * (4 * S_) + x) work 0 = coef (vanish_poly (grp (S k) t)) x) /\
  (forall t, (i <= t)%nat -> nth t lens 0%nat = nth t lens0 0%nat) /\
  (forall t, (t < i)%nat -> nth t lens 0%nat = newlen t).

Definition view (i j : nat) : list K :=
  map (coef (vanish_poly (grp k (4 * i + j)))) (seq 0 (nth (i + j) lens0 0%nat)).

Lemma zp_views_spec i work lens offs : (i < c')%nat -> midinv i (work, lens, offs) ->
  exists offs', zp_views work lens S_ i (i * 4) (num i) offs = Ok (offs', map (view i) (seq 0 (num i))) /\
    length offs' = P /\ nth i offs' 0%nat = (i * 4 * S_)%nat.
Proof using HS Hc HW Hm Hlen0 Hslot Hzero Hfull Hlast.
  intros Hi (Lw & Ll & Lo & Hw & _ & Hl & _).
  destruct (num_bounds i Hi) as (N1 & N2 & N3). unfold zp_views.
  destruct (for_range_inv (fun t (st : list nat * list (list K)) => length (fst st) = P /\ snd st = map (view i) (seq 0 t) /\
       ((0 < t)%nat -> nth i (fst st) 0%nat = (i * 4 * S_)%nat))
    (fun j (st : list nat * list (list K)) =>
    let (offsets, pv) := st in
    let* offsets := upd offsets (i + j) ((i * 4 + j) * S_)%nat in
    let* o := idx offsets (i + j) in
    let* l := idx lens (i + j) in
    let* v := slice work o (o + l) in
    Ok (offsets, pv ++ [v])) 0 (num i) (offs, [])) as ([o' pv] & E & L1 & L2 & L3).
  - lia.
  - cbn [fst snd]. repeat split; auto. lia.
  - intros j [o pv] Hj (L1 & L2 & L3). cbn [fst snd] in *. subst pv.
    rewrite upd_ok by lia. cbn [bind]. rewrite (idx_ok _ (i + j) 0%nat) by (rewrite set_length; lia). cbn [bind].
    rewrite nth_set_same by lia. rewrite (idx_ok lens (i + j) 0%nat) by lia. cbn [bind]. rewrite Hl by lia.
    assert (B := lens_bounds i j ltac:(lia)). assert (G := gsz_lt k).
    assert (Wb : ((i * 4 + j) * S_ + S_ <= W)%nat) by nia.
    rewrite slice_ok by lia. cbn [bind]. eexists. split; [reflexivity|]. cbn [fst snd].
    split; [now rewrite set_length|]. split.
    + rewrite seq_S, map_app. f_equal. cbn [map]. f_equal. unfold view. cbn [Nat.add].
      apply (nth_ext' (0:K)).
      * rewrite firstn_length, skipn_length, length_map_seq. lia.
      * intros x Hx. rewrite firstn_length, skipn_length in Hx. rewrite nth_firstn' by lia. rewrite nth_skipn', nth_map_seq by lia.
        rewrite Hw by nia. rewrite Hslot by lia. f_equal. f_equal. f_equal. lia.
    + intros _. destruct (Nat.eq_dec j 0) as [->|Nj].
      * rewrite Nat.add_0_r, nth_set_same by lia. lia.
      * rewrite nth_set_other by lia. apply L3. lia.
  - exists o'. cbn [fst snd] in *. subst pv. split; [exact E|]. split; auto. apply L3. lia.
Qed.

Lemma views_product i x : (i < c')%nat ->
  coef (pprod (map (view i) (seq 0 (num i)))) x = coef (vanish_poly (grp (S k) i)) x.
Proof using HS Hc HW Hm Hlen0 Hslot Hzero Hfull Hlast.
  intros Hi. destruct (num_bounds i Hi) as (N1 & N2 & N3).
  rewrite <- (grp_S k i (num i)); [|lia|].
  2:{ destruct N3 as [N3|N3]; auto. right. replace (4 * i + num i)%nat with c by lia. exact Hm. }
  rewrite <- pprod_vanish. apply pprod_ext. rewrite map_map.
  assert (Q : forall l, (forall j, In j l -> (j < num i)%nat) ->
    Forall2 (fun p q => forall k0, coef p k0 = coef q k0) (map (view i) l) (map (fun j => vanish_poly (grp k (4 * i + j))) l)).
  { induction l as [|j l IH]; intros H; cbn [map]; constructor.
    - intros y. unfold view. rewrite coef_map_seq. destruct (Nat.ltb_spec y (nth (i + j) lens0 0%nat)); auto.
      symmetry. apply coef_over. rewrite vanish_poly_length.
      assert (Hj : (j < num i)%nat) by (apply H; now left).
      assert (B := lens_bounds i j ltac:(lia)). lia.
    - apply IH. intros. apply H. now right. }
  apply Q. intros j Hj. apply in_seq in Hj. lia.
Qed.

Lemma views_deg i : (i < c')%nat -> degsum (map (view i) (seq 0 (num i))) = newdeg i.
Proof using HS Hc HW Hm Hlen0 Hslot Hzero Hfull Hlast.
  intros Hi. destruct (num_bounds i Hi) as (N1 & N2 & N3).
  rewrite (degsum_map nat (view i) (fun j => nth (i + j) lens0 0 - 1)%nat); auto.
  intros j Hj. apply in_seq in Hj. unfold view. rewrite length_map_seq.
  assert (B := lens_bounds i j ltac:(lia)). lia.
Qed.

Lemma newdeg_le i : (i < c')%nat -> (newdeg i <= num i * gsz k)%nat.
Proof using HS Hc HW Hm Hlen0 Hslot Hzero Hfull Hlast.
  intros Hi. destruct (num_bounds i Hi) as (N1 & N2 & N3). unfold newdeg.
  assert (Q : forall l, (forall j, In j l -> (j < num i)%nat) ->
     (fold_right (fun j d => nth (i + j) lens0 0 - 1 + d) 0 l <= length l * gsz k)%nat).
  { induction l as [|j l IH]; intros H; cbn [fold_right length]; [lia|].
    assert (IH' := IH (fun x Hx => H x (or_intror Hx))).
    assert (Hj : (j < num i)%nat) by (apply H; now left).
    assert (B := lens_bounds i j ltac:(lia)). lia. }
  specialize (Q (seq 0 (num i))). rewrite seq_length in Q. apply Q. intros j Hj. apply in_seq in Hj. lia.
Qed.

Lemma newdeg_ge i : (i < c')%nat -> (length (grp (S k) i) <= newdeg i)%nat.
Proof using HS Hc HW Hm Hlen0 Hslot Hzero Hfull Hlast.
  intros Hi. destruct (num_bounds i Hi) as (N1 & N2 & N3).
  rewrite <- (grp_S k i (num i)); [|lia|].
  2:{ destruct N3 as [N3|N3]; auto. right. replace (4 * i + num i)%nat with c by lia. exact Hm. }
  unfold newdeg.
  assert (Q : forall l, (forall j, In j l -> (j < num i)%nat) ->
     (length (concat (map (fun j => grp k (4 * i + j)) l)) <= fold_right (fun j d => nth (i + j) lens0 0 - 1 + d) 0 l)%nat).
  { induction l as [|j l IH]; intros H; cbn [fold_right map concat]; [simpl; lia|].
    assert (IH' := IH (fun x Hx => H x (or_intror Hx))). rewrite app_length.
    assert (Hj : (j < num i)%nat) by (apply H; now left).
    assert (B := lens_bounds i j ltac:(lia)). lia. }
  apply Q. intros j Hj. apply in_seq in Hj. lia.
Qed.

(** what the arithmetic has to provide for each group *)
Definition group_fits (i : nat) : Prop :=
  (i * 4 * S_ <= C)%nat /\
  ((1 < num i)%nat -> exists mm, (mm <= ks)%nat /\
      Nat.min (Nat.min ((i * 4 + 4) * S_) C - i * 4 * S_) D = (2 ^ mm)%nat /\ (newdeg i + 1 <= 2 ^ mm)%nat).

Lemma zp_group_spec i st : (i < c')%nat -> group_fits i -> midinv i st ->
  exists st', zp_group s D C c S_ i st = Ok st' /\ midinv (S i) st'.
Proof using HS Hc HW Hm Hlen0 Hslot Hzero Hfull Hlast.
  intros Hi (F1 & F2) MI. destruct st as [[work lens] offs].
  destruct (num_bounds i Hi) as (N1 & N2 & N3).
  pose proof MI as (Lw & Ll & Lo & Hw & Hd & Hl & Hl').
  unfold zp_group.
  rewrite usub_ok by (apply Nat.min_glb; nia). cbn [bind]. rewrite usub_ok by lia. cbn [bind].
  fold (num i). rewrite upd_ok by lia. cbn [bind].
  assert (MI2 : midinv i (work, lens, set offs i (i * 4 * S_)%nat)).
  { repeat split; auto. now rewrite set_length. }
  destruct (zp_views_spec i work lens _ Hi MI2) as (offs' & EV & Lo' & Ho').
  rewrite EV. cbn [bind]. assert (G := gsz_lt k).
  destruct (Nat.ltb_spec 1 (num i)) as [H1|H1].
  - destruct (F2 H1) as (mm & Hmm & ER & HR). rewrite ER.
    rewrite (reduce_partials_spec s ks w mm); auto.
    2:{ intros E. apply (f_equal (@length _)) in E. rewrite length_map_seq in E. simpl in E. lia. }
    2:{ apply Forall_forall. intros p Hp. apply in_map_iff in Hp as (j & <- & Hj). apply in_seq in Hj.
        assert (B := lens_bounds i j ltac:(lia)). unfold view. intros E. apply (f_equal (@length _)) in E.
        rewrite length_map_seq in E. simpl in E. lia. }
    2:{ now rewrite views_deg. }
    rewrite views_deg by auto. cbn [bind]. rewrite length_map_seq. rewrite upd_ok by lia. cbn [bind].
    set (red := map _ _). assert (Lr : length red = (newdeg i + 1)%nat) by apply length_map_seq.
    assert (Hle : (newdeg i + 1 <= S_ * num i)%nat).
    { assert (Q := newdeg_le i Hi). nia. }
    rewrite pad_poly_coef by lia. cbn [bind].
    rewrite (idx_ok offs' i 0%nat) by lia. cbn [bind]. rewrite Ho', length_map_seq.
    set (padded := map (coef red) (seq 0 (S_ * num i))).
    assert (Lp : length padded = (S_ * num i)%nat) by apply length_map_seq.
    assert (Hsp : (i * 4 * S_ + length padded <= length work)%nat) by (rewrite Lp, Lw; nia).
    rewrite <- Lp. rewrite splice_ok by lia. cbn [bind]. eexists. split; [reflexivity|].
    assert (Cr : forall x, coef red x = coef (vanish_poly (grp (S k) i)) x).
    { intros x. unfold red. rewrite coef_map_seq. rewrite views_product by auto.
      destruct (Nat.ltb_spec x (newdeg i + 1)); auto. symmetry. apply coef_over.
      rewrite vanish_poly_length. assert (Q := newdeg_ge i Hi). lia. }
    split; [now rewrite splice_length|]. split; [now rewrite set_length|]. split; [auto|].
    split; [|split; [|split]].
    + intros x Hx. rewrite splice_nth by auto.
      destruct (Nat.ltb_spec x (i * 4 * S_ + length padded)) as [L|L].
      * rewrite Lp in L. exfalso. nia.
      * rewrite andb_false_r. apply Hw. nia.
    + intros t x Ht Hx. rewrite splice_nth by auto. rewrite Lp.
      destruct (Nat.eq_dec t i) as [->|Nt].
      * destruct (Nat.leb_spec (i * 4 * S_) (i * (4 * S_) + x)); [|nia]. cbn [andb].
        replace (i * (4 * S_) + x - i * 4 * S_)%nat with x by nia.
        destruct (Nat.ltb_spec (i * (4 * S_) + x) (i * 4 * S_ + S_ * num i)) as [L|L].
        -- unfold padded. rewrite nth_map_seq by nia. apply Cr.
        -- assert (S_ * num i <= x)%nat by nia. rewrite Hw by nia.
           assert (num i <> 4)%nat by nia. rewrite Hzero by nia.
           symmetry. apply coef_over. rewrite vanish_poly_length. assert (Q := newdeg_ge i Hi). lia.
      * destruct (Nat.leb_spec (i * 4 * S_) (t * (4 * S_) + x)) as [L|L]; [exfalso; nia|]. cbn [andb]. apply Hd; lia.
    + intros t Ht. rewrite nth_set_other by lia. apply Hl. lia.
    + intros t Ht. destruct (Nat.eq_dec t i) as [->|Nt].
      * rewrite nth_set_same by lia. unfold newlen. apply Nat.ltb_lt in H1. now rewrite H1.
      * rewrite nth_set_other by lia. apply Hl'. lia.
  - assert (num i = 1)%nat by lia. assert (Ec : (i * 4 + 1 = c)%nat) by lia.
    rewrite (idx_ok lens (i * 4) 0%nat) by lia. cbn [bind]. rewrite upd_ok by lia. cbn [bind].
    eexists. split; [reflexivity|]. split; [auto|]. split; [now rewrite set_length|]. split; [auto|].
    split; [|split; [|split]].
    + intros x Hx. apply Hw. nia.
    + intros t x Ht Hx. destruct (Nat.eq_dec t i) as [->|Nt]; [|apply Hd; lia].
      rewrite Hw by nia.
      assert (EG : grp (S k) i = grp k (i * 4)).
      { rewrite <- (grp_S k i 1); [|lia|right; replace (4 * i + 1)%nat with c by lia; exact Hm].
        cbn [seq map concat]. rewrite app_nil_r. f_equal. lia. }
      rewrite EG. destruct (Nat.lt_ge_cases x S_) as [L|L].
      * replace (i * (4 * S_) + x)%nat with (i * 4 * S_ + x)%nat by nia. apply Hslot; lia.
      * rewrite Hzero by nia. symmetry. apply coef_over. rewrite vanish_poly_length, grp_length. lia.
    + intros t Ht. rewrite nth_set_other by lia. apply Hl. lia.
    + intros t Ht. destruct (Nat.eq_dec t i) as [->|Nt].
      * rewrite nth_set_same by lia. rewrite Hl by lia. unfold newlen. apply Nat.ltb_ge in H1. now rewrite H1.
      * rewrite nth_set_other by lia. apply Hl'. lia.
Qed.

Lemma groups_spec offs : length work0 = W -> length offs = P -> (forall i, (i < c')%nat -> group_fits i) ->
  exists st', for_range 0 c' (zp_group s D C c S_) (work0, lens0, offs) = Ok st' /\ midinv c' st'.
Proof using HS Hc HW Hm Hlen0 Hslot Hzero Hfull Hlast.
  intros Lw Lo HF.
  destruct (for_range_inv (fun i st => midinv i st) (zp_group s D C c S_) 0 c' (work0, lens0, offs)) as (st' & E & I).
  - lia.
  - repeat split; auto; lia.
  - intros i st Hi I. apply zp_group_spec; auto; [lia|apply HF; lia].
  - exists st'. auto.
Qed.
End Level.
End Z2.
