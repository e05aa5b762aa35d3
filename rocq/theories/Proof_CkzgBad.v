(** * Proof_CkzgBad: what programs of the ckzg crate read, and how the types let them go wrong *)
From Coq Require Import List Arith Bool ZArith Lia.
From Verif Require Import Base Model_Ckzg Spec_Ckzg Proof_Ckzg.
Import ListNotations.

Section Proof.
Context {V : Type}.
Variable L : clib V.
Hypothesis GL : good_lib L.
Notation state := (state V).

Lemma poly_is_var (L' : clib V) (s : state) i l : poly_is L' s i l -> poly_var s i = Done l.
Proof.
  intros ((c & H) & G). unfold poly_var. rewrite (var_has _ _ _ H). cbn [obind]. destruct l as [|x l]; [reflexivity|].
  specialize (G ltac:(cbn; lia)). cbn [step] in G. rewrite (var_has _ _ _ H) in G. cbn [obind] in G. cbn [coeffs_of length] in *.
  destruct (h_slice (st_heap s) c (S (length l))); cbn in G; try discriminate. injection G as ->. reflexivity.
Qed.
Lemma clone_vars (s : state) i o : has s i o -> step L s (Clone i) = Done (push (st_heap s) (st_vars s) o, ONone).
Proof. intros H. cbn [step]. rewrite (var_has _ _ _ H). reflexivity. Qed.
Lemma has_push_old (s : state) (h : heap V) i o x : has s i o -> has (push h (st_vars s) x) i o.
Proof. unfold has, push. cbn. intros E. rewrite nth_error_app1; auto. apply nth_error_Some. rewrite E. discriminate. Qed.
Lemma has_push_new (s : state) (h : heap V) o : has (push h (st_vars s) o) (next s) o.
Proof. unfold has, push, next. cbn. now rewrite nth_error_app2, Nat.sub_diag by lia. Qed.
Lemma has_lt (s : state) i o : has s i o -> i < next s.
Proof. unfold has, next. intros E. apply nth_error_Some. rewrite E. discriminate. Qed.

Lemma free_gone (h : heap V) b : shp h b = None -> h_free h (Heap b) = Fault BadFree.
Proof. unfold shp, h_free. destruct (nth_error h b) as [[k|]|]; intros; try discriminate; reflexivity. Qed.
Lemma block_gone (h : heap V) b : shp h b = None -> h_block h (Heap b) = Fault BadAccess.
Proof. unfold shp, h_block. destruct (nth_error h b) as [[k|]|]; intros; try discriminate; reflexivity. Qed.
Lemma drop_again (h h' : heap V) o : wfo h o -> has_memory o -> cleared h h' (owned h o) -> exists f, drop_obj h' o = Fault f.
Proof.
  destruct o; cbn [wfo has_memory owned drop_obj]; intros W M (C & _).
  - destruct W as [(_ & ->)|(_ & b & -> & _)]; [lia|]. exists BadFree. apply free_gone, C. left; auto.
  - destruct W as [(-> & _)|(W & (b & -> & _) & _)]; [lia|]. exists BadFree.
    replace ((0 <? width) && (width <? 2 ^ 32))%Z with true; [|symmetry; apply andb_true_iff; split; apply Z.ltb_lt; lia].
    rewrite free_gone; [reflexivity|]. apply C. left; auto.
  - destruct W as [(-> & _)|(W & i & j & -> & ->)]; [lia|]. exists BadFree. replace (0 <? len) with true by (symmetry; apply Nat.ltb_lt; lia).
    rewrite free_gone; [reflexivity|]. apply C. left; auto.
  - destruct W as [(-> & _)|(W & i & ->)]; [lia|]. exists BadFree. replace (0 <? len) with true by (symmetry; apply Nat.ltb_lt; lia).
    apply free_gone, C. left; auto.
  - destruct W as [(-> & _)|(W & i & l & -> & F & E & X)]; [lia|]. exists BadAccess.
    replace ((0 <? len) || (0 <? chunk_len)) with true; [|symmetry; apply orb_true_iff; right; apply Nat.ltb_lt; lia].
    assert (G : h_block h' (Heap i) = Fault BadAccess). { apply block_gone, C, in_or_app. right. left. reflexivity. }
    unfold free_files. destruct chunk_len; [lia|]. unfold h_read_ptr. rewrite G. reflexivity.
Qed.
Lemma clone_bad (s : state) i o a b : reached L s -> has s i o -> has_memory o -> (a = i /\ b = next s \/ a = next s /\ b = i) ->
  exists f, run L s [Clone i; Drop a; Drop b] = Fault f.
Proof.
  intros R H M AB. pose proof (reached_inv L GL s R) as I. pose proof (has_lt _ _ _ H) as Lt.
  cbn [run]. rewrite (clone_vars _ _ _ H). cbn [obind]. set (s1 := push (st_heap s) (st_vars s) o).
  destruct (own_live _ _ _ I H) as (No & Lo). destruct (drop_ok (st_heap s) o (proj2 (proj2 I) _ _ H) No Lo) as (h' & E & C).
  destruct (drop_again _ _ _ (proj2 (proj2 I) _ _ H) M C) as (f & Ef).
  assert (Ha : has s1 a o) by (destruct AB as [(-> & _)|(-> & _)]; [apply has_push_old; auto|apply has_push_new]).
  assert (Hb : has s1 b o) by (destruct AB as [(_ & ->)|(_ & ->)]; [apply has_push_new|apply has_push_old; auto]).
  assert (D : a <> b) by lia.
  exists f. cbn [step]. rewrite (var_has _ _ _ Ha). cbn [obind]. change (st_heap s1) with (st_heap s). rewrite E. cbn [obind].
  assert (Hb' : has (St h' (set (st_vars s1) a None)) b o).
  { unfold has in *. cbn [st_vars]. rewrite nth_error_set. destruct (Nat.eqb_spec b a); [congruence|exact Hb]. }
  rewrite (var_has _ _ _ Hb'). cbn [obind st_heap]. rewrite Ef. reflexivity.
Qed.

Lemma write_eq (h : heap V) b l k v : nth_error h b = Some (Some (BFr l)) -> k < length l ->
  h_write h (Heap b) k v = Done (set h b (Some (BFr (set l k v)))).
Proof. intros E K. unfold h_write, h_block. rewrite E. cbn [obind]. now rewrite (proj2 (Nat.ltb_lt _ _) K). Qed.
Lemma read_set (h : heap V) b l k v c m : nth_error h b = Some (Some (BFr l)) -> k < length l ->
  h_read (set h b (Some (BFr (set l k v)))) (Heap c) m = if (c =? b) && (m =? k) then Done v else h_read h (Heap c) m.
Proof.
  intros E K. unfold h_read, h_block. rewrite nth_error_set. destruct (Nat.eqb_spec c b) as [->|N]; [|reflexivity].
  replace (b <? length h) with true by (symmetry; apply Nat.ltb_lt, nth_error_Some; rewrite E; discriminate). rewrite E. cbn [obind andb].
  rewrite nth_error_set. destruct (Nat.eqb_spec m k) as [->|]; [|reflexivity]. rewrite (proj2 (Nat.ltb_lt _ _) K). reflexivity.
Qed.
Lemma poly_block (s : state) i c n k : inv s -> has s i (OPoly c n) -> k < n ->
  exists b l, c = Heap b /\ nth_error (st_heap s) b = Some (Some (BFr l)) /\ length l = n.
Proof. intros I H K. destruct (proj2 (proj2 I) _ _ H) as [(_ & ->)|(_ & F)]; [lia|]. exact (frs_block _ _ _ F). Qed.
Lemma own_disj (s : state) i j o o' b : inv s -> has s i o -> has s j o' -> In b (owned (st_heap s) o) -> In b (owned (st_heap s) o') -> i = j.
Proof.
  intros (N & _) H H' B B'. destruct (Nat.eq_dec i j) as [|D]; auto. exfalso.
  destruct (has_split _ _ _ H) as (l1 & l2 & E & <-). rewrite E, all_mid in N. apply nodup_mid in N as (_ & N). apply (N b B).
  unfold has in H'. rewrite E in H'. apply in_or_app. destruct (lt_dec j (length l1)).
  - left. apply in_all. rewrite nth_error_app1 in H' by lia. eauto.
  - right. apply in_all. rewrite nth_error_app2 in H' by lia. destruct (j - length l1) eqn:Q; [lia|]. cbn in H'. eauto.
Qed.
Lemma clone_shares (s : state) i c n k v : reached L s -> has s i (OPoly c n) -> k < n ->
  exists s', run L s [Clone i; SetCoeff (next s) k v; GetCoeff i k] = Done (s', [ONone; ONone; OVal v]).
Proof.
  intros R H K. pose proof (reached_inv L GL s R) as I. destruct (poly_block _ _ _ _ _ I H K) as (b & l & -> & E & Hl).
  cbn [run]. rewrite (clone_vars _ _ _ H). cbn [obind]. set (s1 := push (st_heap s) (st_vars s) (OPoly (Heap b) n)).
  cbn [step]. rewrite (var_has s1 (next s) (OPoly (Heap b) n) (has_push_new s _ _)). cbn [obind]. change (st_heap s1) with (st_heap s).
  rewrite (write_eq _ _ l) by (auto; lia). cbn [obind].
  assert (H1 : has s1 i (OPoly (Heap b) n)) by (apply has_push_old; auto).
  unfold var. cbn [st_vars]. unfold has in H1. rewrite H1. cbn [obind st_heap]. rewrite (read_set _ _ l) by (auto; lia). rewrite !Nat.eqb_refl. cbn. eauto.
Qed.
Lemma read_back (s : state) i c n k v : reached L s -> has s i (OPoly c n) -> k < n ->
  exists s', step L s (SetCoeff i k v) = Done (s', ONone) /\ step L s' (GetCoeff i k) = Done (s', OVal v) /\
    (forall j m w, (j, m) <> (i, k) -> step L s (GetCoeff j m) = Done (s, OVal w) -> step L s' (GetCoeff j m) = Done (s', OVal w)) /\
    (forall j m w, step L s (RootAt j m) = Done (s, OVal w) -> step L s' (RootAt j m) = Done (s', OVal w)) /\
    (forall j m w, step L s (ReverseAt j m) = Done (s, OVal w) -> step L s' (ReverseAt j m) = Done (s', OVal w)).
Proof.
  intros R H K. pose proof (reached_inv L GL s R) as I. destruct (poly_block _ _ _ _ _ I H K) as (b & l & -> & E & Hl).
  set (s' := St (set (st_heap s) b (Some (BFr (set l k v)))) (st_vars s)). exists s'.
  assert (Vs : forall j, var s' j = var s j) by reflexivity.
  assert (St1 : step L s (SetCoeff i k v) = Done (s', ONone)).
  { cbn [step]. rewrite (var_has _ _ _ H). cbn [obind]. rewrite (write_eq _ _ l) by (auto; lia). reflexivity. }
  assert (Rd : forall p m, (forall c, p = Heap c -> (c =? b) && (m =? k) = false) -> h_read (st_heap s') p m = h_read (st_heap s) p m).
  { intros p m N. destruct p as [| |c]; try reflexivity. unfold s'. cbn [st_heap]. rewrite (read_set _ _ l) by (auto; lia). now rewrite (N c eq_refl). }
  assert (Bo : In b (owned (st_heap s) (OPoly (Heap b) n))) by (left; auto).
  split; [exact St1|]. split; [|split; [|split]].
  - cbn [step]. rewrite Vs, (var_has _ _ _ H). cbn [obind]. unfold s' at 1. cbn [st_heap]. rewrite (read_set _ _ l) by (auto; lia). rewrite !Nat.eqb_refl. reflexivity.
  - intros j m w N. cbn [step]. rewrite Vs. destruct (var_cases s j) as [(o & -> & Ho)| ->]; [|discriminate]. cbn [obind]. destruct o; try discriminate.
    rewrite Rd. { destruct (h_read (st_heap s) coeffs m); cbn; intros X; try discriminate. injection X as ->. reflexivity. }
    intros c ->. destruct (Nat.eqb_spec c b) as [->|]; [|reflexivity]. destruct (Nat.eqb_spec m k) as [->|]; [|reflexivity]. exfalso. apply N. f_equal. symmetry.
    eapply (own_disj s i j); [exact I|exact H|exact Ho|exact Bo|left; auto].
  - intros j m w. cbn [step]. rewrite Vs. destruct (var_cases s j) as [(o & -> & Ho)| ->]; [|discriminate]. cbn [obind]. destruct o; try discriminate.
    rewrite Rd. { destruct (h_read (st_heap s) expanded m); cbn; intros X; try discriminate. injection X as ->. reflexivity. }
    intros c ->. destruct (Nat.eqb_spec c b) as [->|]; [|reflexivity]. exfalso.
    assert (i = j) as <- by (eapply (own_disj s i j); [exact I|exact H|exact Ho|exact Bo|left; auto]). unfold has in *. congruence.
  - intros j m w. cbn [step]. rewrite Vs. destruct (var_cases s j) as [(o & -> & Ho)| ->]; [|discriminate]. cbn [obind]. destruct o; try discriminate.
    rewrite Rd. { destruct (h_read (st_heap s) reverse m); cbn; intros X; try discriminate. injection X as ->. reflexivity. }
    intros c ->. destruct (Nat.eqb_spec c b) as [->|]; [|reflexivity]. exfalso.
    assert (i = j) as <- by (eapply (own_disj s i j); [exact I|exact H|exact Ho|exact Bo|apply in_or_app; right; left; auto]). unfold has in *. congruence.
Qed.

Lemma default_bad (s : state) : run L s [PolyDefault; Drop (next s)] = Fault BadFree.
Proof. cbn [run step obind]. rewrite (var_has _ _ poly_default (has_push_new s (st_heap s) poly_default)). reflexivity. Qed.
Lemma read_over (h : heap V) p n k : frs h p n -> n <= k -> h_read h p k = Fault BadAccess /\ forall v, h_write h p k v = Fault BadAccess.
Proof.
  intros F K. destruct (frs_block _ _ _ F) as (b & l & -> & E & <-). unfold h_read, h_write, h_block. rewrite E. cbn [obind].
  rewrite (proj2 (nth_error_None l k) K). rewrite (proj2 (Nat.ltb_ge _ _) K). auto.
Qed.
Lemma bounds_bad (s : state) i k : reached L s ->
  (forall c n v, has s i (OPoly c n) -> n <= k -> step L s (GetCoeff i k) = Fault BadAccess /\ step L s (SetCoeff i k v) = Fault BadAccess) /\
  (forall w e r, has s i (OFft w e r) -> (w < Z.of_nat k \/ w = 0)%Z -> step L s (RootAt i k) = Fault BadAccess /\ step L s (ReverseAt i k) = Fault BadAccess).
Proof.
  intros R. pose proof (reached_inv L GL s R) as I. split.
  - intros c n v H K. cbn [step]. rewrite (var_has _ _ _ H). cbn [obind]. destruct (proj2 (proj2 I) _ _ H) as [(-> & ->)|(_ & F)]; [split; reflexivity|].
    destruct (read_over _ _ _ _ F K) as (-> & ->). split; reflexivity.
  - intros w e r H K. cbn [step]. rewrite (var_has _ _ _ H). cbn [obind]. destruct (proj2 (proj2 I) _ _ H) as [(-> & -> & ->)|(W & F1 & F2)]; [split; reflexivity|].
    destruct (read_over _ _ _ k F1) as (-> & _); [lia|]. destruct (read_over _ _ _ k F2) as (-> & _); [lia|]. split; reflexivity.
Qed.
Lemma kzg_new_eq (s : state) i w e r g1 g2 len : has s i (OFft w e r) -> cl_kzg L w len = KzgOk -> len <= g1 -> len <= g2 ->
  exists h a b, step L s (KzgNew g1 g2 len i) = Done (push h (st_vars s) (OKzg (Var i) a b len), ONone).
Proof.
  intros H E Y1 Y2. cbn [step]. rewrite (var_has _ _ _ H). cbn [obind]. rewrite E.
  replace ((len <=? g1) && (len <=? g2)) with true; [|symmetry; apply andb_true_iff; split; apply Nat.leb_le; lia].
  destruct (h_alloc (st_heap s) (BPts len)) as [h1 a]. destruct (h_alloc h1 (BPts len)) as [h2 b]. eauto.
Qed.
Lemma dangling_bad (s : state) i w e r g1 g2 len c k : reached L s -> has s i (OFft w e r) -> cl_kzg L w len = KzgOk -> len <= g1 -> len <= g2 ->
  c = Move i \/ c = Drop i ->
  run L s [KzgNew g1 g2 len i; c; KzgRootAt (next s) k] = Fault BadAccess /\
  run L s [KzgNew g1 g2 len i; c; UseWidth (next s)] = Fault BadAccess.
Proof.
  intros R H E Y1 Y2 Hc. pose proof (reached_inv L GL s R) as I. destruct (kzg_new_eq _ _ _ _ _ _ _ _ H E Y1 Y2) as (h & a & b & Es).
  pose proof (kzg_stays L s g1 g2 len i I (conj Y1 Y2)) as SI. rewrite Es in SI. cbn [stays] in SI.
  cbn [run]. rewrite Es. cbn [obind]. set (s1 := push h (st_vars s) (OKzg (Var i) a b len)) in *.
  pose proof (has_lt _ _ _ H) as Lt.
  assert (H1 : has s1 i (OFft w e r)) by (apply has_push_old; auto).
  assert (H2 : has s1 (next s) (OKzg (Var i) a b len)) by apply has_push_new.
  assert (A : exists h' vs', step L s1 c = Done (St h' (set (st_vars s1) i None ++ vs'), ONone)).
  { destruct Hc as [->| ->]; cbn [step]; rewrite (var_has _ _ _ H1); cbn [obind].
    - exists (st_heap s1), [Some (OFft w e r)]. reflexivity.
    - destruct (drop_inv _ _ _ SI H1) as (h' & -> & _). exists h', []. rewrite app_nil_r. reflexivity. }
  destruct A as (h' & vs' & ->). cbn [obind].
  set (s2 := St h' (set (st_vars s1) i None ++ vs')).
  assert (Ln : length (set (st_vars s1) i None) = S (next s)). { rewrite set_len. unfold s1, push, next. cbn. rewrite app_length. cbn. lia. }
  assert (H3 : has s2 (next s) (OKzg (Var i) a b len)).
  { unfold has, s2. cbn [st_vars]. rewrite nth_error_app1 by lia. rewrite nth_error_set. destruct (Nat.eqb_spec (next s) i); [lia|exact H2]. }
  assert (D : deref_fft s2 (Var i) = Fault BadAccess).
  { unfold deref_fft, deref, s2. cbn [st_vars]. rewrite nth_error_app1 by lia. rewrite nth_error_set, Nat.eqb_refl. destruct (i <? _); reflexivity. }
  cbn [step]. rewrite (var_has _ _ _ H3). cbn [obind]. rewrite D. split; reflexivity.
Qed.
Lemma chain_gone (s2 : state) x ks j k : has s2 x ks -> (exists y n, ks = OSingle (Var k) y n) \/ (exists y f n, ks = OMulti (Var k) y f n) ->
  (forall o, has s2 k o -> exists a b n, o = OKzg (Var j) a b n) -> (forall o, ~ has s2 k o) \/ (forall o, ~ has s2 j o) ->
  step L s2 (UseWidth x) = Fault BadAccess.
Proof.
  intros H K O G. cbn [step]. rewrite (var_has _ _ _ H). cbn [obind].
  assert (D : (do fs <- deref_kzg s2 (Var k); do (w, _) <- deref_fft s2 fs; Done (s2, ONone)) = Fault BadAccess :> out (state * obs V)).
  { unfold deref_kzg, deref. unfold has in *. destruct (nth_error (st_vars s2) k) as [[o|]|] eqn:E; try reflexivity.
    destruct (O o eq_refl) as (a & b & n & ->). cbn [obind]. destruct G as [G|G]; [exfalso; eapply G; reflexivity|].
    unfold deref_fft, deref. destruct (nth_error (st_vars s2) j) as [[o|]|] eqn:E2; try reflexivity. exfalso. eapply G; reflexivity. }
  destruct K as [(y & n & ->)|(y & f & n & ->)]; exact D.
Qed.
Lemma chain_bad (s : state) i j w e r a b n c0 : reached L s -> has s i (OKzg (Var j) a b n) -> has s j (OFft w e r) ->
  (exists n2, c0 = SingleNew i n2 /\ cl_single L w n2 = KzgOk) \/ (exists n2 m, c0 = MultiNew i n2 m /\ cl_multi L w n2 m = KzgOk) ->
  (exists s', run L s [c0; UseWidth (next s)] = Done (s', [ONone; ONone])) /\
  forall k c, k = i \/ k = j -> c = Move k \/ c = Drop k -> run L s [c0; c; UseWidth (next s)] = Fault BadAccess.
Proof.
  intros R Hi Hj C. pose proof (reached_inv L GL s R) as I. pose proof (has_lt _ _ _ Hi) as Li. pose proof (has_lt _ _ _ Hj) as Lj.
  assert (ND : i <> j) by (intros ->; unfold has in *; congruence).
  assert (Df : deref_fft s (Var j) = Done (w, e)). { unfold deref_fft, deref. unfold has in Hj. rewrite Hj. reflexivity. }
  assert (A : exists h o, step L s c0 = Done (push h (st_vars s) o, ONone) /\ inv (push h (st_vars s) o) /\
     ((exists y n, o = OSingle (Var i) y n) \/ (exists y f n, o = OMulti (Var i) y f n))).
  { destruct C as [(n2 & -> & E)|(n2 & m & -> & E)].
    - assert (SI : stays (step L s (SingleNew i n2))) by (apply single_stays; auto; intros fs' a' b' n' H'; exists j, w, e, r; unfold has in *; split; congruence).
      cbn [step] in *. rewrite (var_has _ _ _ Hi) in *. cbn [obind] in *. rewrite Df in *. cbn [obind] in *. rewrite E in *.
      destruct (h_alloc (st_heap s) (BPts n2)) as [h x]. eexists _, _. split; [reflexivity|]. split; [exact SI|]. left. eauto.
    - assert (SI : stays (step L s (MultiNew i n2 m))) by (apply multi_stays; auto; intros fs' a' b' n' H'; exists j, w, e, r; unfold has in *; split; congruence).
      cbn [step] in *. rewrite (var_has _ _ _ Hi) in *. cbn [obind] in *. rewrite Df in *. cbn [obind] in *. rewrite E in *.
      destruct (alloc_files _ _ _) as [h1 fl]. destruct (h_alloc h1 (BPtrs fl)) as [h x]. eexists _, _. split; [reflexivity|]. split; [exact SI|]. right. eauto. }
  destruct A as (h & o & Es & I1 & O). set (s1 := push h (st_vars s) o) in *.
  assert (Hi1 : has s1 i (OKzg (Var j) a b n)) by (apply has_push_old; auto).
  assert (Hj1 : has s1 j (OFft w e r)) by (apply has_push_old; auto).
  assert (Hn1 : has s1 (next s) o) by apply has_push_new.
  split.
  - exists s1. cbn [run]. rewrite Es. cbn [obind].
    assert (D : (do fs <- deref_kzg s1 (Var i); do (w, _) <- deref_fft s1 fs; Done (s1, ONone)) = Done (s1, ONone) :> out (state * obs V)).
    { unfold deref_kzg, deref. unfold has in Hi1, Hj1. rewrite Hi1. cbn [obind]. unfold deref_fft, deref. rewrite Hj1. reflexivity. }
    cbn [step]. rewrite (var_has _ _ _ Hn1). cbn [obind]. destruct O as [(y & n' & ->)|(y & f & n' & ->)]; rewrite D; reflexivity.
  - intros k c Hk Hc. cbn [run]. rewrite Es. cbn [obind].
    assert (exists q, has s1 k q) as (q & Hq) by (destruct Hk as [->| ->]; eauto).
    assert (A : exists h' vs', step L s1 c = Done (St h' (set (st_vars s1) k None ++ vs'), ONone)).
    { destruct Hc as [->| ->]; cbn [step]; rewrite (var_has _ _ _ Hq); cbn [obind].
      - exists (st_heap s1), [Some q]. reflexivity.
      - destruct (drop_inv _ _ _ I1 Hq) as (h' & -> & _). exists h', []. rewrite app_nil_r. reflexivity. }
    destruct A as (h' & vs' & ->). cbn [obind]. set (s2 := St h' (set (st_vars s1) k None ++ vs')).
    assert (Ln : length (set (st_vars s1) k None) = S (next s)). { rewrite set_len. unfold s1, push, next. cbn. rewrite app_length. cbn. lia. }
    assert (Q : forall x o', x <= next s -> has s2 x o' <-> (x <> k /\ has s1 x o')).
    { intros x o' Lx. unfold has, s2. cbn [st_vars]. rewrite nth_error_app1 by lia. rewrite nth_error_set.
      destruct (Nat.eqb_spec x k) as [->|]; [|tauto]. split; [|tauto]. destruct (k <? _); discriminate. }
    rewrite (chain_gone s2 (next s) o j i); auto.
    + apply Q; [lia|]. split; [destruct Hk; lia|exact Hn1].
    + intros o' H'. apply Q in H'; [|lia]. exists a, b, n. unfold has in *. destruct H'. congruence.
    + destruct Hk as [->| ->]; [left|right]; intros o' H'; apply Q in H'; lia || (destruct H'; congruence).
Qed.
Lemma short_bad (s : state) i w e r g1 g2 len : has s i (OFft w e r) -> cl_kzg L w len = KzgOk -> g1 < len \/ g2 < len ->
  step L s (KzgNew g1 g2 len i) = Fault BadAccess.
Proof.
  intros H E Y. cbn [step]. rewrite (var_has _ _ _ H). cbn [obind]. rewrite E. replace ((len <=? g1) && (len <=? g2)) with false; [reflexivity|].
  symmetry. apply andb_false_iff. destruct Y; [left|right]; apply Nat.leb_gt; lia.
Qed.
Lemma default_settings_bad (s : state) k : run L s [KzgDefault; KzgRootAt (next s) k] = Fault BadAccess /\ run L s [KzgDefault; UseWidth (next s)] = Fault BadAccess /\
  run L s [SingleDefault; UseWidth (next s)] = Fault BadAccess /\ run L s [MultiDefault; UseWidth (next s)] = Fault BadAccess.
Proof.
  cbn [run step obind]. rewrite (var_has _ _ _ (has_push_new s (st_heap s) kzg_default)), (var_has _ _ _ (has_push_new s (st_heap s) single_default)), (var_has _ _ _ (has_push_new s (st_heap s) multi_default)).
  repeat split; reflexivity.
Qed.
Lemma scale_wraps (s : state) sc q : step L s (FftNew (sc + q * 2 ^ 32)) = step L s (FftNew sc).
Proof. cbn [step]. rewrite Z_mod_plus_full. reflexivity. Qed.
Lemma left_bad (L' : clib V) (s : state) n sc :
  (cl_poly L' n <> KzgOk -> cl_poly_left L' n = Expired -> step L' s (PolyNew n) = Fault BadFree) /\
  (cl_fft L' (sc mod 2 ^ 32) <> KzgOk -> (0 < cl_fft_left L' (sc mod 2 ^ 32) < 2 ^ 32)%Z -> step L' s (FftNew sc) = Fault BadFree) /\
  (forall i j a b, i <> j -> poly_is L' s i a -> poly_is L' s j b -> fst (cl_div L' a b) <> KzgOk -> cl_div_left L' a b = Expired ->
     step L' s (Div i j) = Fault BadFree).
Proof.
  split; [|split]; intros.
  - cbn [step]. destruct (cl_poly L' n); [congruence| | |]; unfold fail; cbn [drop_obj]; rewrite H0; reflexivity.
  - cbn [step]. assert (G : fail s (OFft (cl_fft_left L' (sc mod 2 ^ 32)) Expired Expired) = Fault BadFree).
    { unfold fail. cbn [drop_obj]. replace ((0 <? _) && _)%Z with true; [reflexivity|]. symmetry. apply andb_true_iff. split; apply Z.ltb_lt; lia. }
    destruct (cl_fft L' (sc mod 2 ^ 32)); [congruence|exact G|exact G|exact G].
  - cbn [step]. unfold two_polys. rewrite (proj2 (Nat.eqb_neq _ _) H), (poly_is_var _ _ _ _ H0), (poly_is_var _ _ _ _ H1). cbn [obind].
    destruct (cl_div L' a b) as [[] l]; cbn [fst] in *; [congruence| | |]; unfold fail; cbn [drop_obj]; rewrite H3; reflexivity.
Qed.
Lemma fail_same (s : state) o : drop_obj (st_heap s) o = Done (st_heap s) -> fail s o = Done (s, OErr).
Proof. intros E. unfold fail. rewrite E. cbn. now rewrite st_eta. Qed.
Lemma refusals (s : state) :
  (forall n, cl_poly L n <> KzgOk -> step L s (PolyNew n) = Done (s, OErr)) /\
  (forall sc, cl_fft L (sc mod 2 ^ 32) <> KzgOk -> step L s (FftNew sc) = Done (s, OErr)) /\
  (forall i w e r g1 g2 len, has s i (OFft w e r) -> cl_kzg L w len <> KzgOk -> step L s (KzgNew g1 g2 len i) = Done (s, OErr)) /\
  (forall i j w e r a b n, has s i (OKzg (Var j) a b n) -> has s j (OFft w e r) ->
     (forall n2, cl_single L w n2 <> KzgOk -> step L s (SingleNew i n2) = Done (s, OErr)) /\
     (forall n2 c, cl_multi L w n2 c <> KzgOk -> step L s (MultiNew i n2 c) = Done (s, OErr))).
Proof.
  destruct GL as (_ & G1 & _ & G2 & _). repeat split.
  - intros n E. cbn [step]. assert (F : fail s (OPoly (cl_poly_left L n) 0) = Done (s, OErr)) by (apply fail_same; rewrite (G1 _ E); reflexivity).
    destruct (cl_poly L n); [congruence|exact F|exact F|exact F].
  - intros sc E. cbn [step]. assert (F : fail s (OFft (cl_fft_left L (sc mod 2 ^ 32)) Expired Expired) = Done (s, OErr)).
    { apply fail_same. cbn [drop_obj]. replace ((0 <? _) && _)%Z with false; [reflexivity|]. symmetry. apply andb_false_iff. destruct (G2 _ E); [left|right]; apply Z.ltb_ge; lia. }
    destruct (cl_fft L (sc mod 2 ^ 32)); [congruence|exact F|exact F|exact F].
  - intros i w e r g1 g2 len H E. cbn [step]. rewrite (var_has _ _ _ H). cbn [obind]. destruct (cl_kzg L w len); [congruence| | |]; apply fail_same; reflexivity.
  - intros n2 E. cbn [step]. rewrite (var_has _ _ _ H). cbn [obind]. rewrite (deref_fft_has _ _ _ _ _ H0). cbn [obind]. destruct (cl_single L w n2); [congruence| | |]; apply fail_same; reflexivity.
  - intros n2 c E. cbn [step]. rewrite (var_has _ _ _ H). cbn [obind]. rewrite (deref_fft_has _ _ _ _ _ H0). cbn [obind]. destruct (cl_multi L w n2 c); [congruence| | |]; apply fail_same; reflexivity.
Qed.
Lemma fresh_values (s : state) n : cl_poly L n = KzgOk -> 0 < n ->
  exists s', run L s [PolyNew n; GetCoeffs (next s)] = Done (s', [ONone; OVals (cl_poly_cells L n)]).
Proof.
  intros E N. cbn [run step]. rewrite E. unfold h_alloc. cbn [entries]. pose proof (proj1 GL n) as Ln. rewrite Ln.
  destruct (Nat.eqb_spec n 0); [lia|]. cbn [obind].
  rewrite (var_has _ _ _ (has_push_new s _ (OPoly (Heap (length (st_heap s))) n))). cbn [obind push st_heap]. unfold h_slice, h_block.
  rewrite nth_error_app2, Nat.sub_diag by lia. cbn [nth_error obind]. destruct n; [lia|]. rewrite Ln, Nat.leb_refl.
  rewrite firstn_all2 by lia. cbn. eauto.
Qed.
Lemma table_values (s : state) sc : (0 <= sc < 2 ^ 32)%Z -> cl_fft L sc = KzgOk ->
  exists s', step L s (FftNew sc) = Done (s', ONone) /\
    step L s' (Roots (next s)) = Done (s', OVals (firstn (Z.to_nat (2 ^ sc)) (cl_roots L sc))) /\
    step L s' (Reverses (next s)) = Done (s', OVals (firstn (Z.to_nat (2 ^ sc)) (cl_reverse L sc))) /\
    forall k, k <= Z.to_nat (2 ^ sc) -> exists v w,
      nth_error (cl_roots L sc) k = Some v /\ step L s' (RootAt (next s) k) = Done (s', OVal v) /\
      nth_error (cl_reverse L sc) k = Some w /\ step L s' (ReverseAt (next s) k) = Done (s', OVal w).
Proof.
  intros B E. destruct (proj1 (proj2 (proj2 GL)) _ E) as (_ & L1 & L2).
  assert (P : (0 < 2 ^ sc)%Z) by (apply Z.pow_pos_nonneg; lia).
  cbn [step]. rewrite Z.mod_small by lia. rewrite E. unfold h_alloc. cbn [entries]. rewrite L1, L2. cbn [Nat.eqb].
  set (h := (st_heap s ++ [Some (BFr (cl_roots L sc))]) ++ [Some (BFr (cl_reverse L sc))]).
  set (a := length (st_heap s)). set (b := length (st_heap s ++ [Some (BFr (cl_roots L sc))])). set (N := Z.to_nat (2 ^ sc)) in *.
  assert (Ea : nth_error h a = Some (Some (BFr (cl_roots L sc)))).
  { unfold h, a. rewrite nth_error_app1 by (rewrite app_length; cbn; lia). now rewrite nth_error_app2, Nat.sub_diag by lia. }
  assert (Eb : nth_error h b = Some (Some (BFr (cl_reverse L sc)))). { unfold h, b. now rewrite nth_error_app2, Nat.sub_diag by lia. }
  eexists. split; [reflexivity|]. set (o := OFft (2 ^ sc) (Heap a) (Heap b)). set (s' := push h (st_vars s) o).
  assert (Hv : var s' (next s) = Done o) by (apply var_has; apply has_push_new).
  rewrite Hv. cbn [obind o]. change (st_heap s') with h. unfold h_slice, h_read, h_block. rewrite Ea, Eb. cbn [obind]. rewrite L1, L2.
  assert (SN : S (pred N) = N) by lia.
  fold N. split; [|split].
  - rewrite <- SN. rewrite (proj2 (Nat.leb_le _ _)) by lia. reflexivity.
  - rewrite <- SN. rewrite (proj2 (Nat.leb_le _ _)) by lia. reflexivity.
  - intros k K. destruct (nth_error (cl_roots L sc) k) as [v|] eqn:Ev; [|apply nth_error_None in Ev; lia].
    destruct (nth_error (cl_reverse L sc) k) as [w|] eqn:Ew; [|apply nth_error_None in Ew; lia].
    exists v, w. repeat split; reflexivity.
Qed.
Lemma slice_keep (h h' : heap V) p n l : (forall b, p = Heap b -> nth_error h' b = nth_error h b) -> h_slice h p n = Done l -> h_slice h' p n = Done l.
Proof. destruct p as [| |b]; intros K; unfold h_slice, h_block; auto. now rewrite (K b eq_refl). Qed.
Lemma kept_ok (s : state) h' vs' : inv s -> (forall b, b < length (st_heap s) -> nth_error h' b = nth_error (st_heap s) b) ->
  (forall i o, has s i o -> nth_error vs' i = Some (Some o)) -> polys_kept L s (St h' vs').
Proof.
  intros I K Hv i l ((c & H) & G). pose proof (Hv _ _ H) as H'. split; [exists c; exact H'|]. intros P. specialize (G P). cbn [step] in *.
  rewrite (var_has _ _ _ H) in G. rewrite (var_has (St h' vs') _ _ H'). cbn [obind st_heap] in *.
  destruct (h_slice (st_heap s) c (length l)) as [x| |] eqn:E; cbn in G; try discriminate. injection G as ->.
  rewrite (slice_keep (st_heap s) h' c (length l) l); [reflexivity| |exact E]. intros b ->. apply K.
  destruct (poly_block _ _ _ _ 0 I H P) as (b' & l' & [= <-] & Eb & _). apply nth_error_Some. rewrite Eb. discriminate.
Qed.
Lemma alloc_keep (h : heap V) k h' p b : h_alloc h k = (h', p) -> b < length h -> nth_error h' b = nth_error h b.
Proof. unfold h_alloc. destruct (entries k =? 0); intros [= <- <-] B; auto. apply nth_error_app1; auto. Qed.
Lemma kept_push (s : state) l h p : inv s -> h_alloc (st_heap s) (BFr l) = (h, p) ->
  poly_is L (push h (st_vars s) (OPoly p (length l))) (next s) l /\ polys_kept L s (push h (st_vars s) (OPoly p (length l))).
Proof.
  intros I Ea. split.
  - split; [eexists; apply has_push_new|]. intros P. cbn [step]. rewrite (var_has _ _ _ (has_push_new s h _)). cbn [obind push st_heap].
    unfold h_alloc in Ea. cbn [entries] in Ea. destruct (Nat.eqb_spec (length l) 0); [lia|]. injection Ea as <- <-. unfold h_slice, h_block.
    rewrite nth_error_app2, Nat.sub_diag by lia. cbn [nth_error obind]. destruct l as [|x l]; [cbn in P; lia|]. cbn [length]. rewrite Nat.leb_refl.
    cbn [obind]. rewrite firstn_all2 by auto. reflexivity.
  - apply kept_ok; auto; [intros; eapply alloc_keep; eauto|]. intros i o H. apply (has_push_old s h i o _ H).
Qed.
Lemma fill_returned (s : state) n r : inv s -> (forall l, r = (KzgOk, l) -> length l = n) -> returned L s n r (fill L s n r).
Proof.
  intros I R. destruct GL as (G1 & G2 & _). unfold returned, fill. destruct (cl_poly L n) eqn:E;
    try (unfold fail_panic, fail; cbn [drop_obj]; rewrite G2 by congruence; cbn; now rewrite st_eta).
  assert (B : exists s', (let '(h, p) := h_alloc (st_heap s) (BFr (cl_poly_cells L n)) in fail (St h (st_vars s)) (OPoly p n)) = Done (s', OErr) /\ next s' = next s /\ polys_kept L s s').
  { destruct (h_alloc (st_heap s) (BFr (cl_poly_cells L n))) as [h p] eqn:Ea. pose proof (push_poly _ _ _ _ I Ea) as J. rewrite G1 in J.
    destruct (unpush_inv (St h (st_vars s)) _ J) as (h' & Ed & J' & C). unfold fail. cbn [st_heap] in *. rewrite Ed. eexists. split; [reflexivity|]. split; [reflexivity|].
    apply kept_ok; auto. intros b Hb. cbn [drop_obj] in Ed. unfold h_alloc in Ea. destruct (entries (BFr (cl_poly_cells L n)) =? 0); injection Ea as <- <-.
    - cbn in Ed. injection Ed as <-. reflexivity.
    - cbn in Ed. rewrite nth_error_app2, Nat.sub_diag in Ed by lia. cbn in Ed. injection Ed as <-. rewrite nth_error_set.
      destruct (Nat.eqb_spec b (length (st_heap s))); [lia|]. apply nth_error_app1; auto. }
  destruct r as [[] l]; try exact B. destruct (h_alloc (st_heap s) (BFr l)) as [h p] eqn:Ea. pose proof (R l eq_refl) as <-.
  eexists. split; [reflexivity|]. apply (kept_push _ _ _ _ I Ea).
Qed.
Lemma op_returned (s : state) op a b n : inv s -> returned L s n (cl_op L op a b n) (fill L s n (cl_op L op a b n)).
Proof. intros I. apply fill_returned; auto. intros l E. destruct GL as (_ & _ & _ & _ & G & _). exact (G _ _ _ _ _ E). Qed.
Lemma operations (s : state) i j a b : reached L s -> poly_is L s i a ->
  (forall x, step L s (Eval i x) = Done (s, OVal (cl_eval L a x))) /\
  (forall n, returned L s n (cl_op L PInverse a [] n) (step L s (Inverse i n))) /\
  (i <> j -> poly_is L s j b ->
   returned L s (length a) (cl_op L PLong a b (length a)) (step L s (LongDiv i j)) /\
   returned L s (length a) (cl_op L PFast a b (length a)) (step L s (FastDiv i j)) /\
   (forall n, returned L s n (cl_op L PMul a b n) (step L s (MulDirect i j n))) /\
   match cl_div L a b with
   | (KzgOk, l) => exists s', step L s (Div i j) = Done (s', ONone) /\ poly_is L s' (next s) l /\ polys_kept L s s'
   | _ => step L s (Div i j) = Done (s, OErr)
   end).
Proof.
  intros R Pa. pose proof (reached_inv L GL s R) as I. pose proof (poly_is_var _ _ _ _ Pa) as Va. split; [|split].
  - intros x. cbn [step]. rewrite Va. reflexivity.
  - intros n. cbn [step]. rewrite Va. cbn [obind]. apply op_returned; auto.
  - intros D Pb. pose proof (poly_is_var _ _ _ _ Pb) as Vb.
    assert (T : two_polys s i j = Done (a, b)). { unfold two_polys. rewrite (proj2 (Nat.eqb_neq _ _) D), Va, Vb. reflexivity. }
    cbn [step]. rewrite T. cbn [obind]. split; [apply op_returned; auto|]. split; [apply op_returned; auto|]. split; [intros; apply op_returned; auto|].
    destruct GL as (_ & _ & _ & _ & _ & G). specialize (G a b).
    destruct (cl_div L a b) as [[] l]; try (apply fail_same; cbn [drop_obj]; rewrite G by discriminate; reflexivity).
    destruct (h_alloc (st_heap s) (BFr l)) as [h p] eqn:Ea. eexists. split; [reflexivity|]. apply (kept_push _ _ _ _ I Ea).
Qed.
Lemma empty_slice (s : state) : cl_poly L 0 = KzgOk -> run L s [PolyNew 0; GetCoeffs (next s)] = Fault BadAccess.
Proof.
  intros E. destruct GL as (G1 & _). specialize (G1 0). unfold run. cbn [step]. rewrite E. destruct (cl_poly_cells L 0) as [|x l]; [|discriminate G1].
  unfold h_alloc. cbn [entries length Nat.eqb obind]. rewrite (var_has _ _ _ (has_push_new s (st_heap s) (OPoly Null 0))). reflexivity.
Qed.
End Proof.
