(** * Proof_Ckzg: programs of the ckzg crate and their memory *)
From Coq Require Import List Arith Bool ZArith Lia Permutation.
From Verif Require Import Base Model_Ckzg Spec_Ckzg.
Import ListNotations.

Lemma nth_error_set {A} (l : list A) i x j :
  nth_error (set l i x) j = if j =? i then (if i <? length l then Some x else None) else nth_error l j.
Proof.
  revert i j; induction l as [|a l IH]; intros [|i] [|j]; cbn; try reflexivity.
  - destruct (j =? i); reflexivity.
  - rewrite IH. reflexivity.
Qed.
Lemma set_len {A} (l : list A) i x : length (set l i x) = length l.
Proof. revert i; induction l as [|a l IH]; intros [|i]; cbn; auto. Qed.
Lemma set_split {A} (l1 l2 : list A) a x : set (l1 ++ a :: l2) (length l1) x = l1 ++ x :: l2.
Proof. induction l1; cbn; [reflexivity|now rewrite IHl1]. Qed.

Lemma nodup_join {A} (a b : list A) : NoDup a -> NoDup b -> (forall x, In x a -> ~ In x b) -> NoDup (a ++ b).
Proof.
  intros N Nb. induction N as [|x a X N IH]; cbn; intros D; auto. constructor; [|apply IH; intros; apply D; right; auto].
  intros I. apply in_app_or in I as [I|I]; [contradiction|]. apply (D x); [left; auto|auto].
Qed.

Section Proof.
Context {V : Type}.
Notation heap := (heap V). Notation state := (state V). Notation cmd := (cmd V).

Inductive shape := SFr (n : nat) | SPts (n : nat) | SPtrs (l : list ptr).
Definition shape_of (k : block V) : shape := match k with BFr l => SFr (length l) | BPts n => SPts n | BPtrs l => SPtrs l end.
Definition shp (h : heap) (b : nat) : option shape :=
  match nth_error h b with Some (Some k) => Some (shape_of k) | _ => None end.
Definition pb (p : ptr) : list nat := match p with Heap b => [b] | _ => [] end.
Definition files_of (h : heap) (f : ptr) : list ptr :=
  match f with Heap b => match shp h b with Some (SPtrs l) => l | _ => [] end | _ => [] end.
Definition owned (h : heap) (o : obj) : list nat :=
  match o with
  | OPoly c _ => pb c
  | OFft _ e r => pb e ++ pb r
  | OKzg _ a b _ => pb a ++ pb b
  | OSingle _ x _ => pb x
  | OMulti _ _ f _ => flat_map pb (files_of h f) ++ pb f
  end.
Definition ownedv (h : heap) (v : option obj) := match v with Some o => owned h o | None => [] end.
Definition owned_all (h : heap) (vs : list (option obj)) := flat_map (ownedv h) vs.
Definition frs (h : heap) (p : ptr) (n : nat) := exists b, p = Heap b /\ shp h b = Some (SFr n).
Definition wfo (h : heap) (o : obj) : Prop :=
  match o with
  | OPoly c n => (c = Null /\ n = 0) \/ (0 < n /\ frs h c n)
  | OFft w e r => (w = 0%Z /\ e = Expired /\ r = Expired) \/ ((0 < w < 2 ^ 32)%Z /\ frs h e (S (Z.to_nat w)) /\ frs h r (S (Z.to_nat w)))
  | OKzg _ a b n => (n = 0 /\ pb a = [] /\ pb b = []) \/ (0 < n /\ exists i j, a = Heap i /\ b = Heap j)
  | OSingle _ x n => (n = 0 /\ pb x = []) \/ (0 < n /\ exists i, x = Heap i)
  | OMulti _ c f n => (c = 0 /\ f = Null) \/ (0 < c /\ exists i l, f = Heap i /\ shp h i = Some (SPtrs l) /\ length l = c /\ ~ In Expired l)
  end.
Definition inv (s : state) : Prop :=
  NoDup (owned_all (st_heap s) (st_vars s)) /\
  (forall b, In b (owned_all (st_heap s) (st_vars s)) <-> shp (st_heap s) b <> None) /\
  (forall i o, has s i o -> wfo (st_heap s) o).

Lemma shp_lt (h : heap) b : shp h b <> None -> b < length h.
Proof. unfold shp. intros H. apply nth_error_Some. intros E. rewrite E in H. auto. Qed.
Lemma shp_some (h : heap) b : shp h b <> None -> exists k, nth_error h b = Some (Some k) /\ shp h b = Some (shape_of k).
Proof. unfold shp. destruct (nth_error h b) as [[k|]|]; intros H; try congruence. eauto. Qed.

Lemma own_congr (h h' : heap) o : (forall b, In b (owned h o) -> shp h' b = shp h b) -> owned h' o = owned h o.
Proof.
  destruct o; cbn; auto. intros H. destruct files as [| |b]; cbn in *; auto. rewrite (H b); [reflexivity|]. apply in_or_app. right. left. reflexivity.
Qed.
Lemma wf_congr (h h' : heap) o : (forall b, In b (owned h o) -> shp h' b = shp h b) -> wfo h o -> wfo h' o.
Proof.
  assert (F : forall p n, (forall b, In b (pb p) -> shp h' b = shp h b) -> frs h p n -> frs h' p n).
  { intros p n H (b & -> & E). exists b. split; auto. rewrite H; auto. left. reflexivity. }
  destruct o; cbn; intros H W.
  - destruct W as [W|(W & W')]; [left|right]; auto.
  - destruct W as [W|(W & W1 & W2)]; [left; auto|right]. repeat split; try tauto; apply F; auto; intros; apply H, in_or_app; auto.
  - exact W.
  - exact W.
  - destruct W as [W|(W & i & l & -> & E & R)]; [left; auto|right]. split; auto. exists i, l. repeat split; try tauto. rewrite H; auto. apply in_or_app. right. left. reflexivity.
Qed.
Lemma in_all h vs b : In b (owned_all h vs) <-> exists i o, nth_error vs i = Some (Some o) /\ In b (owned h o).
Proof.
  unfold owned_all. rewrite in_flat_map. split.
  - intros ([o|] & I & J); [|contradiction]. destruct (In_nth_error _ _ I) as (i & E). eauto.
  - intros (i & o & E & I). exists (Some o). split; auto. eapply nth_error_In; eauto.
Qed.
Lemma all_congr (h h' : heap) vs : (forall b, In b (owned_all h vs) -> shp h' b = shp h b) -> owned_all h' vs = owned_all h vs.
Proof.
  induction vs as [|[o|] vs IH]; intros H; [reflexivity| |apply IH, H].
  change (owned h' o ++ owned_all h' vs = owned h o ++ owned_all h vs). change (forall b, In b (owned h o ++ owned_all h vs) -> shp h' b = shp h b) in H.
  f_equal; [apply own_congr|apply IH]; intros; apply H, in_or_app; auto.
Qed.
Lemma wf_all_congr (h h' : heap) vs : (forall b, In b (owned_all h vs) -> shp h' b = shp h b) ->
  (forall i o, nth_error vs i = Some (Some o) -> wfo h o) -> forall i o, nth_error vs i = Some (Some o) -> wfo h' o.
Proof. intros H W i o E. apply (wf_congr h); eauto. intros b I. apply H, in_all. eauto. Qed.

(** ** allocation *)
Definition grown (h h' : heap) (bs : list nat) : Prop :=
  NoDup bs /\ (forall c, In c bs -> length h <= c /\ shp h' c <> None) /\ (forall c, ~ In c bs -> shp h' c = shp h c) /\ length h <= length h'.
Lemma grown_refl h : grown h h [].
Proof. split; [constructor|split; [cbn; tauto|split; [auto|lia]]]. Qed.
Lemma grown_trans h h1 h2 a b : grown h h1 a -> grown h1 h2 b -> grown h h2 (a ++ b).
Proof.
  intros (N1 & I1 & O1 & L1) (N2 & I2 & O2 & L2).
  assert (D : forall c, In c a -> ~ In c b). { intros c Ic Jc. apply I1 in Ic. apply I2 in Jc. destruct Ic as (_ & S). apply shp_lt in S. lia. }
  repeat split; try lia.
  - apply nodup_join; auto.
  - apply in_app_or in H as [H|H]; [apply I1 in H; lia|apply I2 in H; lia].
  - apply in_app_or in H as [H|H]; [rewrite O2 by auto; apply I1; auto|apply I2; auto].
  - intros c H. rewrite O2, O1; auto; intros I; apply H, in_or_app; auto.
Qed.
Lemma shp_app (h : heap) x c : shp (h ++ [x]) c = if c =? length h then match x with Some k => Some (shape_of k) | None => None end else shp h c.
Proof.
  unfold shp. destruct (Nat.eqb_spec c (length h)) as [->|N].
  - rewrite nth_error_app2, Nat.sub_diag by lia. cbn. destruct x; reflexivity.
  - destruct (lt_dec c (length h)); [rewrite nth_error_app1 by lia; reflexivity|].
    rewrite !(proj2 (nth_error_None _ c)); auto; rewrite ?app_length; cbn; lia.
Qed.
Lemma alloc_grown h k h' p : h_alloc h k = (h', p) -> grown h h' (pb p) /\
  ((entries k = 0 /\ p = Null /\ h' = h) \/ (0 < entries k /\ p = Heap (length h) /\ shp h' (length h) = Some (shape_of k))).
Proof.
  unfold h_alloc. destruct (Nat.eqb_spec (entries k) 0) as [E|E]; intros [= <- <-].
  - split; [apply grown_refl|left; auto].
  - split; [|right; repeat split; try lia; rewrite shp_app, Nat.eqb_refl; reflexivity].
    repeat split; cbn.
    + constructor; [cbn; tauto|constructor].
    + destruct H as [<-|[]]. lia.
    + destruct H as [<-|[]]. rewrite shp_app, Nat.eqb_refl. discriminate.
    + intros c H. rewrite shp_app. destruct (Nat.eqb_spec c (length h)); [subst; tauto|reflexivity].
    + rewrite app_length. lia.
Qed.
Lemma grown_keep h h' bs b : grown h h' bs -> b < length h -> shp h' b = shp h b.
Proof. intros (_ & I & O & _) L. apply O. intros J. apply I in J. lia. Qed.

Lemma push_inv h vs h' o : inv (St h vs) -> grown h h' (owned h' o) -> wfo h' o -> inv (push h' vs o).
Proof.
  intros (N & I & W) G Wo. cbn in *.
  assert (K : forall b, In b (owned_all h vs) -> shp h' b = shp h b). { intros b Hb. eapply grown_keep; eauto. apply shp_lt, I; auto. }
  assert (E : owned_all h' (vs ++ [Some o]) = owned_all h vs ++ owned h' o). { unfold owned_all at 1. rewrite flat_map_app. cbn. rewrite app_nil_r. f_equal. apply all_congr; auto. }
  destruct G as (G1 & G2 & G3 & G4). unfold push, inv. cbn [st_heap st_vars]. rewrite E. repeat split.
  - apply nodup_join; auto. intros c Ic Jc. apply I, shp_lt in Ic. apply G2 in Jc. lia.
  - intros J. apply in_app_or in J as [J|J]; [rewrite K by auto; apply I; auto|apply G2; auto].
  - intros S. apply in_or_app. destruct (in_dec Nat.eq_dec b (owned h' o)); auto. left. apply I. rewrite <- G3; auto.
  - intros i x H. unfold has in H. cbn in H. destruct (lt_dec i (length vs)).
    + rewrite nth_error_app1 in H by lia. eapply wf_all_congr; eauto.
    + rewrite nth_error_app2 in H by lia. destruct (i - length vs) as [|[|m]]; cbn in H; try discriminate. injection H as <-. exact Wo.
Qed.

(** ** freeing *)
Definition cleared (h h' : heap) (bs : list nat) : Prop :=
  (forall c, In c bs -> shp h' c = None) /\ (forall c, ~ In c bs -> shp h' c = shp h c).
Lemma cleared_refl h : cleared h h [].
Proof. split; cbn; tauto. Qed.
Lemma cleared_trans h h1 h2 a b : cleared h h1 a -> cleared h1 h2 b -> cleared h h2 (a ++ b).
Proof.
  intros (A1 & A2) (B1 & B2). split; intros c H.
  - destruct (in_dec Nat.eq_dec c b); auto. apply in_app_or in H as [H|H]; [|contradiction]. rewrite B2; auto.
  - rewrite B2, A2; auto; intros I; apply H, in_or_app; auto.
Qed.
Lemma free_ok h p : p <> Expired -> (forall b, In b (pb p) -> shp h b <> None) -> exists h', h_free h p = Done h' /\ cleared h h' (pb p).
Proof.
  destruct p as [| |b]; intros N H; [eexists; split; [reflexivity|apply cleared_refl]|congruence|].
  destruct (shp_some h b) as (k & E & S); [apply H; left; auto|]. cbn. rewrite E. eexists. split; [reflexivity|].
  split; intros c Hc; cbn in Hc; unfold shp; rewrite nth_error_set.
  - destruct Hc as [<-|[]]. rewrite Nat.eqb_refl. destruct (b <? length h); reflexivity.
  - destruct (Nat.eqb_spec c b); [subst; tauto|reflexivity].
Qed.
Lemma free2_ok h p q : p <> Expired -> q <> Expired -> NoDup (pb p ++ pb q) -> (forall b, In b (pb p ++ pb q) -> shp h b <> None) ->
  exists h', (do h <- h_free h p; h_free h q) = Done h' /\ cleared h h' (pb p ++ pb q).
Proof.
  intros P Q N H. destruct (free_ok h p P) as (h1 & E1 & C1); [intros; apply H, in_or_app; auto|].
  destruct (free_ok h1 q Q) as (h2 & E2 & C2).
  { intros b I. rewrite (proj2 C1); [apply H, in_or_app; auto|]. intros J. revert N I J. clear. induction (pb p) as [|x l IH]; cbn; [tauto|]. inversion 1; subst. intros I [<-|J]; auto. apply H1, in_or_app; auto. }
  exists h2. rewrite E1. cbn. split; [exact E2|]. eapply cleared_trans; eauto.
Qed.
Lemma nodup_parts {A} (a b : list A) : NoDup (a ++ b) -> NoDup a /\ NoDup b /\ forall x, In x a -> ~ In x b.
Proof.
  induction a as [|x a IH]; cbn; intros N; [repeat split; auto; constructor|]. inversion N as [|? ? H1 H2]; subst. destruct (IH H2) as (A1 & A2 & A3).
  repeat split; auto.
  - constructor; auto. intros I. apply H1, in_or_app; auto.
  - intros y [<-|I]; auto. intros J. apply H1, in_or_app; auto.
Qed.
Definition go_files (files : ptr) := fix go k i h : out heap := match k with
                   | O => Done h
                   | S k' => do p <- h_read_ptr h files i; do h <- h_free h p; go k' (S i) h
                   end.
Lemma go_ok f l : ~ In Expired l -> forall k i h, i + k = length l -> shp h f = Some (SPtrs l) ->
  NoDup (flat_map pb (skipn i l) ++ [f]) -> (forall b, In b (flat_map pb (skipn i l)) -> shp h b <> None) ->
  exists h', go_files (Heap f) k i h = Done h' /\ cleared h h' (flat_map pb (skipn i l)).
Proof.
  intros X. induction k as [|k IH]; intros i h E F N H.
  - rewrite skipn_all2 by lia. exists h. split; [reflexivity|apply cleared_refl].
  - destruct (nth_error l i) as [p|] eqn:Ep; [|apply nth_error_None in Ep; lia].
    assert (Es : skipn i l = p :: skipn (S i) l). { clear - Ep. revert i Ep. induction l as [|x l IH]; intros [|i]; cbn; try discriminate; [intros [= <-]; reflexivity|apply IH]. }
    rewrite Es in *. cbn [flat_map] in *.
    assert (Rd : h_read_ptr h (Heap f) i = Done p).
    { unfold h_read_ptr, h_block. unfold shp in F. destruct (nth_error h f) as [[k'|]|]; try discriminate. cbn. destruct k'; cbn in F; try discriminate. injection F as ->. rewrite Ep. reflexivity. }
    rewrite <- app_assoc in N. destruct (nodup_parts _ _ N) as (_ & N2 & N3).
    destruct (free_ok h p) as (h1 & E1 & C1).
    + intros ->. apply X. eapply nth_error_In; eauto.
    + intros b I. apply H, in_or_app; auto.
    + destruct (IH (S i) h1) as (h2 & E2 & C2); try lia; auto.
      * rewrite (proj2 C1); auto. intros I. apply (N3 f I), in_or_app. right. left. auto.
      * intros b I. rewrite (proj2 C1); [apply H, in_or_app; auto|]. intros J. apply (N3 b J), in_or_app; auto.
      * exists h2. cbn [go_files]. fold (go_files (Heap f)). rewrite Rd. cbn [obind]. rewrite E1. cbn [obind]. split; [exact E2|]. eapply cleared_trans; eauto.
Qed.
Lemma drop_ok h o : wfo h o -> NoDup (owned h o) -> (forall b, In b (owned h o) -> shp h b <> None) ->
  exists h', drop_obj h o = Done h' /\ cleared h h' (owned h o).
Proof.
  destruct o; cbn [wfo owned drop_obj]; intros W N H.
  - apply free_ok; auto. destruct W as [(-> & _)|(_ & b & -> & _)]; discriminate.
  - destruct W as [(-> & -> & ->)|(W & (b & -> & _) & (c & -> & _))].
    + cbn. exists h. split; [reflexivity|apply cleared_refl].
    + replace ((0 <? width) && (width <? 2 ^ 32))%Z with true; [|symmetry; apply andb_true_iff; split; apply Z.ltb_lt; lia].
      apply free2_ok; auto; discriminate.
  - destruct W as [(-> & -> & ->)|(W & i & j & -> & ->)].
    + cbn. exists h. split; [reflexivity|apply cleared_refl].
    + replace (0 <? len) with true by (symmetry; apply Nat.ltb_lt; lia). apply free2_ok; auto; discriminate.
  - destruct W as [(-> & ->)|(W & i & ->)].
    + cbn. exists h. split; [reflexivity|apply cleared_refl].
    + replace (0 <? len) with true by (symmetry; apply Nat.ltb_lt; lia). apply free_ok; auto; discriminate.
  - destruct W as [(-> & ->)|(W & i & l & -> & F & E & X)].
    + exists h. split; [destruct len; reflexivity|apply cleared_refl].
    + replace ((0 <? len) || (0 <? chunk_len)) with true; [|symmetry; apply orb_true_iff; right; apply Nat.ltb_lt; lia].
      cbn [files_of] in *. rewrite F in *. cbn [pb] in *.
      destruct (nodup_parts _ _ N) as (_ & _ & D).
      destruct (go_ok i l X chunk_len 0 h) as (h1 & E1 & C1); auto; [intros b I; apply H, in_or_app; auto|].
      destruct (free_ok h1 (Heap i)) as (h2 & E2 & C2); [discriminate| |].
      * intros b [<-|[]]. rewrite (proj2 C1); [rewrite F; discriminate|]. intros J. apply (D i J). left. auto.
      * exists h2. unfold free_files. fold (go_files (Heap i)). rewrite E1. cbn [obind]. split; [exact E2|]. eapply cleared_trans; eauto.
Qed.

Lemma has_split (s : state) i o : has s i o -> exists l1 l2, st_vars s = l1 ++ Some o :: l2 /\ length l1 = i.
Proof. unfold has. intros E. apply nth_error_split in E as (l1 & l2 & E & L). eauto. Qed.
Lemma all_mid h l1 v l2 : owned_all h (l1 ++ v :: l2) = owned_all h l1 ++ ownedv h v ++ owned_all h l2.
Proof. unfold owned_all. rewrite flat_map_app. reflexivity. Qed.

Lemma own_live (s : state) i o : inv s -> has s i o -> NoDup (owned (st_heap s) o) /\ forall b, In b (owned (st_heap s) o) -> shp (st_heap s) b <> None.
Proof.
  intros (N & I & W) H. split.
  - destruct (has_split _ _ _ H) as (l1 & l2 & E & _). rewrite E, all_mid in N. apply nodup_parts in N as (_ & N & _). apply nodup_parts in N as (N & _). exact N.
  - intros b Hb. apply I. apply in_all. exists i, o. split; auto.
Qed.
Lemma nodup_mid {A} (a b c : list A) : NoDup (a ++ b ++ c) -> NoDup (a ++ c) /\ forall x, In x b -> ~ In x (a ++ c).
Proof.
  intros N. assert (P : NoDup (b ++ (a ++ c))). { eapply Permutation_NoDup; [|exact N]. rewrite !app_assoc. apply Permutation_app_tail, Permutation_app_comm. }
  apply nodup_parts in P. tauto.
Qed.
Lemma drop_inv (s : state) i o : inv s -> has s i o -> exists h', drop_obj (st_heap s) o = Done h' /\ inv (St h' (set (st_vars s) i None)).
Proof.
  intros Hi H. pose proof Hi as (N & I & W). destruct (own_live _ _ _ Hi H) as (No & Lo).
  destruct (drop_ok (st_heap s) o (W _ _ H) No Lo) as (h' & E & C). exists h'. split; auto.
  destruct (has_split _ _ _ H) as (l1 & l2 & Ev & <-). rewrite Ev in *. rewrite set_split.
  rewrite all_mid in N. cbn [ownedv] in N. apply nodup_mid in N as (N1 & N2).
  assert (K : forall b, In b (owned_all (st_heap s) (l1 ++ None :: l2)) -> shp h' b = shp (st_heap s) b).
  { intros b Hb. apply (proj2 C). intros J. rewrite all_mid in Hb. apply (N2 b J). exact Hb. }
  pose proof (all_congr _ _ _ K) as Ea.
  unfold inv. cbn [st_heap st_vars]. rewrite Ea. split; [|split].
  - rewrite all_mid. exact N1.
  - intros b. split.
    + intros Hb. rewrite K by auto. apply I. rewrite all_mid in *. cbn [ownedv] in *. apply in_app_or in Hb as [Hb|Hb]; apply in_or_app; [auto|right; apply in_or_app; auto].
    + intros Hb. destruct (in_dec Nat.eq_dec b (owned (st_heap s) o)) as [J|J]; [rewrite (proj1 C) in Hb by auto; congruence|].
      rewrite (proj2 C) in Hb by auto. apply I in Hb. rewrite all_mid in *. cbn [ownedv] in *.
      apply in_app_or in Hb as [Hb|Hb]; apply in_or_app; [auto|]. apply in_app_or in Hb as [Hb|Hb]; [contradiction|right; auto].
  - intros j x Hx. eapply wf_all_congr; [exact K| |exact Hx]. intros j' x' Hx'. apply (W j'). unfold has. rewrite Ev.
    destruct (Nat.eq_dec j' (length l1)) as [->|D]; [rewrite nth_error_app2, Nat.sub_diag in Hx' by lia; discriminate|].
    destruct (lt_dec j' (length l1)); [rewrite nth_error_app1 in * by lia; exact Hx'|].
    rewrite nth_error_app2 in * by lia. destruct (j' - length l1) eqn:Q; [lia|exact Hx'].
Qed.
Lemma move_inv (s : state) i o : inv s -> has s i o -> inv (push (st_heap s) (set (st_vars s) i None) o).
Proof.
  intros (N & I & W) H. destruct (has_split _ _ _ H) as (l1 & l2 & Ev & <-). rewrite Ev in *. rewrite set_split.
  assert (P : Permutation (owned_all (st_heap s) ((l1 ++ None :: l2) ++ [Some o])) (owned_all (st_heap s) (l1 ++ Some o :: l2))).
  { unfold owned_all at 1. rewrite flat_map_app. fold (owned_all (st_heap s) (l1 ++ None :: l2)). rewrite !all_mid. cbn. rewrite app_nil_r, <- app_assoc. apply Permutation_app_head, Permutation_app_comm. }
  unfold push, inv. cbn [st_heap st_vars]. split; [|split].
  - eapply Permutation_NoDup; [apply Permutation_sym, P|exact N].
  - intros b. rewrite <- I. split; apply Permutation_in; [exact P|apply Permutation_sym, P].
  - intros j x Hx. unfold has in Hx. cbn [st_vars] in Hx. apply nth_error_In in Hx.
    assert (J : In (Some x) (l1 ++ Some o :: l2)).
    { rewrite !in_app_iff in *. cbn in *. destruct Hx as [[Hx|[Hx|Hx]]|[Hx|[]]]; auto; try discriminate. }
    apply In_nth_error in J as (j' & J). apply (W j'). unfold has. rewrite Ev. exact J.
Qed.

Lemma var_cases (s : state) i : (exists o, var s i = Done o /\ has s i o) \/ var s i = Reject.
Proof. unfold var, has. destruct (nth_error (st_vars s) i) as [[o|]|]; eauto. Qed.
Lemma var_has (s : state) i o : has s i o -> var s i = Done o.
Proof. unfold var, has. now intros ->. Qed.
Lemma same_inv h h' vs : (forall b, shp h' b = shp h b) -> inv (St h vs) -> inv (St h' vs).
Proof.
  intros E (N & I & W). unfold inv in *. cbn [st_heap st_vars] in *. rewrite (all_congr h h' vs) by auto. split; [|split]; auto.
  - intros b. rewrite E. auto.
  - intros i o H. apply (wf_congr h); auto. apply (W i o H).
Qed.
Lemma frs_block h p n : frs h p n -> exists b l, p = Heap b /\ nth_error h b = Some (Some (BFr l)) /\ length l = n.
Proof.
  intros (b & -> & E). unfold shp in E. destruct (nth_error h b) as [[k|]|] eqn:Eb; try discriminate.
  destruct k as [l| |]; cbn in E; try discriminate. injection E as <-. eauto.
Qed.
Lemma read_ok h p n k : frs h p n -> k < n -> exists v, h_read h p k = Done v.
Proof.
  intros F K. destruct (frs_block _ _ _ F) as (b & l & -> & E & <-). unfold h_read, h_block. rewrite E. cbn.
  destruct (nth_error l k) eqn:Ek; [eauto|]. apply nth_error_None in Ek. lia.
Qed.
Lemma write_ok h p n k v : frs h p n -> k < n -> exists h', h_write h p k v = Done h' /\ forall b, shp h' b = shp h b.
Proof.
  intros F K. destruct (frs_block _ _ _ F) as (b & l & -> & E & <-). unfold h_write, h_block. rewrite E. cbn [obind].
  replace (k <? length l) with true by (symmetry; apply Nat.ltb_lt; lia). eexists. split; [reflexivity|].
  intros c. unfold shp. rewrite nth_error_set. destruct (Nat.eqb_spec c b) as [->|]; [|reflexivity]. rewrite E.
  replace (b <? length h) with true; [cbn; now rewrite set_len|]. symmetry. apply Nat.ltb_lt, nth_error_Some. rewrite E. discriminate.
Qed.
Lemma slice_ok h p n m : frs h p n -> m <= n -> exists l, h_slice h p m = Done l.
Proof.
  intros F K. destruct (frs_block _ _ _ F) as (b & l & -> & E & <-). unfold h_slice, h_block. rewrite E. cbn [obind]. destruct m; [eauto|].
  replace (S m <=? length l) with true by (symmetry; apply Nat.leb_le; lia). eauto.
Qed.
Lemma files_grown n : forall k h h' l, @alloc_files V h k n = (h', l) -> grown h h' (flat_map pb l) /\ length l = k /\ ~ In Expired l.
Proof.
  induction k as [|k IH]; cbn [alloc_files]; intros h h' l.
  - intros [= <- <-]. split; [apply grown_refl|split; [reflexivity|cbn; tauto]].
  - destruct (h_alloc h (BPts n)) as [h1 p] eqn:E1. destruct (alloc_files h1 k n) as [h2 l2] eqn:E2. intros [= <- <-].
    destruct (alloc_grown _ _ _ _ E1) as (G1 & C1). destruct (IH _ _ _ E2) as (G2 & <- & X). split; [|split; [reflexivity|]].
    + cbn [flat_map]. eapply grown_trans; eauto.
    + cbn. intros [->|J]; [|auto]. destruct C1 as [(_ & ? & _)|(_ & ? & _)]; discriminate.
Qed.
Definition stays (m : out (state * obs V)) : Prop := match m with Done (s, _) => inv s | Fault _ => False | Reject => True end.
Lemma st_eta (s : state) : St (st_heap s) (st_vars s) = s. Proof. destruct s; reflexivity. Qed.
Lemma fail_stays (s : state) o : inv s -> drop_obj (st_heap s) o = Done (st_heap s) -> stays (fail s o).
Proof. intros I E. unfold fail. rewrite E. cbn. now rewrite st_eta. Qed.
Lemma deref_has (s : state) j o : has s j o -> deref s (Var j) = Done o.
Proof. unfold has, deref. now intros ->. Qed.
Lemma deref_fft_has (s : state) j w e r : has s j (OFft w e r) -> deref_fft s (Var j) = Done (w, e).
Proof. unfold deref_fft. intros H. now rewrite (deref_has _ _ _ H). Qed.
Lemma deref_kzg_has (s : state) j fs a b n : has s j (OKzg fs a b n) -> deref_kzg s (Var j) = Done fs.
Proof. unfold deref_kzg. intros H. now rewrite (deref_has _ _ _ H). Qed.

Section Lib.
Variable L : clib V.
Hypothesis GL : good_lib L.

Lemma poly_stays s n : inv s -> stays (step L s (PolyNew n)).
Proof.
  intros I. destruct GL as (G1 & G2 & _). cbn [step]. destruct (cl_poly L n) eqn:E;
    try (apply fail_stays; auto; rewrite G2 by congruence; reflexivity).
  destruct (h_alloc (st_heap s) (BFr (cl_poly_cells L n))) as [h p] eqn:Ea. cbn. destruct (alloc_grown _ _ _ _ Ea) as (G & C).
  apply push_inv with (h := st_heap s); [now rewrite st_eta|exact G|]. cbn [entries shape_of] in C. rewrite G1 in C. cbn [wfo].
  destruct C as [(-> & -> & _)|(C & -> & F)]; [left; auto|right]. split; auto. exists (length (st_heap s)). auto.
Qed.
Lemma fft_stays s sc : inv s -> stays (step L s (FftNew sc)).
Proof.
  intros I. destruct GL as (_ & _ & G1 & G2 & _). cbn [step]. set (z := (sc mod 2 ^ 32)%Z).
  assert (Hz : (0 <= z)%Z) by (apply Z.mod_pos_bound; lia).
  destruct (cl_fft L z) eqn:E;
    try (apply fail_stays; auto; cbn [drop_obj]; replace ((0 <? cl_fft_left L z) && (cl_fft_left L z <? 2 ^ 32))%Z with false; [reflexivity|];
         symmetry; apply andb_false_iff; destruct (G2 z) as [H|H]; [congruence|left; apply Z.ltb_ge; lia|right; apply Z.ltb_ge; lia]).
  destruct (G1 z E) as (B & L1 & L2).
  destruct (h_alloc (st_heap s) (BFr (cl_roots L z))) as [h1 e] eqn:E1. destruct (h_alloc h1 (BFr (cl_reverse L z))) as [h2 r] eqn:E2. cbn [stays].
  destruct (alloc_grown _ _ _ _ E1) as (A1 & C1). destruct (alloc_grown _ _ _ _ E2) as (A2 & C2). cbn [entries shape_of] in *. rewrite L1 in C1. rewrite L2 in C2.
  apply push_inv with (h := st_heap s); [now rewrite st_eta|cbn [owned]; eapply grown_trans; eauto|]. cbn [wfo]. right.
  destruct C1 as [(? & _)|(_ & -> & F1)]; [discriminate|]. destruct C2 as [(? & _)|(_ & -> & F2)]; [discriminate|]. split; [|split].
  - split; [apply Z.pow_pos_nonneg; lia|]. apply Z.pow_lt_mono_r; lia.
  - exists (length (st_heap s)). split; auto. rewrite <- F1. eapply grown_keep; [exact A2|]. apply shp_lt. rewrite F1. discriminate.
  - exists (length h1). auto.
Qed.
Lemma kzg_stays s g1 g2 len i : inv s -> careful s (KzgNew g1 g2 len i) -> stays (step L s (KzgNew g1 g2 len i)).
Proof.
  intros I (Y1 & Y2). cbn [step]. destruct (var_cases s i) as [(o & -> & Ho)| ->]; [|exact Logic.I]. cbn [obind]. destruct o; try exact Logic.I.
  destruct (cl_kzg L width len) eqn:E; try (apply fail_stays; auto; reflexivity).
  replace ((len <=? g1) && (len <=? g2)) with true; [|symmetry; apply andb_true_iff; split; apply Nat.leb_le; lia].
  destruct (h_alloc (st_heap s) (BPts len)) as [h1 a] eqn:E1. destruct (h_alloc h1 (BPts len)) as [h2 b] eqn:E2. cbn [stays].
  destruct (alloc_grown _ _ _ _ E1) as (A1 & C1). destruct (alloc_grown _ _ _ _ E2) as (A2 & C2). cbn [entries] in *.
  apply push_inv with (h := st_heap s); [now rewrite st_eta|cbn [owned]; eapply grown_trans; eauto|]. cbn [wfo].
  destruct C1 as [(-> & -> & _)|(K & -> & F1)].
  - destruct C2 as [(_ & -> & _)|(? & _)]; [left; auto|lia].
  - destruct C2 as [(? & _)|(_ & -> & _)]; [lia|right; split; eauto].
Qed.
Lemma single_stays s i n2 : inv s -> careful s (SingleNew i n2) -> stays (step L s (SingleNew i n2)).
Proof.
  intros I Y. cbn [step]. destruct (var_cases s i) as [(o & -> & Ho)| ->]; [|exact Logic.I]. cbn [obind]. destruct o; try exact Logic.I.
  destruct (Y _ _ _ _ Ho) as (j & w & e & r & -> & Hj). rewrite (deref_fft_has _ _ _ _ _ Hj). cbn [obind].
  destruct (cl_single L w n2) eqn:E; try (apply fail_stays; auto; reflexivity).
  destruct (h_alloc (st_heap s) (BPts n2)) as [h1 a] eqn:E1. cbn [stays].
  destruct (alloc_grown _ _ _ _ E1) as (A1 & C1). cbn [entries] in *.
  apply push_inv with (h := st_heap s); [now rewrite st_eta|exact A1|]. cbn [wfo].
  destruct C1 as [(-> & -> & _)|(K & -> & F1)]; [left; auto|right; split; eauto].
Qed.
Lemma multi_stays s i n2 c : inv s -> careful s (MultiNew i n2 c) -> stays (step L s (MultiNew i n2 c)).
Proof.
  intros I Y. cbn [step]. destruct (var_cases s i) as [(o & -> & Ho)| ->]; [|exact Logic.I]. cbn [obind]. destruct o; try exact Logic.I.
  destruct (Y _ _ _ _ Ho) as (j & w & e & r & -> & Hj). rewrite (deref_fft_has _ _ _ _ _ Hj). cbn [obind].
  destruct (cl_multi L w n2 c) eqn:E; try (apply fail_stays; auto; reflexivity).
  destruct (alloc_files (st_heap s) c (2 * (n2 / 2 / c))) as [h1 l] eqn:E1. destruct (h_alloc h1 (BPtrs l)) as [h2 f] eqn:E2. cbn [stays].
  destruct (files_grown _ _ _ _ _ E1) as (A1 & C1 & X). destruct (alloc_grown _ _ _ _ E2) as (A2 & C2). cbn [entries shape_of] in *. rewrite C1 in C2.
  assert (Fl : files_of h2 f = l).
  { destruct C2 as [(Z & -> & _)|(_ & -> & F)]; cbn; [rewrite Z in C1; destruct l; [reflexivity|discriminate]|now rewrite F]. }
  apply push_inv with (h := st_heap s); [now rewrite st_eta|cbn [owned]; rewrite Fl; eapply grown_trans; eauto|]. cbn [wfo].
  destruct C2 as [(-> & -> & _)|(K & -> & F1)]; [left; auto|right; split; auto]. exists (length h1), l. auto.
Qed.
Lemma coeffs_ok (s : state) i c n : inv s -> has s i (OPoly c n) -> exists l, coeffs_of (st_heap s) c n = Done l /\ length l = n.
Proof.
  intros I H. destruct (proj2 (proj2 I) _ _ H) as [(-> & ->)|(P & F)]; [exists []; auto|]. unfold coeffs_of. destruct n as [|n]; [lia|].
  destruct (frs_block _ _ _ F) as (b & l & -> & E & Hl). exists l. unfold h_slice, h_block. rewrite E. cbn [obind]. rewrite Hl, Nat.leb_refl.
  split; [|reflexivity]. f_equal. apply firstn_all2. lia.
Qed.
Lemma poly_cases (s : state) i : inv s -> (exists c l, has s i (OPoly c (length l)) /\ poly_var s i = Done l) \/ poly_var s i = Reject.
Proof.
  intros I. unfold poly_var. destruct (var_cases s i) as [(o & -> & Ho)| ->]; [|auto]. cbn [obind]. destruct o; auto.
  destruct (coeffs_ok _ _ _ _ I Ho) as (l & -> & <-). left. eauto.
Qed.
Lemma two_cases (s : state) i j : inv s -> (exists a b, i <> j /\ poly_var s i = Done a /\ poly_var s j = Done b /\ two_polys s i j = Done (a, b)) \/ two_polys s i j = Reject.
Proof.
  intros I. unfold two_polys. destruct (Nat.eqb_spec i j); [auto|]. destruct (poly_cases s i I) as [(c & a & _ & ->)| ->]; [|auto].
  destruct (poly_cases s j I) as [(d & b & _ & ->)| ->]; [|auto]. left. exists a, b. auto.
Qed.
Lemma push_poly (s : state) l h p : inv s -> h_alloc (st_heap s) (BFr l) = (h, p) -> inv (push h (st_vars s) (OPoly p (length l))).
Proof.
  intros I Ea. destruct (alloc_grown _ _ _ _ Ea) as (G & C).
  apply push_inv with (h := st_heap s); [now rewrite st_eta|exact G|]. cbn [entries shape_of] in C. cbn [wfo].
  destruct C as [(-> & -> & _)|(C & -> & F)]; [left; auto|right]. split; auto. exists (length (st_heap s)). auto.
Qed.
Lemma unpush_inv (s : state) o : inv (push (st_heap s) (st_vars s) o) -> exists h', drop_obj (st_heap s) o = Done h' /\ inv (St h' (st_vars s)) /\
  cleared (st_heap s) h' (owned (st_heap s) o).
Proof.
  intros I. set (s1 := push (st_heap s) (st_vars s) o) in *.
  assert (H : has s1 (length (st_vars s)) o). { unfold has, s1, push. cbn. now rewrite nth_error_app2, Nat.sub_diag by lia. }
  destruct (own_live _ _ _ I H) as (No & Lo). destruct (drop_ok (st_heap s1) o (proj2 (proj2 I) _ _ H) No Lo) as (h1 & E1 & C).
  destruct (drop_inv _ _ _ I H) as (h' & E & I'). change (st_heap s1) with (st_heap s) in *. rewrite E in E1. injection E1 as <-. exists h'. split; [exact E|]. split; [|exact C].
  cbn [s1 push st_vars] in I'. rewrite set_split in I'. destruct I' as (N & J & W). unfold inv in *. cbn [st_heap st_vars] in *.
  assert (Eo : owned_all h' (st_vars s ++ [None]) = owned_all h' (st_vars s)) by (unfold owned_all; rewrite flat_map_app; cbn; apply app_nil_r).
  rewrite Eo in *. split; [exact N|]. split; [exact J|]. intros i x Hx. apply (W i). unfold has in *. cbn [st_vars] in *. rewrite nth_error_app1; auto.
  apply nth_error_Some. rewrite Hx. discriminate.
Qed.
Lemma fill_stays s n r : inv s -> (forall l, r = (KzgOk, l) -> length l = n) -> stays (fill L s n r).
Proof.
  intros I R. destruct GL as (G1 & G2 & _). unfold fill. destruct (cl_poly L n) eqn:E;
    try (unfold fail_panic, fail; cbn [drop_obj]; rewrite G2 by congruence; cbn; rewrite st_eta; exact I).
  assert (B : stays (let '(h, p) := h_alloc (st_heap s) (BFr (cl_poly_cells L n)) in fail (St h (st_vars s)) (OPoly p n))).
  { destruct (h_alloc (st_heap s) (BFr (cl_poly_cells L n))) as [h p] eqn:Ea. pose proof (push_poly _ _ _ _ I Ea) as J. rewrite G1 in J.
    destruct (unpush_inv (St h (st_vars s)) _ J) as (h' & Ed & J' & _). unfold fail. rewrite Ed. exact J'. }
  destruct r as [[] l]; try exact B. destruct (h_alloc (st_heap s) (BFr l)) as [h p] eqn:Ea. pose proof (push_poly _ _ _ _ I Ea) as J.
  rewrite (R l eq_refl) in J. exact J.
Qed.
Lemma div_stays s i j : inv s -> stays (step L s (Div i j)).
Proof.
  intros I. destruct GL as (_ & _ & _ & _ & _ & G). cbn [step]. destruct (two_cases s i j I) as [(a & b & _ & _ & _ & ->)| ->]; [|exact Logic.I]. cbn [obind].
  specialize (G a b). destruct (cl_div L a b) as [[] l]; try (apply fail_stays; auto; cbn [drop_obj]; rewrite G by discriminate; reflexivity).
  destruct (h_alloc (st_heap s) (BFr l)) as [h p] eqn:Ea. exact (push_poly _ _ _ _ I Ea).
Qed.
Lemma op_stays s op a b n : inv s -> stays (fill L s n (cl_op L op a b n)).
Proof. intros I. apply fill_stays; auto. intros l E. destruct GL as (_ & _ & _ & _ & G & _). exact (G _ _ _ _ _ E). Qed.
Ltac plain I := match type of I with inv ?s => apply push_inv with (h := st_heap s); [rewrite st_eta; exact I|apply grown_refl|] end.
Lemma step_stays s c : inv s -> careful s c -> stays (step L s c).
Proof.
  intros I Y. destruct c.
  - apply poly_stays; auto.
  - apply fft_stays; auto.
  - apply kzg_stays; auto.
  - apply single_stays; auto.
  - apply multi_stays; auto.
  - contradiction.
  - cbn. plain I. left. auto.
  - cbn. plain I. left. auto.
  - cbn. plain I. left. auto.
  - cbn. plain I. left. auto.
  - contradiction.
  - cbn [step]. destruct (var_cases s i) as [(o & -> & Ho)| ->]; [|exact Logic.I]. cbn. apply move_inv; auto.
  - cbn [step]. destruct (var_cases s i) as [(o & -> & Ho)| ->]; [|exact Logic.I]. cbn [obind]. destruct (drop_inv _ _ _ I Ho) as (h' & -> & I'). exact I'.
  - cbn [step]. destruct (var_cases s i) as [(o & -> & Ho)| ->]; [|exact Logic.I]. cbn [obind]. destruct o; try exact Logic.I.
    pose proof (Y _ _ Ho) as K. destruct (proj2 (proj2 I) _ _ Ho) as [(-> & ->)|(P & F)]; [lia|]. destruct (read_ok _ _ _ _ F K) as (v & ->). exact I.
  - cbn [step]. destruct (var_cases s i) as [(o & -> & Ho)| ->]; [|exact Logic.I]. cbn [obind]. destruct o; try exact Logic.I.
    pose proof (Y _ _ Ho) as K. destruct (proj2 (proj2 I) _ _ Ho) as [(-> & ->)|(P & F)]; [lia|]. destruct (write_ok _ _ _ _ v F K) as (h' & -> & Sh).
    cbn. apply (same_inv (st_heap s)); [exact Sh|]. rewrite st_eta. exact I.
  - cbn [step]. destruct (var_cases s i) as [(o & -> & Ho)| ->]; [|exact Logic.I]. cbn [obind]. destruct o; try exact Logic.I.
    pose proof (Y _ _ Ho) as K. destruct (proj2 (proj2 I) _ _ Ho) as [(-> & ->)|(P & F)]; [lia|]. destruct (slice_ok _ _ _ len F) as (l & ->); [auto|]. exact I.
  - cbn [step]. destruct (var_cases s i) as [(o & -> & Ho)| ->]; [|exact Logic.I]. cbn [obind]. destruct o; try exact Logic.I.
    pose proof (Y _ _ _ Ho) as K. destruct (proj2 (proj2 I) _ _ Ho) as [(-> & _)|(P & F & _)]; [lia|]. destruct (read_ok _ _ _ k F) as (v & ->); [lia|]. exact I.
  - cbn [step]. destruct (var_cases s i) as [(o & -> & Ho)| ->]; [|exact Logic.I]. cbn [obind]. destruct o; try exact Logic.I.
    pose proof (Y _ _ _ Ho) as K. destruct (proj2 (proj2 I) _ _ Ho) as [(-> & _)|(P & _ & F)]; [lia|]. destruct (read_ok _ _ _ k F) as (v & ->); [lia|]. exact I.
  - cbn [step]. destruct (var_cases s i) as [(o & -> & Ho)| ->]; [|exact Logic.I]. cbn [obind]. destruct o; try exact Logic.I.
    destruct (proj2 (proj2 I) _ _ Ho) as [(-> & -> & _)|(P & F & _)]; [exact I|]. destruct (slice_ok _ _ _ (Z.to_nat width) F) as (l & ->); [auto|]. exact I.
  - cbn [step]. destruct (var_cases s i) as [(o & -> & Ho)| ->]; [|exact Logic.I]. cbn [obind]. destruct o; try exact Logic.I.
    destruct (proj2 (proj2 I) _ _ Ho) as [(-> & _ & ->)|(P & _ & F)]; [exact I|]. destruct (slice_ok _ _ _ (Z.to_nat width) F) as (l & ->); [auto|]. exact I.
  - cbn [step]. destruct (var_cases s i) as [(o & -> & Ho)| ->]; [|exact Logic.I]. cbn [obind]. destruct o; try exact Logic.I.
    destruct (Y _ _ _ _ Ho) as (j & w & e & r & -> & Hj & W & K). rewrite (deref_fft_has _ _ _ _ _ Hj). cbn [obind].
    destruct (proj2 (proj2 I) _ _ Hj) as [(-> & _)|(P & F & _)]; [lia|]. destruct (read_ok _ _ _ k F) as (v & ->); [lia|]. exact I.
  - cbn [step]. destruct (poly_cases s i I) as [(c & l & _ & ->)| ->]; [exact I|exact Logic.I].
  - cbn [step]. destruct (poly_cases s i I) as [(c & l & _ & ->)| ->]; [|exact Logic.I]. apply op_stays; auto.
  - cbn [step]. destruct (two_cases s i j I) as [(a & b & _ & _ & _ & ->)| ->]; [|exact Logic.I]. apply op_stays; auto.
  - cbn [step]. destruct (two_cases s i j I) as [(a & b & _ & _ & _ & ->)| ->]; [|exact Logic.I]. apply op_stays; auto.
  - cbn [step]. destruct (two_cases s i j I) as [(a & b & _ & _ & _ & ->)| ->]; [|exact Logic.I]. apply op_stays; auto.
  - apply div_stays; auto.
  - cbn [step]. destruct Y as (Y1 & Y2). destruct (var_cases s i) as [(o & -> & Ho)| ->]; [|exact Logic.I]. cbn [obind]. destruct o; try exact Logic.I.
    + destruct (Y1 _ _ _ _ Ho) as (j & w & e & r & -> & Hj). rewrite (deref_fft_has _ _ _ _ _ Hj). exact I.
    + destruct (Y2 ks) as (j & fs & a & b & n & -> & Hk & (j' & w & e & r & -> & Hj)); [left; eauto|]. rewrite (deref_kzg_has _ _ _ _ _ _ Hk). cbn [obind]. rewrite (deref_fft_has _ _ _ _ _ Hj). exact I.
    + destruct (Y2 ks) as (j & fs & a & b & n & -> & Hk & (j' & w & e & r & -> & Hj)); [right; eauto|]. rewrite (deref_kzg_has _ _ _ _ _ _ Hk). cbn [obind]. rewrite (deref_fft_has _ _ _ _ _ Hj). exact I.
Qed.
Lemma run_stays p : forall s, inv s -> careful_run L s p -> match run L s p with Done (s', _) => inv s' | Fault _ => False | Reject => True end.
Proof.
  induction p as [|c p IH]; intros s I R; [exact I|]. inversion R as [|? ? ? Y K]; subst. cbn [run].
  pose proof (step_stays s c I Y) as S. destruct (step L s c) as [[s1 o]| |]; cbn [stays obind] in *; auto.
  specialize (IH s1 S (K _ _ eq_refl)). destruct (run L s1 p) as [[s2 os]| |]; cbn [obind]; auto.
Qed.
Lemma start_inv : inv (@start V).
Proof.
  unfold inv, start, shp. cbn. split; [constructor|split].
  - intros b. split; [tauto|]. destruct b; cbn; congruence.
  - intros i o H. unfold has in H. destruct i; discriminate.
Qed.
Lemma reached_inv s : reached L s -> inv s.
Proof. intros (p & os & R & E). pose proof (run_stays p _ start_inv R) as S. now rewrite E in S. Qed.
Lemma careful_safe p f : careful_run L start p -> run L start p <> Fault f.
Proof. intros R E. pose proof (run_stays p _ start_inv R) as S. now rewrite E in S. Qed.
Lemma careful_no_leak s : reached L s -> (forall i o, ~ has s i o) -> all_freed s.
Proof.
  intros R N b k E. destruct (reached_inv s R) as (_ & I & _).
  assert (J : In b (owned_all (st_heap s) (st_vars s))). { apply I. unfold shp. rewrite E. discriminate. }
  apply in_all in J as (i & o & H & _). apply (N i o H).
Qed.
End Lib.
End Proof.
