(** * Proof_Rel: two runs of the same program on related data *)
From Coq Require Import List Arith Bool ZArith NArith Lia.
From Verif Require Import Base Fld Model_ZkMsm.
Import ListNotations.

Lemma Forall2_length {A B} (R : A -> B -> Prop) l l' : Forall2 R l l' -> length l = length l'.
Proof. induction 1; cbn [length]; congruence. Qed.
Definition rrel {A B} (R : A -> B -> Prop) (x : res A) (y : res B) : Prop :=
  match x, y with
  | Ok a, Ok b => R a b
  | Err, Err | Panic, Panic | NoFuel, NoFuel => True
  | _, _ => False
  end.
Definition prel {A B C D} (R : A -> B -> Prop) (S : C -> D -> Prop) (x : A * C) (y : B * D) : Prop := R (fst x) (fst y) /\ S (snd x) (snd y).

Lemma bind_rel {A B A' B'} (R : A -> B -> Prop) (S : A' -> B' -> Prop) x y k k' :
  rrel R x y -> (forall a b, R a b -> rrel S (k a) (k' b)) -> rrel S (bind x k) (bind y k').
Proof. destruct x, y; cbn [rrel bind]; intros H K; try contradiction; auto. Qed.
Lemma unwrap_rel {A B} (R : A -> B -> Prop) x y : rrel R x y -> rrel R (unwrap x) (unwrap y).
Proof. destruct x, y; cbn [rrel unwrap]; auto. Qed.
Lemma rrel_eq {A} (x y : res A) : rrel eq x y <-> x = y.
Proof. destruct x, y; cbn [rrel]; split; intros H; try contradiction; try discriminate; auto; [now subst|now injection H]. Qed.
Lemma rrel_of {A} (x y : res A) : x = y -> rrel eq x y.
Proof. apply rrel_eq. Qed.
Lemma rrel_to {A} (x y : res A) : rrel eq x y -> x = y.
Proof. apply rrel_eq. Qed.
Lemma rrel_ok {A B} (R : A -> B -> Prop) x b : rrel R x (Ok b) -> exists a, x = Ok a /\ R a b.
Proof. destruct x; cbn [rrel]; intros H; try contradiction. eauto. Qed.
Lemma rrel_panic {A B} (R : A -> B -> Prop) x : rrel R x (Panic : res B) -> x = Panic.
Proof. destruct x; cbn [rrel]; intros H; try contradiction. reflexivity. Qed.
Lemma rrel_err {A B} (R : A -> B -> Prop) x : rrel R x (Err : res B) -> x = Err.
Proof. destruct x; cbn [rrel]; intros H; try contradiction. reflexivity. Qed.
Lemma idx_rel {A B} (R : A -> B -> Prop) l l' i : Forall2 R l l' -> rrel R (idx l i) (idx l' i).
Proof.
  intros H. revert i. induction H as [|a b l l' H _ IH]; intros i; unfold idx in *; destruct i; cbn [nth_error rrel]; auto.
Qed.
Lemma set_rel {A B} (R : A -> B -> Prop) l l' i a b : Forall2 R l l' -> R a b -> Forall2 R (set l i a) (set l' i b).
Proof. intros H HR. revert i. induction H; intros i; destruct i; cbn [set]; auto. Qed.
Lemma upd_rel {A B} (R : A -> B -> Prop) l l' i a b : Forall2 R l l' -> R a b -> rrel (Forall2 R) (upd l i a) (upd l' i b).
Proof. intros H HR. unfold upd. rewrite (Forall2_length _ _ _ H). destruct (i <? length l'); cbn [rrel]; auto using set_rel. Qed.
Lemma skipn_rel {A B} (R : A -> B -> Prop) n l l' : Forall2 R l l' -> Forall2 R (skipn n l) (skipn n l').
Proof. intros H. revert n. induction H; intros n; destruct n; cbn [skipn]; auto. Qed.
Lemma firstn_rel {A B} (R : A -> B -> Prop) n l l' : Forall2 R l l' -> Forall2 R (firstn n l) (firstn n l').
Proof. intros H. revert n. induction H; intros n; destruct n; cbn [firstn]; auto. Qed.
Lemma slice_from_rel {A B} (R : A -> B -> Prop) n l l' : Forall2 R l l' -> rrel (Forall2 R) (slice_from l n) (slice_from l' n).
Proof. intros H. unfold slice_from. rewrite (Forall2_length _ _ _ H). destruct (n <=? length l'); cbn [rrel]; auto using skipn_rel. Qed.
Lemma slice_rel {A B} (R : A -> B -> Prop) n m l l' : Forall2 R l l' -> rrel (Forall2 R) (slice l n m) (slice l' n m).
Proof. intros H. unfold slice. rewrite (Forall2_length _ _ _ H). destruct ((n <=? m) && (m <=? length l')); cbn [rrel]; auto using skipn_rel, firstn_rel. Qed.
Lemma rev_rel {A B} (R : A -> B -> Prop) l l' : Forall2 R l l' -> Forall2 R (rev l) (rev l').
Proof. induction 1; cbn [rev]; auto. apply Forall2_app; auto. Qed.
Lemma repeat_rel {A B} (R : A -> B -> Prop) a b n : R a b -> Forall2 R (repeat a n) (repeat b n).
Proof. intros H. induction n; cbn [repeat]; auto. Qed.
Lemma for_each_rel {A B S T} (RA : A -> B -> Prop) (RS : S -> T -> Prop) l l' body body' :
  Forall2 RA l l' -> (forall a b s t, RA a b -> RS s t -> rrel RS (body a s) (body' b t)) ->
  forall s t, RS s t -> rrel RS (for_each l body s) (for_each l' body' t).
Proof.
  intros H HB. induction H as [|a b l l' H _ IH]; intros s t HS; cbn [for_each]; [exact HS|].
  eapply bind_rel; [apply HB; eauto|]. exact IH.
Qed.
Lemma for_rel {S T} (RS : S -> T -> Prop) (lo : nat) body body' n :
  forall i, (forall j s t, i <= j < i + n -> RS s t -> rrel RS (body j s) (body' j t)) ->
  forall s t, RS s t -> rrel RS (for_ n i body s) (for_ n i body' t).
Proof.
  induction n as [|n IH]; intros i HB s t HS; cbn [for_]; [exact HS|].
  eapply bind_rel; [apply HB; [lia|exact HS]|]. apply IH. intros j s' t' Hj. apply HB. lia.
Qed.
Lemma for_range_rel {S T} (RS : S -> T -> Prop) body body' a b :
  (forall j s t, a <= j < b -> RS s t -> rrel RS (body j s) (body' j t)) ->
  forall s t, RS s t -> rrel RS (for_range a b body s) (for_range a b body' t).
Proof. intros HB. unfold for_range. apply for_rel; [exact a|]. intros j s t Hj. apply HB. lia. Qed.
Lemma combine_rel {A B C} (R : B -> C -> Prop) (l : list A) m m' :
  Forall2 R m m' -> Forall2 (prel eq R) (combine l m) (combine l m').
Proof. intros H. revert l. induction H as [|b c m m' HR _ IH]; intros [|a l]; cbn [combine]; auto. constructor; [split; [reflexivity|exact HR]|apply IH]. Qed.
Lemma Forall2_refl {A} (R : A -> A -> Prop) l : (forall a, R a a) -> Forall2 R l l.
Proof. intros H. induction l; auto. Qed.

(** ** the bucket method *)
Section Msm.
Context {A B Sc : Type} (R : A -> B -> Prop).
Variables (za : A) (adda : A -> A -> A) (dbla : A -> A) (zb : B) (addb : B -> B -> B) (dblb : B -> B).
Variables (is_zero is_one : Sc -> bool) (digit : Sc -> nat -> nat -> res nat).
Hypothesis Rz : R za zb.
Hypothesis Radd : forall a b a' b', R a a' -> R b b' -> R (adda a b) (addb a' b').
Hypothesis Rdbl : forall a a', R a a' -> R (dbla a) (dblb a').

Lemma msm_pair_rel c w sp sp' st st' : prel eq R sp sp' -> prel R (Forall2 R) st st' ->
  rrel (prel R (Forall2 R)) (msm_pair adda is_zero is_one digit c w sp st) (msm_pair addb is_zero is_one digit c w sp' st').
Proof.
  destruct sp as [s a], sp' as [s' a'], st as [v l], st' as [v' l']. intros [E Ra] [Rv Rl]. cbn [fst snd] in *. subst s'. unfold msm_pair.
  destruct (is_zero s); [split; assumption|]. destruct (is_one s).
  - destruct (w =? 0); split; cbn [fst snd]; auto.
  - apply (bind_rel eq); [apply rrel_eq; reflexivity|]. intros d ? <-. destruct (d =? 0); [split; assumption|].
    eapply bind_rel; [apply idx_rel; exact Rl|]. intros b b' Rb. eapply bind_rel; [apply upd_rel; [exact Rl|apply Radd; [exact Rb|exact Ra]]|].
    intros m m' Rm. split; [exact Rv|exact Rm].
Qed.
Lemma msm_window_rel c l l' w : Forall2 (prel eq R) l l' ->
  rrel R (msm_window za adda is_zero is_one digit c l w) (msm_window zb addb is_zero is_one digit c l' w).
Proof.
  intros H. unfold msm_window. eapply bind_rel.
  - apply (for_each_rel (prel eq R) (prel R (Forall2 R))); [exact H| |split; [exact Rz|apply repeat_rel; exact Rz]].
    intros. apply msm_pair_rel; assumption.
  - intros [v m] [v' m'] [Rv Rm]. cbn [fst snd] in *. eapply (bind_rel (prel R R)).
    + apply (for_each_rel R (prel R R)); [apply rev_rel; exact Rm| |split; [exact Rz|exact Rv]].
      intros a b [s t] [s' t'] Ra [Rs Rt]. cbn [fst snd] in *. split; cbn [fst snd]; auto.
    + intros st st' [_ Rs]. exact Rs.
Qed.
Theorem msm_rel points points' scalars : Forall2 R points points' ->
  rrel R (msm_variable_base za adda dbla is_zero is_one digit points scalars) (msm_variable_base zb addb dblb is_zero is_one digit points' scalars).
Proof.
  intros H. unfold msm_variable_base. set (c := if length scalars <? 32 then _ else _). clearbody c.
  eapply (bind_rel (Forall2 R)).
  - apply (for_each_rel eq (Forall2 R)); [apply Forall2_refl; reflexivity| |constructor].
    intros w ? s t <- HS. eapply bind_rel; [apply msm_window_rel, combine_rel; exact H|]. intros a b Rab. apply Forall2_app; auto.
  - intros sums sums' HS. eapply bind_rel; [apply idx_rel; exact HS|]. intros lo lo' Rlo.
    eapply bind_rel; [apply slice_from_rel; exact HS|]. intros rest rest' HR. eapply (bind_rel R).
    + apply (for_each_rel R R); [apply rev_rel; exact HR| |exact Rz].
      intros a b s t Rab Rst. apply for_range_rel; [|apply Radd; assumption]. intros j u v _ Ruv. apply Rdbl. exact Ruv.
    + intros t t' Rt. apply Radd; assumption.
Qed.
End Msm.
