(** * Proof_Conc: tasks that touch disjoint cells behave as if run one after the other *)
From Coq Require Import List Arith Bool Lia.
From Verif Require Import Base Conc.
Import ListNotations.

(** ** Sequential meaning *)
Fixpoint run {V A} (p : proc V A) (m : list V) : option (A * list V) :=
  match p with
  | Ret a => Some (a, m)
  | Crash => None
  | Rd a k => match nth_error m a with Some v => run (k v) m | None => None end
  | Wr a v k => if a <? length m then run k (set m a v) else None
  | Fork p q k => match run p m with
                  | Some (b, m1) => match run q m1 with Some (c, m2) => run (k b c) m2 | None => None end
                  | None => None
                  end
  | Own l p k => match run p l with Some (b, l') => run (k l' b) m | None => None end
  end.

(** all accesses to the shared vector stay inside [S] *)
Fixpoint within {V A} (S : nat -> bool) (p : proc V A) : Prop :=
  match p with
  | Ret _ | Crash => True
  | Rd a k => S a = true /\ forall v, within S (k v)
  | Wr a v k => S a = true /\ within S k
  | Fork p q k => within S p /\ within S q /\ forall b c, within S (k b c)
  | Own l p k => forall l b, within S (k l b)
  end.

(** forked tasks touch disjoint sets of cells *)
Fixpoint race_free {V A} (p : proc V A) : Prop :=
  match p with
  | Ret _ | Crash => True
  | Rd a k => forall v, race_free (k v)
  | Wr a v k => race_free k
  | Fork p q k =>
      (exists S T, (forall a, S a = true -> T a = false) /\ within S p /\ within T q)
      /\ race_free p /\ race_free q /\ forall b c, race_free (k b c)
  | Own l p k => race_free p /\ forall l b, race_free (k l b)
  end.

Definition agree {V} (S : nat -> bool) (m1 m2 : list V) : Prop :=
  length m1 = length m2 /\ forall a, S a = true -> nth_error m1 a = nth_error m2 a.

Lemma nth_error_set {V} (m : list V) a v b :
  a < length m -> nth_error (set m a v) b = if b =? a then Some v else nth_error m b.
Proof.
  revert a b; induction m; simpl; intros a0 b H; [lia|].
  destruct a0, b; simpl; auto. apply IHm. lia.
Qed.

Lemma agree_set {V} S (m1 m2 : list V) a v :
  agree S m1 m2 -> a < length m1 -> agree S (set m1 a v) (set m2 a v).
Proof.
  intros [L E] Ha. split; [now rewrite !set_length|]. intros b Hb.
  rewrite !nth_error_set by (rewrite <- ?L; trivial). destruct (b =? a); auto.
Qed.

Lemma agree_trans {V} S (a b c : list V) : agree S a b -> agree S b c -> agree S a c.
Proof. intros [L1 E1] [L2 E2]. split; [congruence|]. intros x Hx. rewrite E1, E2; auto. Qed.

Lemma agree_sym {V} S (a b : list V) : agree S a b -> agree S b a.
Proof. intros [L E]. split; [auto|]. intros x Hx. symmetry. auto. Qed.

(** outside [S] nothing changes *)
Definition frame {V} (S : nat -> bool) (m m' : list V) : Prop :=
  length m' = length m /\ forall a, S a = false -> nth_error m' a = nth_error m a.

Lemma frame_refl {V} S (m : list V) : frame S m m.
Proof. split; auto. Qed.
Lemma frame_trans {V} S (a b c : list V) : frame S a b -> frame S b c -> frame S a c.
Proof. intros [L1 E1] [L2 E2]. split; [congruence|]. intros x Hx. rewrite E2, E1; auto. Qed.
Lemma frame_set {V} (S : nat -> bool) (m : list V) a v : S a = true -> a < length m -> frame S m (set m a v).
Proof.
  intros Sa Ha. split; [apply set_length|]. intros b Hb. rewrite nth_error_set by trivial.
  destruct (Nat.eqb_spec b a); [congruence|trivial].
Qed.

Lemma run_frame {V A} (p : proc V A) : forall S m a m',
  within S p -> run p m = Some (a, m') -> frame S m m'.
Proof.
  induction p as [V A a|V A|V A a k IH|V A a v k IH|V A B C p IHp q IHq k IHk|V A W B l p IHp k IHk];
    intros S m x m' H E; cbn [run within] in H, E.
  - injection E as _ <-. apply frame_refl.
  - discriminate.
  - destruct H as [Ha H]. destruct (nth_error m a); [|discriminate]. eapply IH; eauto.
  - destruct H as [Ha H]. destruct (Nat.ltb_spec a (length m)) as [L|L]; [|discriminate].
    eapply frame_trans; [apply frame_set; eauto|]. eapply IH; eauto.
  - destruct H as (Hp & Hq & Hk). destruct (run p m) as [[b m1]|] eqn:E1; [|discriminate].
    destruct (run q m1) as [[c m2]|] eqn:E2; [|discriminate].
    eapply frame_trans; [eapply IHp; eauto|]. eapply frame_trans; [eapply IHq; eauto|]. eapply IHk; eauto.
  - destruct (run p l) as [[b l']|]; [|discriminate]. eapply IHk; eauto.
Qed.

Lemma run_agree {V A} (p : proc V A) : forall S m1 m2,
  within S p -> agree S m1 m2 ->
  match run p m1, run p m2 with
  | Some (a, m1'), Some (b, m2') => a = b /\ agree S m1' m2'
  | None, None => True
  | _, _ => False
  end.
Proof.
  induction p as [V A a|V A|V A a k IH|V A a v k IH|V A B C p IHp q IHq k IHk|V A W B l p IHp k IHk];
    intros S m1 m2 H G; cbn [run within] in H |- *.
  - auto.
  - auto.
  - destruct H as [Ha H]. rewrite <- (proj2 G _ Ha). destruct (nth_error m1 a); [|trivial]. apply IH; auto.
  - destruct H as [Ha H]. rewrite <- (proj1 G). destruct (Nat.ltb_spec a (length m1)); [|trivial].
    apply IH; [trivial|]. now apply agree_set.
  - destruct H as (Hp & Hq & Hk). specialize (IHp S m1 m2 Hp G).
    destruct (run p m1) as [[b n1]|], (run p m2) as [[b' n2]|]; try contradiction; [|trivial].
    destruct IHp as [<- G1]. specialize (IHq S n1 n2 Hq G1).
    destruct (run q n1) as [[c o1]|], (run q n2) as [[c' o2]|]; try contradiction; [|trivial].
    destruct IHq as [<- G2]. apply IHk; auto.
  - destruct (run p l) as [[b l']|]; [|trivial]. apply IHk; auto.
Qed.

Lemma step_within {V A} (p : proc V A) : forall S m p' m',
  within S p -> step p m p' m' -> within S p'.
Proof.
  induction p as [V A a|V A|V A a k IH|V A a v k IH|V A B C p IHp q IHq k IHk|V A W B l p IHp k IHk];
    intros S m p' m' H St; cbn [within race_free step] in H, St.
  - contradiction.
  - contradiction.
  - destruct St as [_ ->]. destruct (nth_error m a); [apply H|exact I].
  - destruct (a <? length m); destruct St as [_ ->]; [apply H|exact I].
  - destruct H as (Hp & Hq & Hk).
    destruct St as [(r & S1 & ->)|[(r & S1 & ->)|[(b & c & _ & _ & _ & ->)|(_ & _ & ->)]]]; cbn; auto.
    + split; [eapply IHp; eauto|auto].
    + split; [auto|split; [eapply IHq; eauto|auto]].
  - destruct St as [(r & l' & S1 & _ & ->)|[(b & _ & _ & ->)|(_ & _ & ->)]]; cbn; auto.
Qed.

Lemma step_frame {V A} (p : proc V A) : forall S m p' m',
  within S p -> step p m p' m' -> frame S m m'.
Proof.
  induction p as [V A a|V A|V A a k IH|V A a v k IH|V A B C p IHp q IHq k IHk|V A W B l p IHp k IHk];
    intros S m p' m' H St; cbn [within race_free step] in H, St.
  - contradiction.
  - contradiction.
  - destruct St as [-> _]. apply frame_refl.
  - destruct (Nat.ltb_spec a (length m)); destruct St as [-> _]; [|apply frame_refl].
    now apply frame_set.
  - destruct H as (Hp & Hq & Hk).
    destruct St as [(r & S1 & ->)|[(r & S1 & ->)|[(b & c & _ & _ & -> & _)|(_ & -> & _)]]];
      try apply frame_refl; [eapply IHp; eauto|eapply IHq; eauto].
  - destruct St as [(r & l' & S1 & -> & _)|[(b & _ & -> & _)|(_ & -> & _)]]; apply frame_refl.
Qed.

Lemma step_agree {V A} (p : proc V A) : forall S m p' m' n,
  within S p -> step p m p' m' -> agree S m n ->
  exists n', step p n p' n' /\ agree S m' n'.
Proof.
  induction p as [V A a|V A|V A a k IH|V A a v k IH|V A B C p IHp q IHq k IHk|V A W B l p IHp k IHk];
    intros S m p' m' n H St G; cbn [within step] in H, St |- *.
  - contradiction.
  - contradiction.
  - destruct St as [-> ->], H as [Ha _]. exists n. rewrite <- (proj2 G _ Ha). auto.
  - rewrite <- (proj1 G). destruct (Nat.ltb_spec a (length m)); destruct St as [-> ->]; eauto.
    exists (set n a v). split; [auto|]. now apply agree_set.
  - destruct H as (Hp & Hq & Hk).
    destruct St as [(r & S1 & ->)|[(r & S1 & ->)|[(b & c & E1 & E2 & -> & ->)|(E1 & -> & ->)]]].
    + destruct (IHp S m r m' n Hp S1 G) as (n' & S2 & G'). eauto 7.
    + destruct (IHq S m r m' n Hq S1 G) as (n' & S2 & G'). eauto 8.
    + exists n. split; [|trivial]. right. right. left. eauto 7.
    + exists n. split; [|trivial]. right. right. right. auto.
  - destruct St as [(r & l' & S1 & -> & ->)|[(b & E1 & -> & ->)|(E1 & -> & ->)]]; exists n; eauto 8.
Qed.

Lemma list_ext {V} (a b : list V) : (forall i, nth_error a i = nth_error b i) -> a = b.
Proof.
  revert b; induction a as [|x a IH]; intros [|y b] H.
  - reflexivity.
  - specialize (H 0); discriminate.
  - specialize (H 0); discriminate.
  - pose proof (H 0) as H0. cbn in H0. injection H0 as <-. f_equal. apply IH. intros i. exact (H (S i)).
Qed.

(** ** One step does not change the sequential meaning *)
Theorem step_run {V A} (p : proc V A) : forall m p' m',
  race_free p -> step p m p' m' -> race_free p' /\ run p' m' = run p m.
Proof.
  induction p as [V A a|V A|V A a k IH|V A a v k IH|V A B C p IHp q IHq k IHk|V A W B l p IHp k IHk];
    intros m p' m' H St; cbn [within race_free step] in H, St.
  - contradiction.
  - contradiction.
  - destruct St as [-> ->]. cbn. destruct (nth_error m a); [split; [apply H|reflexivity]|cbn; auto].
  - destruct (a <? length m) eqn:E; destruct St as [-> ->]; cbn [run]; rewrite E; cbn [race_free]; auto.
  - destruct H as ((S & T & D & Wp & Wq) & Rp & Rq & Rk).
    destruct St as [(r & S1 & ->)|[(r & S1 & ->)|[(b & c & -> & -> & -> & ->)|(E1 & -> & ->)]]].
    + destruct (IHp m r m' Rp S1) as [Rr Er]. cbn. rewrite Er. split; [|reflexivity].
      split; [|auto]. exists S, T. eauto using step_within.
    + cbn. split.
      { destruct (IHq m r m' Rq S1) as [Rr _]. split; [|auto]. exists S, T. eauto using step_within. }
      assert (DT : forall a, T a = true -> S a = false).
      { intros a Ta. destruct (S a) eqn:Sa; [|trivial]. rewrite (D a Sa) in Ta. discriminate. }
      pose proof (step_frame q T m r m' Wq S1) as [Lq Fq].
      assert (G : agree S m m').
      { split; [auto|]. intros a Sa. symmetry. apply Fq, D, Sa. }
      pose proof (run_agree p S m m' Wp G) as GA.
      destruct (run p m) as [[b m1]|] eqn:E1, (run p m') as [[b' m1']|] eqn:E1'; try contradiction; [|reflexivity].
      destruct GA as [<- GA].
      pose proof (run_frame p S m b m1 Wp E1) as [L1 F1].
      pose proof (run_frame p S m' b m1' Wp E1') as [L1' F1'].
      assert (GT : agree T m m1). { split; [auto|]. intros a Ta. symmetry. apply F1, DT, Ta. }
      destruct (step_agree q T m r m' m1 Wq S1 GT) as (n' & S2 & GN).
      pose proof (step_frame q T m1 r n' Wq S2) as [L2 F2].
      assert (En : n' = m1').
      { apply list_ext. intros i. destruct (T i) eqn:Ti.
        - rewrite <- (proj2 GN i Ti). symmetry. apply F1', DT, Ti.
        - rewrite (F2 i Ti). destruct (S i) eqn:Si.
          + apply GA, Si.
          + rewrite (F1 i Si), (F1' i Si). symmetry. apply Fq, Ti. }
      subst n'. destruct (IHq m1 r m1' Rq S2) as [_ Er]. rewrite Er. reflexivity.
    + cbn. auto.
    + cbn. split; [exact I|]. destruct E1 as [-> | ->]; cbn; [reflexivity|].
      destruct (run p m) as [[b m1]|]; reflexivity.
  - destruct H as [Rp Rk].
    destruct St as [(r & l' & S1 & -> & ->)|[(b & -> & -> & ->)|(-> & -> & ->)]]; cbn; auto.
    destruct (IHp l r l' Rp S1) as [Rr Er]. rewrite Er. auto.
Qed.

Lemma steps_run {V A} (p : proc V A) m p' m' :
  race_free p -> steps p m p' m' -> race_free p' /\ run p' m' = run p m.
Proof.
  intros R St. revert R. induction St as [|p m p1 m1 p2 m2 S1 St IH]; intros R; [auto|].
  destruct (step_run p m p1 m1 R S1) as [R1 E1]. destruct (IH R1) as [R2 E2]. split; [auto|congruence].
Qed.

(** ** Termination and progress *)
Inductive sn {V A} (p : proc V A) : Prop :=
  sn_intro : (forall m p' m', step p m p' m' -> sn p') -> sn p.

Lemma all_sn {V A} (p : proc V A) : sn p.
Proof.
  induction p as [V A a|V A|V A a k IH|V A a v k IH|V A B C p IHp q IHq k IHk|V A W B l p IHp k IHk].
  - constructor. cbn. contradiction.
  - constructor. cbn. contradiction.
  - constructor. cbn [step]. intros m p' m' [_ ->]. destruct (nth_error m a); [apply IH|].
    constructor. cbn. contradiction.
  - constructor. cbn [step]. intros m p' m' H. destruct (a <? length m); destruct H as [_ ->]; [apply IH|].
    constructor. cbn. contradiction.
  - revert q IHq. induction IHp as [p _ IP]. intros q IHq. induction IHq as [q Hq IQ].
    constructor. cbn [step]. intros m p' m' [(r & S1 & ->)|[(r & S1 & ->)|[(b & c & _ & _ & _ & ->)|(_ & _ & ->)]]].
    + eapply IP; eauto. constructor. exact Hq.
    + eapply IQ; eauto.
    + apply IHk.
    + constructor. cbn. contradiction.
  - revert l. induction IHp as [p _ IP]. intros l.
    constructor. cbn [step]. intros m p' m' [(r & l' & S1 & _ & ->)|[(b & _ & _ & ->)|(_ & _ & ->)]].
    + eapply IP; eauto.
    + apply IHk.
    + constructor. cbn. contradiction.
Qed.

Lemma all_acc {V A} (p : proc V A) m :
  Acc (fun c' c : proc V A * list V => step (fst c) (snd c) (fst c') (snd c')) (p, m).
Proof.
  revert m. induction (all_sn p) as [p _ IH]. intros m. constructor. intros [p' m'] S1. cbn in S1.
  eapply IH, S1.
Qed.

Definition finished {V A} (p : proc V A) : bool := match p with Ret _ | Crash => true | _ => false end.

Lemma progress {V A} (p : proc V A) : forall m, finished p = false -> exists p' m', step p m p' m'.
Proof.
  induction p as [V A a|V A|V A a k IH|V A a v k IH|V A B C p IHp q IHq k IHk|V A W B l p IHp k IHk];
    intros m H; cbn [finished] in H; try discriminate; cbn [step].
  - eauto.
  - destruct (a <? length m); eauto.
  - destruct (finished p) eqn:Fp.
    + destruct (finished q) eqn:Fq.
      * destruct p; try discriminate; [|do 2 eexists; right; right; right; eauto].
        destruct q; try discriminate; [|do 2 eexists; right; right; right; eauto].
        do 2 eexists. right. right. left. eauto 7.
      * destruct (IHq m eq_refl) as (r & m' & S1). do 2 eexists. right. left. eauto.
    + destruct (IHp m eq_refl) as (r & m' & S1). do 2 eexists. left. eauto.
  - destruct (finished p) eqn:Fp.
    + destruct p; try discriminate; do 2 eexists; [right; left; eauto|right; right; eauto].
    + destruct (IHp l eq_refl) as (r & l' & S1). do 2 eexists. left. eauto 6.
Qed.

(** ** Main theorem: a race-free task has one result, the sequential one *)
Definition run_result {V A} (o : option (res A * list V)) : res A :=
  match o with Some (r, _) => r | None => Panic end.

Theorem race_free_deterministic {V A} (p : proc V (res A)) m :
  race_free p -> always_returns p m (run_result (run p m)).
Proof.
  intros R. split; [apply all_acc|]. intros p' m' St. destruct (steps_run p m p' m' R St) as [R' E].
  destruct (finished p') eqn:F; [|right; now apply progress]. left.
  destruct p'; try discriminate; cbn in *; now rewrite <- E.
Qed.

(** ** Composition *)
Lemma run_bindp {V A B} (p : proc V A) (f : A -> proc V B) : forall m,
  run (bindp p f) m = match run p m with Some (a, m') => run (f a) m' | None => None end.
Proof.
  induction p as [V A a|V A|V A a k IH|V A a v k IH|V A B' C p IHp q IHq k IHk|V A W B' l p IHp k IHk];
    intros m; cbn [bindp run].
  - reflexivity.
  - reflexivity.
  - destruct (nth_error m a); auto.
  - destruct (a <? length m); auto.
  - destruct (run p m) as [[b m1]|]; [|reflexivity]. destruct (run q m1) as [[c m2]|]; [|reflexivity]. apply IHk.
  - destruct (run p l) as [[b l']|]; [|reflexivity]. apply IHk.
Qed.

Lemma within_bindp {V A B} (p : proc V A) (f : A -> proc V B) S :
  within S p -> (forall a, within S (f a)) -> within S (bindp p f).
Proof.
  induction p as [V A a|V A|V A a k IH|V A a v k IH|V A B' C p IHp q IHq k IHk|V A W B' l p IHp k IHk];
    cbn; intros H Hf; intuition auto.
Qed.

Lemma race_free_bindp {V A B} (p : proc V A) (f : A -> proc V B) :
  race_free p -> (forall a, race_free (f a)) -> race_free (bindp p f).
Proof.
  induction p as [V A a|V A|V A a k IH|V A a v k IH|V A B' C p IHp q IHq k IHk|V A W B' l p IHp k IHk];
    cbn; intros H Hf; intuition auto.
Qed.

Lemma within_weaken {V A} (S T : nat -> bool) (p : proc V A) :
  (forall a, S a = true -> T a = true) -> within S p -> within T p.
Proof.
  intros H. induction p as [V A a|V A|V A a k IH|V A a v k IH|V A B' C p IHp q IHq k IHk|V A W B' l p IHp k IHk];
    cbn; intuition auto.
Qed.

(** *** A function that returns [r] and leaves the shared vector alone *)
Definition runs_as {V A} (p : proc V (res A)) (r : res A) : Prop :=
  race_free p /\ within (fun _ => false) p
  /\ forall m, run p m = match r with Panic => None | _ => Some (r, m) end.

Lemma runs_as_always {V A} (p : proc V (res A)) (r : res A) m : runs_as p r -> always_returns p m r.
Proof.
  intros (R & _ & E). pose proof (race_free_deterministic p m R) as H. rewrite E in H. now destruct r.
Qed.

Lemma runs_ret {V A} (r : res A) : r <> Panic -> @runs_as V A (Ret r) r.
Proof. intros H. split; [exact I|]. split; [exact I|]. intros m. now destruct r. Qed.

Lemma runs_lift {V A} (r : res A) : @runs_as V A (lift r) r.
Proof. destruct r; (split; [exact I|]); (split; [exact I|]); reflexivity. Qed.

Lemma runs_bind {V A B} (p : proc V (res A)) (r : res A) (f : A -> proc V (res B)) (g : A -> res B) :
  runs_as p r -> (forall a, runs_as (f a) (g a)) -> runs_as (bindr p f) (bind r g).
Proof.
  intros (R1 & W1 & E1) Hf. split; [|split].
  - apply race_free_bindp; [trivial|]. intros [a| | |]; try exact I. apply Hf.
  - apply within_bindp; [trivial|]. intros [a| | |]; try exact I. apply Hf.
  - intros m. unfold bindr. rewrite run_bindp, E1. destruct r as [a| | |]; cbn; try reflexivity. apply Hf.
Qed.

Lemma runs_forr {V T} (body : nat -> T -> proc V (res T)) (body' : nat -> T -> res T) a b s :
  (forall i s, runs_as (body i s) (body' i s)) -> runs_as (forr a b body s) (for_range a b body' s).
Proof.
  intros H. unfold forr, for_range. generalize (b - a) as n. intros n. revert a s.
  induction n as [|n IH]; intros a s; cbn [forr_ for_].
  - now apply runs_ret.
  - apply runs_bind; auto.
Qed.

Lemma runs_whiler {V T} fuel cond (body : T -> proc V (res T)) (body' : T -> res T) s :
  (forall s, runs_as (body s) (body' s)) -> runs_as (whiler fuel cond body s) (while_ fuel cond body' s).
Proof.
  intros H. revert s. induction fuel as [|n IH]; intros s; cbn [whiler while_].
  - now apply runs_ret.
  - destruct (cond s); [|now apply runs_ret]. apply runs_bind; auto.
Qed.

(** *** A closure that computes one value and leaves the shared vector alone *)
Definition runs_as_c {V A} (p : proc V A) (r : res A) : Prop :=
  race_free p /\ within (fun _ => false) p
  /\ forall m, run p m = match r with Ok a => Some (a, m) | _ => None end.

Lemma runs_liftc {V A} (r : res A) : @runs_as_c V A (liftc r) r.
Proof. destruct r; (split; [exact I|]); (split; [exact I|]); reflexivity. Qed.

Lemma runs_unwrapc {V A} (p : proc V (res A)) (r : res A) :
  runs_as p r -> runs_as_c (unwrapc p) r.
Proof.
  intros (R & W & E). split; [|split].
  - apply race_free_bindp; [trivial|]. now intros [a| | |].
  - apply within_bindp; [trivial|]. now intros [a| | |].
  - intros m. unfold unwrapc. rewrite run_bindp, E. now destruct r.
Qed.

(** joining two such closures *)
Lemma runs_fork_c {V A B C} (p : proc V A) (q : proc V B) (k : A -> B -> proc V (res C)) ra rb g :
  runs_as_c p ra -> runs_as_c q rb -> ra <> NoFuel -> rb <> NoFuel ->
  (forall a b, runs_as (k a b) (g a b)) ->
  runs_as (Fork p q k) (let* a := unwrap ra in let* b := unwrap rb in g a b).
Proof.
  intros (R1 & W1 & E1) (R2 & W2 & E2) N1 N2 Hk. split; [|split].
  - cbn. split; [|split; [trivial|split; [trivial|intros; apply Hk]]].
    exists (fun _ => false), (fun _ => false). auto.
  - cbn. split; [trivial|split; [trivial|intros; apply Hk]].
  - intros m. cbn. rewrite E1. destruct ra as [a| | |]; cbn; try contradiction; try reflexivity.
    rewrite E2. destruct rb as [b| | |]; cbn; try contradiction; try reflexivity. apply Hk.
Qed.

(** *** A closure working on the sub-slice [off, off + len) *)
Definition inside (off len a : nat) : bool := (off <=? a) && (a <? off + len).

Lemma inside_iff off len a : inside off len a = true <-> off <= a < off + len.
Proof. unfold inside. rewrite andb_true_iff, Nat.leb_le, Nat.ltb_lt. tauto. Qed.

Definition implements {V} (off len : nat) (p : proc V unit) (f : list V -> res (list V)) : Prop :=
  race_free p /\ within (inside off len) p
  /\ forall pre l post, length pre = off -> length l = len ->
       match f l with
       | Ok l' => length l' = len /\ run p (pre ++ l ++ post) = Some (tt, pre ++ l' ++ post)
       | _ => run p (pre ++ l ++ post) = None
       end.

Lemma set_app_r {V} (a b : list V) i v : set (a ++ b) (length a + i) v = a ++ set b i v.
Proof. induction a; cbn; [reflexivity|]. now f_equal. Qed.
Lemma set_app_l {V} (a b : list V) i v : i < length a -> set (a ++ b) i v = set a i v ++ b.
Proof. revert i; induction a; cbn; intros i H; [lia|]. destruct i; cbn; [reflexivity|]. f_equal. apply IHa. lia. Qed.

Section Access.
Context {V B : Type}.
Variables (pre l post : list V).

Lemma run_rd_at i (k : V -> proc V B) :
  run (bindp (rd_at (length pre) (length l) i) k) (pre ++ l ++ post) =
  match idx l i with Ok v => run (k v) (pre ++ l ++ post) | _ => None end.
Proof.
  rewrite run_bindp. unfold rd_at, idx. destruct (Nat.ltb_spec i (length l)) as [H|H].
  - cbn. rewrite nth_error_app2 by lia. rewrite nth_error_app1 by lia.
    replace (length pre + i - length pre) with i by lia.
    destruct (nth_error l i); reflexivity.
  - cbn. apply nth_error_None in H. now rewrite H.
Qed.

Lemma run_wr_at i v (k : unit -> proc V B) :
  run (bindp (wr_at (length pre) (length l) i v) k) (pre ++ l ++ post) =
  match upd l i v with Ok l' => run (k tt) (pre ++ l' ++ post) | _ => None end.
Proof.
  rewrite run_bindp. unfold wr_at, upd. destruct (Nat.ltb_spec i (length l)) as [H|H]; [|reflexivity].
  cbn [run]. rewrite !app_length. destruct (Nat.ltb_spec (length pre + i) (length pre + (length l + length post))); [|lia].
  cbn. rewrite set_app_r, set_app_l by lia. reflexivity.
Qed.

Lemma run_liftc {A} (r : res A) (k : A -> proc V B) m :
  run (bindp (liftc r) k) m = match r with Ok a => run (k a) m | _ => None end.
Proof. rewrite run_bindp. destruct r; reflexivity. Qed.
End Access.

Lemma within_rd_at {V} off len i : within (inside off len) (@rd_at V off len i).
Proof. unfold rd_at. destruct (Nat.ltb_spec i len); cbn; [|trivial]. split; [apply inside_iff; lia|auto]. Qed.
Lemma within_wr_at {V} off len i v : within (inside off len) (@wr_at V off len i v).
Proof. unfold wr_at. destruct (Nat.ltb_spec i len); cbn; [|trivial]. split; [apply inside_iff; lia|auto]. Qed.
Lemma race_free_rd_at {V} off len i : race_free (@rd_at V off len i).
Proof. unfold rd_at. destruct (i <? len); cbn; auto. Qed.
Lemma race_free_wr_at {V} off len i v : race_free (@wr_at V off len i v).
Proof. unfold wr_at. destruct (i <? len); cbn; auto. Qed.
Lemma within_liftc {V A} S (r : res A) : within S (@liftc V A r).
Proof. destruct r; exact I. Qed.
Lemma race_free_liftc {V A} (r : res A) : race_free (@liftc V A r).
Proof. destruct r; exact I. Qed.

Lemma imp_seq {V} off len (p q : proc V unit) f g :
  implements off len p f -> implements off len q g ->
  implements off len (bindp p (fun _ => q)) (fun l => bind (f l) g).
Proof.
  intros (R1 & W1 & E1) (R2 & W2 & E2). split; [|split].
  - apply race_free_bindp; auto.
  - apply within_bindp; auto.
  - intros pre l post Hp Hl. rewrite run_bindp. specialize (E1 pre l post Hp Hl).
    destruct (f l) as [l'| | |]; cbn [bind]; try (rewrite E1; reflexivity).
    destruct E1 as [L1 ->]. apply (E2 pre l' post Hp L1).
Qed.

Lemma imp_for {V} off len (body : nat -> proc V unit) (body' : nat -> list V -> res (list V)) a b :
  (forall i, implements off len (body i) (body' i)) ->
  implements off len (forc a b body) (for_range a b body').
Proof.
  intros H. unfold forc, for_range. generalize (b - a) as n. intros n. revert a.
  induction n as [|n IH]; intros a.
  - split; [exact I|]. split; [exact I|]. intros pre l post _ Hl. cbn. auto.
  - apply (imp_seq off len (body a) (forc_ n (S a) body) (body' a) (for_ n (S a) body')); auto.
Qed.

Lemma imp_ext {V} off len (p : proc V unit) f g :
  (forall l, length l = len -> f l = g l) -> implements off len p f -> implements off len p g.
Proof.
  intros H (R & W & E). split; [trivial|]. split; [trivial|]. intros pre l post Hp Hl.
  rewrite <- H by trivial. apply E; trivial.
Qed.

(** two halves, one after the other *)
Lemma imp_halves {V} off len h (p q : proc V unit) f g :
  h <= len -> implements off h p f -> implements (off + h) (len - h) q g ->
  implements off len (bindp p (fun _ => q))
    (fun l => let* lo := f (firstn h l) in let* hi := g (skipn h l) in Ok (lo ++ hi)).
Proof.
  intros Hh (R1 & W1 & E1) (R2 & W2 & E2). split; [|split].
  - apply race_free_bindp; auto.
  - apply within_bindp; [|intros _]; [revert W1|revert W2]; apply within_weaken; intros a; rewrite !inside_iff; lia.
  - intros pre l post Hp Hl. rewrite run_bindp.
    assert (L1 : length (firstn h l) = h) by (rewrite firstn_length; lia).
    assert (L2 : length (skipn h l) = len - h) by (rewrite skipn_length; lia).
    specialize (E1 pre (firstn h l) (skipn h l ++ post) Hp L1).
    replace (pre ++ l ++ post) with (pre ++ firstn h l ++ skipn h l ++ post)
      by (rewrite (app_assoc (firstn h l)), firstn_skipn; reflexivity).
    destruct (f (firstn h l)) as [lo| | |]; cbn [bind]; try (rewrite E1; reflexivity).
    destruct E1 as [Llo ->]. specialize (E2 (pre ++ lo) (skipn h l) post).
    rewrite app_length in E2. specialize (E2 ltac:(lia) L2). rewrite <- app_assoc in E2.
    destruct (g (skipn h l)) as [hi| | |]; cbn [bind]; try exact E2.
    destruct E2 as [Lhi ->]. split; [rewrite app_length; lia|]. now rewrite <- !app_assoc.
Qed.

Lemma run_join {V} (p q : proc V unit) m : run (join p q) m = run (bindp p (fun _ => q)) m.
Proof.
  rewrite run_bindp. cbn. destruct (run p m) as [[[] m1]|]; [|reflexivity].
  destruct (run q m1) as [[[] m2]|]; reflexivity.
Qed.

(** two halves at the same time *)
Lemma imp_join {V} off len h (p q : proc V unit) f g :
  h <= len -> implements off h p f -> implements (off + h) (len - h) q g ->
  implements off len (join p q)
    (fun l => let* lo := f (firstn h l) in let* hi := g (skipn h l) in Ok (lo ++ hi)).
Proof.
  intros Hh Hp Hq. destruct (imp_halves off len h p q f g Hh Hp Hq) as (R & W & E).
  destruct Hp as (R1 & W1 & E1), Hq as (R2 & W2 & E2). split; [|split].
  - cbn. split; [|auto]. exists (inside off h), (inside (off + h) (len - h)). split; [|auto].
    intros a Ha. destruct (inside (off + h) (len - h) a) eqn:Hb; [|trivial].
    apply inside_iff in Ha. apply inside_iff in Hb. lia.
  - cbn. split; [|split; [|auto]]; [revert W1|revert W2]; apply within_weaken; intros a; rewrite !inside_iff; lia.
  - intros pre l post Hpre Hl. rewrite run_join. apply E; trivial.
Qed.

(** the same when the closures are handed to [rayon::join] in the other order *)
Lemma imp_join_swap {V} off len h (p q : proc V unit) f g :
  h <= len -> implements off h p f -> implements (off + h) (len - h) q g ->
  implements off len (join q p)
    (fun l => let* lo := f (firstn h l) in let* hi := g (skipn h l) in Ok (lo ++ hi)).
Proof.
  intros Hh Hp Hq.
  destruct Hp as (R1 & W1 & E1), Hq as (R2 & W2 & E2). split; [|split].
  - cbn. split; [|auto]. exists (inside (off + h) (len - h)), (inside off h). split; [|auto].
    intros a Ha. destruct (inside off h a) eqn:Hb; [|trivial].
    apply inside_iff in Ha. apply inside_iff in Hb. lia.
  - cbn. split; [|split; [|auto]]; [revert W2|revert W1]; apply within_weaken; intros a; rewrite !inside_iff; lia.
  - intros pre l post Hpre Hl. rewrite run_join, run_bindp.
    assert (L1 : length (firstn h l) = h) by (rewrite firstn_length; lia).
    assert (L2 : length (skipn h l) = len - h) by (rewrite skipn_length; lia).
    replace (pre ++ l ++ post) with ((pre ++ firstn h l) ++ skipn h l ++ post)
      by (rewrite <- app_assoc, (app_assoc (firstn h l)), firstn_skipn; reflexivity).
    specialize (E2 (pre ++ firstn h l) (skipn h l) post).
    rewrite app_length in E2. specialize (E2 ltac:(lia) L2).
    destruct (g (skipn h l)) as [hi| | |]; cbn [bind].
    + destruct E2 as [Lhi ->]. rewrite <- app_assoc.
      specialize (E1 pre (firstn h l) (hi ++ post) Hpre L1).
      destruct (f (firstn h l)) as [lo| | |]; cbn [bind]; try exact E1.
      destruct E1 as [Llo ->]. split; [rewrite app_length; lia|]. now rewrite <- !app_assoc.
    + rewrite E2. destruct (f (firstn h l)); reflexivity.
    + rewrite E2. destruct (f (firstn h l)); reflexivity.
    + rewrite E2. destruct (f (firstn h l)); reflexivity.
Qed.
