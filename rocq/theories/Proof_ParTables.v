(** * Proof_ParTables: recovery in the parallel builds of zkcrypto, Arkworks and mcl; the
    tables of scale factors *)
From Coq Require Import List Arith Bool Lia NArith.
From Verif Require Import Base Fld Model_Utils Proof_Utils Model_FFT Model_Das Model_Poly Model_ZeroPoly Model_Recovery Conc Model_Par
  Model_Zk Model_ZkZero Model_Ark Model_ArkZero Model_Mcl Model_MclPoly Model_MclZero
  Proof_Conc Proof_Zero1 Proof_Zero2 Proof_Par Proof_Par2 Proof_Zk Proof_Ark Proof_ArkFK20 Proof_Mcl Proof_MclZero
  Model_ParBackends Proof_ParBackends Spec_ParTables.
Import ListNotations.
Local Open Scope nat_scope.

(** ** Tasks that keep an invariant of the shared memory *)
Section Behaves.
Context {V : Type}.
Variable I : list V -> Prop.

Definition behaves {A} (p : proc V (res A)) (r : res A) : Prop :=
  forall m, I m -> match r with
                   | Panic => run p m = None
                   | _ => exists m', run p m = Some (r, m') /\ I m'
                   end.
Definition behaves_c {A} (p : proc V A) (r : res A) : Prop :=
  forall m, I m -> match r with
                   | Ok a => exists m', run p m = Some (a, m') /\ I m'
                   | _ => run p m = None
                   end.

Lemma b_runs {A} (p : proc V (res A)) r : runs_as p r -> behaves p r.
Proof. intros (_ & _ & E) m Hm. rewrite E. destruct r; eauto. Qed.
Lemma b_runs_c {A} (p : proc V A) r : runs_as_c p r -> behaves_c p r.
Proof. intros (_ & _ & E) m Hm. rewrite E. destruct r; eauto. Qed.

Lemma b_bind {A B} (p : proc V (res A)) r (f : A -> proc V (res B)) g :
  behaves p r -> (forall a, r = Ok a -> behaves (f a) (g a)) -> behaves (bindr p f) (bind r g).
Proof.
  intros Hp Hf m Hm. specialize (Hp m Hm). unfold bindr. destruct r as [a| | |]; cbn [bind].
  - destruct Hp as (m' & E & Hm'). specialize (Hf a eq_refl m' Hm').
    destruct (g a); rewrite run_bindp, E; exact Hf.
  - destruct Hp as (m' & E & Hm'). exists m'. rewrite run_bindp, E. auto.
  - rewrite run_bindp, Hp. reflexivity.
  - destruct Hp as (m' & E & Hm'). exists m'. rewrite run_bindp, E. auto.
Qed.
Lemma b_lift {A B} (r : res A) (f : A -> proc V (res B)) g :
  (forall a, r = Ok a -> behaves (f a) (g a)) -> behaves (bindr (lift r) f) (bind r g).
Proof. apply b_bind, b_runs, runs_lift. Qed.

Lemma b_bind_c {A B} (p : proc V A) r (f : A -> proc V (res B)) g :
  behaves_c p r -> r <> NoFuel -> (forall a, r = Ok a -> behaves (f a) (g a)) ->
  behaves (bindp p f) (let* a := unwrap r in g a).
Proof.
  intros Hp N Hf m Hm. specialize (Hp m Hm). destruct r as [a| | |]; cbn [unwrap bind].
  - destruct Hp as (m' & E & Hm'). specialize (Hf a eq_refl m' Hm').
    destruct (g a); rewrite run_bindp, E; exact Hf.
  - now rewrite run_bindp, Hp.
  - now rewrite run_bindp, Hp.
  - contradiction.
Qed.
Lemma b_fork {A B C} (p : proc V A) (q : proc V B) (k : A -> B -> proc V (res C)) r :
  behaves (bindp p (fun a => bindp q (fun b => k a b))) r -> behaves (Fork p q k) r.
Proof.
  intros H m Hm. specialize (H m Hm). rewrite !run_bindp in H. cbn [run].
  destruct (run p m) as [[a m1]|]; [|exact H]. rewrite run_bindp in H.
  destruct (run q m1) as [[b m2]|]; exact H.
Qed.
Lemma b_ret {A} (r : res A) : r <> Panic -> behaves (Ret r) r.
Proof. intros H. apply b_runs. now apply runs_ret. Qed.

Lemma behaves_returns {A} (p : proc V (res A)) r m : race_free p -> behaves p r -> I m ->
  always_returns p m r /\ (forall x m', steps p m (Ret x) m' -> I m').
Proof.
  intros R H Hm. pose proof (race_free_deterministic p m R) as D. specialize (H m Hm). split.
  - destruct r; try (destruct H as (m' & E & _)); try rewrite E in D; try rewrite H in D; exact D.
  - intros x m' St. destruct (steps_run p m _ _ R St) as [_ E]. cbn [run] in E.
    destruct r; try (destruct H as (m2 & E2 & Hm2); rewrite E2 in E; injection E as _ <-; exact Hm2).
    rewrite H in E. discriminate.
Qed.
End Behaves.

Lemma rf_fork_c {V A B C} (p : proc V A) (q : proc V B) (k : A -> B -> proc V C) ra rb :
  runs_as_c p ra -> runs_as_c q rb -> (forall a b, race_free (k a b)) -> race_free (Fork p q k).
Proof.
  intros (R1 & W1 & _) (R2 & W2 & _) H. cbn. split; [|auto]. exists (fun _ => false), (fun _ => false). auto.
Qed.
Lemma rf_bindr {V A B} (p : proc V (res A)) (f : A -> proc V (res B)) :
  race_free p -> (forall a, race_free (f a)) -> race_free (bindr p f).
Proof. intros H1 H2. apply race_free_bindp; [trivial|]. intros [a| | |]; try exact I. apply H2. Qed.
Lemma rf_lift {V A B} (r : res A) (f : A -> proc V (res B)) :
  (forall a, r = Ok a -> race_free (f a)) -> race_free (bindr (lift r) f).
Proof. intros H. destruct r; try exact I. cbn. now apply H. Qed.
Lemma rf_liftc {V A B} (r : res A) (f : A -> proc V B) :
  (forall a, r = Ok a -> race_free (f a)) -> race_free (bindp (liftc r) f).
Proof. intros H. destruct r; try exact I. cbn. now apply H. Qed.
Lemma rf_runs_c {V A} (p : proc V A) r : runs_as_c p r -> race_free p.
Proof. intros H. apply H. Qed.
Lemma rf_for {V} n (body : nat -> proc V unit) : (forall i, race_free (body i)) -> forall a, race_free (forc_ n a body).
Proof. intros H. induction n as [|n IH]; intros a; cbn [forc_]; [exact I|]. apply race_free_bindp; auto. Qed.
Lemma within_for {V} S n (body : nat -> proc V unit) : (forall i, within S (body i)) -> forall a, within S (forc_ n a body).
Proof. intros H. induction n as [|n IH]; intros a; cbn [forc_]; [exact I|]. apply within_bindp; auto. Qed.

Lemma set_set {V} (m : list V) a x y : set (set m a x) a y = set m a y.
Proof. revert a. induction m as [|v m IH]; intros [|a]; cbn; [reflexivity..|]. now rewrite IH. Qed.
Lemma set_same {V} (m : list V) a x : nth_error m a = Some x -> set m a x = m.
Proof. revert a. induction m as [|v m IH]; intros [|a] H; cbn in *; try discriminate; [congruence|]. now rewrite IH. Qed.
Lemma nth_set_eq {V} (m : list V) a x y : nth_error m a = Some y -> nth_error (set m a x) a = Some x.
Proof. intros H. rewrite nth_error_set; [now rewrite Nat.eqb_refl|]. apply nth_error_Some. congruence. Qed.
Lemma nth_set_ne {V} (m : list V) a b x : a <> b -> nth_error (set m a x) b = nth_error m b.
Proof.
  revert a b. induction m as [|v m IH]; intros [|a] [|b] H; cbn; try reflexivity; try congruence. apply IH. lia.
Qed.
Lemma set_comm {V} (m : list V) a b x y : a <> b -> set (set m a x) b y = set (set m b y) a x.
Proof. revert a b. induction m as [|v m IH]; intros [|a] [|b] H; cbn; try reflexivity; try congruence. rewrite IH by lia. reflexivity. Qed.
Lemma lt_of_nth {V} (m : list V) a x : nth_error m a = Some x -> a < length m.
Proof. intros H. apply nth_error_Some. congruence. Qed.

Lemma idx_of {V} (l : list V) i x : nth_error l i = Some x -> idx l i = Ok x.
Proof. intros H. unfold idx. now rewrite H. Qed.
Lemma upd_of {V} (l : list V) i x : i < length l -> upd l i x = Ok (set l i x).
Proof. intros H. unfold upd. now rewrite (proj2 (Nat.ltb_lt _ _) H). Qed.
Lemma usub_of a b : b <= a -> usub a b = Ok (a - b).
Proof. intros H. unfold usub. now rewrite (proj2 (Nat.leb_le _ _) H). Qed.

Section Tables.
Context {K : fld}.
Add Field TF : (fld_field K).

Lemma powers_length (x : K) n : length (powers x n) = n.
Proof. unfold powers. now rewrite map_length, seq_length. Qed.
Lemma powers_nth (x : K) n i : i < n -> nth_error (powers x n) i = Some (fpow x i).
Proof.
  intros H. unfold powers. rewrite nth_error_map, nth_error_nth' with (d := 0) by (now rewrite seq_length).
  rewrite seq_nth by trivial. reflexivity.
Qed.
Lemma powers_S (x : K) n : powers x (S n) = powers x n ++ [fpow x n].
Proof. unfold powers. rewrite seq_S, map_app. reflexivity. Qed.

Lemma run_rd {V B} a (k : V -> proc V B) m v : nth_error m a = Some v -> run (bindp (Rd a Ret) k) m = run (k v) m.
Proof. intros H. cbn. now rewrite H. Qed.
Lemma run_push {B} a (x : K) (k : unit -> proc (list K) B) m t : nth_error m a = Some t ->
  run (bindp (push a x) k) m = run (k tt) (set m a (t ++ [x])).
Proof.
  intros H. unfold push. cbn [run bindp]. rewrite H. cbn [run]. destruct (Nat.ltb_spec a (length m)) as [L|L]; [reflexivity|].
  apply lt_of_nth in H. lia.
Qed.

(** the loop of pushes, on any table that is not empty *)
Lemma run_pushes a (c : K) n : forall i m t, nth_error m a = Some t -> length t = i -> 1 <= i ->
  exists e, run (forc_ n i (fun i => let^ t := Rd a Ret in let^ j := liftc (usub i 1) in let^ x := liftc (idx t j) in push a (fmul x c))) m
    = Some (tt, set m a (t ++ e)) /\ length e = n
    /\ (forall k, t = powers c k -> t ++ e = powers c (k + n)).
Proof.
  induction n as [|n IH]; intros i m t Ht Hl Hi.
  { exists []. rewrite app_nil_r. cbn. rewrite (set_same m a t Ht). split; [reflexivity|]. split; [reflexivity|].
    intros k ->. now rewrite Nat.add_0_r. }
  destruct (nth_error t (i - 1)) as [x|] eqn:Ex; [|apply nth_error_None in Ex; lia].
  match goal with |- context [forc_ _ _ ?b] => set (body := b) in * end. cbn [forc_]. rewrite run_bindp.
  assert (E1 : run (body i) m = Some (tt, set m a (t ++ [fmul x c]))).
  { unfold body. rewrite (run_rd _ _ _ _ Ht), usub_of by trivial. cbn [liftc bindp]. rewrite (idx_of _ _ _ Ex). cbn [liftc bindp].
    pose proof (run_push a (fmul x c) (fun u => Ret u) m t Ht) as E. rewrite run_bindp in E.
    destruct (run (push a (fmul x c)) m) as [[[] m']|]; cbn in E; exact E. }
  rewrite E1.
  destruct (IH (S i) (set m a (t ++ [fmul x c])) (t ++ [fmul x c])) as (e & E & Le & Pe).
  - eapply nth_set_eq, Ht.
  - rewrite app_length. cbn. lia.
  - lia.
  - exists (fmul x c :: e). rewrite E, set_set, <- app_assoc. cbn [app length]. split; [reflexivity|]. split; [lia|].
    intros k Hk. rewrite <- app_assoc in Pe. cbn [app] in Pe. rewrite (Pe (S k)); [f_equal; lia|].
    rewrite powers_S, <- Hk. f_equal. f_equal. subst t. rewrite powers_length in Hl. subst i.
    rewrite powers_nth in Ex by lia. injection Ex as <-.
    destruct k as [|k]; [lia|]. cbn [Nat.sub]. rewrite Nat.sub_0_r. cbn [fpow]. ring.
Qed.

(** making the table long enough *)
Lemma run_extend {B} a (c : K) len (k : unit -> proc (list K) B) m t : nth_error m a = Some t ->
  exists t', run (bindp (extend_table a c len) k) m = run (k tt) (set m a t') /\ length t' = Nat.max (length t) len
    /\ (t <> [] -> exists e, t' = t ++ e) /\ (forall n, t = powers c n -> t' = powers c (Nat.max n len)).
Proof.
  intros Ht. unfold extend_table. rewrite run_bindp, (run_rd _ _ _ _ Ht).
  destruct (Nat.ltb_spec (length t) len) as [L|L].
  - rewrite (run_rd _ _ _ _ Ht).
    assert (H : exists t1, nth_error (set m a t1) a = Some t1 /\ 1 <= length t1 /\ length t1 <= len
        /\ (t <> [] -> t1 = t) /\ (forall n, t = powers c n -> t1 = powers c (Nat.max n 1))
        /\ forall B (k : unit -> proc (list K) B), run (bindp (if length t =? 0 then push a f1 else Ret tt) k) m = run (k tt) (set m a t1)).
    { destruct (Nat.eqb_spec (length t) 0) as [E|E].
      - exists [f1]. destruct t; [|discriminate]. cbn [length] in L. repeat split; cbn [length]; try lia; try congruence.
        + eapply nth_set_eq, Ht.
        + intros n Hn. apply (f_equal (@length _)) in Hn. rewrite powers_length in Hn. cbn in Hn. subst n. reflexivity.
        + intros B' k'. rewrite (run_push _ _ _ _ _ Ht). reflexivity.
      - exists t. repeat split; try lia.
        + eapply nth_set_eq, Ht.
        + intros n Hn. rewrite Hn, powers_length in E. rewrite Hn. f_equal. clear - E. lia.
        + intros B' k'. now rewrite (set_same _ _ _ Ht). }
    destruct H as (t1 & H1 & L1 & L2 & T1 & P1 & R1). rewrite R1, (run_rd _ _ _ _ H1).
    unfold forc. destruct (run_pushes a c (len - length t1) (length t1) (set m a t1) t1 H1 eq_refl L1) as (e & E & Le & Pe).
    exists (t1 ++ e). rewrite E, set_set. split; [reflexivity|]. split; [rewrite app_length; lia|]. split.
    + intros N. rewrite (T1 N). eauto.
    + intros n Hn. assert (Ln : length t = n) by (now rewrite Hn, powers_length).
      rewrite (Pe _ (P1 n Hn)). f_equal. rewrite (P1 n Hn), powers_length. lia.
  - exists t. rewrite (set_same _ _ _ Ht). split; [reflexivity|]. split; [lia|]. split.
    + exists []. now rewrite app_nil_r.
    + intros n Hn. assert (Ln : length t = n) by (now rewrite Hn, powers_length). rewrite Hn. f_equal. lia.
Qed.

(** the loop of multiplications, on any table that is long enough *)
Lemma run_applies a cell (t : list K) n : a <> cell -> forall i m p, nth_error m a = Some t -> nth_error m cell = Some p ->
  i + n <= length t -> i + n <= length p ->
  exists p', run (forc_ n i (fun i => let^ p := Rd cell Ret in let^ x := liftc (idx p i) in let^ t := Rd a Ret in
        let^ f := liftc (idx t i) in let^ p := liftc (upd p i (fmul x f)) in Wr cell p (Ret tt))) m = Some (tt, set m cell p')
    /\ length p' = length p
    /\ (forall j, nth_error p' j = match nth_error p j, nth_error t j with
                                   | Some x, Some f => Some (if (i <=? j) && (j <? i + n) then fmul x f else x)
                                   | Some x, None => Some x
                                   | None, _ => None
                                   end).
Proof.
  intros Na. induction n as [|n IH]; intros i m p Ht Hp L1 L2.
  { exists p. cbn [forc_ run]. rewrite (set_same _ _ _ Hp). split; [reflexivity|]. split; [reflexivity|].
    intros j. destruct (nth_error p j), (nth_error t j); try reflexivity.
    destruct (Nat.leb_spec i j), (Nat.ltb_spec j (i + 0)); try reflexivity; lia. }
  destruct (nth_error p i) as [x|] eqn:Ex; [|apply nth_error_None in Ex; lia].
  destruct (nth_error t i) as [f|] eqn:Ef; [|apply nth_error_None in Ef; lia].
  match goal with |- context [forc_ _ _ ?b] => set (body := b) in * end. cbn [forc_]. rewrite run_bindp.
  assert (E1 : run (body i) m = Some (tt, set m cell (set p i (fmul x f)))).
  { unfold body. rewrite (run_rd _ _ _ _ Hp), (idx_of _ _ _ Ex). cbn [liftc bindp].
    cbn [run]. rewrite Ht. rewrite (idx_of _ _ _ Ef). cbn [liftc bindp]. rewrite upd_of by lia. cbn [liftc bindp run].
    destruct (Nat.ltb_spec cell (length m)) as [_|L]; [reflexivity|apply lt_of_nth in Hp; lia]. }
  rewrite E1.
  destruct (IH (S i) (set m cell (set p i (fmul x f))) (set p i (fmul x f))) as (p' & E & Lp & Np).
  - rewrite nth_set_ne by congruence. exact Ht.
  - eapply nth_set_eq, Hp.
  - lia.
  - rewrite set_length. lia.
  - exists p'. rewrite E, set_set. rewrite set_length in Lp. split; [reflexivity|]. split; [exact Lp|].
    intros j. rewrite Np. rewrite nth_error_set by lia. destruct (Nat.eqb_spec j i) as [->|Hj].
    + rewrite Ex, Ef. destruct (Nat.leb_spec (S i) i); [lia|]. destruct (Nat.leb_spec i i); [|lia].
      destruct (Nat.ltb_spec i (i + S n)); [reflexivity|lia].
    + destruct (nth_error p j), (nth_error t j); try reflexivity. f_equal.
      destruct (Nat.leb_spec (S i) j), (Nat.leb_spec i j); try lia;
      destruct (Nat.ltb_spec j (S i + n)), (Nat.ltb_spec j (i + S n)); try lia; reflexivity.
Qed.

(** the loop of the sequential build *)
Lemma for_powers (c : K) n : forall i p, 1 <= i -> i + n <= length p ->
  exists p', for_ n i (fun i (st : list K * K) =>
      let (p, factor_power) := st in
      let factor_power := fmul factor_power c in
      let* x := idx p i in
      let* p := upd p i (fmul x factor_power) in
      Ok (p, factor_power)) (p, fpow c (i - 1)) = Ok (p', fpow c (i + n - 1)) /\ length p' = length p
   /\ (forall j, nth_error p' j = match nth_error p j with
        | Some x => Some (if (i <=? j) && (j <? i + n) then fmul x (fpow c j) else x) | None => None end).
Proof.
  induction n as [|n IH]; intros i p Hi L.
  { exists p. cbn [for_]. replace (i + 0 - 1) with (i - 1) by lia. split; [reflexivity|]. split; [reflexivity|].
    intros j. destruct (nth_error p j); [|reflexivity].
    destruct (Nat.leb_spec i j), (Nat.ltb_spec j (i + 0)); try reflexivity; lia. }
  destruct (nth_error p i) as [x|] eqn:Ex; [|apply nth_error_None in Ex; lia].
  match goal with |- context [for_ _ _ ?b] => set (body := b) in * end. cbn [for_].
  assert (Ec : fmul (fpow c (i - 1)) c = fpow c (S i - 1)).
  { destruct i as [|i]; [lia|]. cbn [Nat.sub]. rewrite Nat.sub_0_r. cbn [fpow]. ring. }
  assert (E1 : body i (p, fpow c (i - 1)) = Ok (set p i (fmul x (fpow c (S i - 1))), fpow c (S i - 1))).
  { unfold body. cbv beta iota zeta. rewrite Ec, (idx_of _ _ _ Ex). cbn [bind]. rewrite upd_of by lia. reflexivity. }
  rewrite E1. cbn [bind]. destruct (IH (S i) (set p i (fmul x (fpow c (S i - 1))))) as (p' & E & Lp & Np); [lia|rewrite set_length; lia|].
  exists p'. rewrite E. rewrite set_length in Lp. split; [replace (i + S n - 1) with (S i + n - 1) by lia; reflexivity|]. split; [exact Lp|].
  intros j. rewrite Np, nth_error_set by lia. destruct (Nat.eqb_spec j i) as [->|Hj].
  - rewrite Ex. destruct (Nat.leb_spec (S i) i); [lia|]. destruct (Nat.leb_spec i i); [|lia].
    destruct (Nat.ltb_spec i (i + S n)); [|lia]. cbn [andb]. replace (S i - 1) with i by lia. reflexivity.
  - destruct (nth_error p j); [|reflexivity]. f_equal.
    destruct (Nat.leb_spec (S i) j), (Nat.leb_spec i j); try lia;
    destruct (Nat.ltb_spec j (S i + n)), (Nat.ltb_spec j (i + S n)); try lia; reflexivity.
Qed.

Lemma zk_apply_powers_nth (c : K) p : exists p', zk_apply_powers c p = Ok p' /\ length p' = length p
  /\ forall j, nth_error p' j = match nth_error p j with Some x => Some (fmul x (fpow c j)) | None => None end.
Proof.
  unfold zk_apply_powers, for_range. destruct (length p) as [|n] eqn:L.
  { destruct p; [|discriminate]. exists []. cbn. repeat split. intros [|j]; reflexivity. }
  destruct (for_powers c (S n - 1) 1 p) as (p' & E & Lp & Np); [lia|lia|].
  change (fpow c (1 - 1)) with (@f1 K) in E. cbv zeta in E. rewrite E. cbn [bind fst]. exists p'. split; [reflexivity|]. split; [congruence|].
  intros j. rewrite Np. destruct (nth_error p j) as [x|] eqn:Ej; [|reflexivity]. f_equal.
  apply lt_of_nth in Ej. destruct (Nat.leb_spec 1 j); cbn [andb].
  - destruct (Nat.ltb_spec j (1 + (S n - 1))); [reflexivity|lia].
  - destruct j; [|lia]. cbn [fpow]. ring.
Qed.

Lemma zk_apply_powers_scaled (c : K) p : zk_apply_powers c p = Ok (scaled_by c p).
Proof.
  destruct (zk_apply_powers_nth c p) as (p' & -> & L & N). f_equal. apply list_ext. intros j. rewrite N.
  unfold scaled_by. rewrite nth_error_map. destruct (Nat.lt_ge_cases j (length p)) as [H|H].
  - rewrite (nth_error_nth' p f0) by lia. rewrite (nth_error_nth' (seq 0 (length p)) 0) by (rewrite seq_length; lia).
    rewrite seq_nth by lia. reflexivity.
  - rewrite (proj2 (nth_error_None p j)) by lia. rewrite (proj2 (nth_error_None (seq 0 (length p)) j)); [reflexivity|].
    rewrite seq_length. lia.
Qed.

(** the two loops agree when the table holds powers *)
Lemma run_table {B} a cell (c : K) p n (k : unit -> proc (list K) B) m :
  a <> cell -> nth_error m a = Some (powers c n) -> nth_error m cell = Some p ->
  run (bindp (bindp (extend_table a c (length p)) (fun _ => apply_table a cell (length p))) k) m
   = run (k tt) (set (set m a (powers c (Nat.max n (length p)))) cell (scaled_by c p)).
Proof.
  intros Na Ht Hp. rewrite run_bindp.
  destruct (run_extend a c (length p) (fun _ => apply_table a cell (length p)) m _ Ht) as (t' & -> & Lt & _ & Pt).
  rewrite (Pt n eq_refl) in *. clear Pt Lt t'. set (n' := Nat.max n (length p)). unfold apply_table, forc.
  set (m1 := set m a (powers c n')).
  assert (H1 : nth_error m1 a = Some (powers c n')) by (eapply nth_set_eq, Ht).
  assert (H2 : nth_error m1 cell = Some p) by (unfold m1; now rewrite nth_set_ne).
  destruct (length p) as [|l] eqn:L.
  { destruct p; [|discriminate]. cbn [Nat.sub forc_ run]. change (scaled_by c []) with (@nil K). now rewrite (set_same _ _ _ H2). }
  destruct (run_applies a cell (powers c n') (S l - 1) Na 1 m1 p H1 H2) as (p' & E & Lp & Np).
  - rewrite powers_length. unfold n'. lia.
  - lia.
  - rewrite E. f_equal. f_equal. destruct (zk_apply_powers_nth c p) as (q & Eq & Lq & Nq).
    rewrite zk_apply_powers_scaled in Eq. injection Eq as ->. apply list_ext. intros j. rewrite Np, Nq.
    destruct (nth_error p j) as [x|] eqn:Ej; [|reflexivity]. apply lt_of_nth in Ej.
    rewrite powers_nth by (unfold n'; lia). f_equal. destruct (Nat.leb_spec 1 j); cbn [andb].
    + destruct (Nat.ltb_spec j (1 + (S l - 1))); [reflexivity|lia].
    + destruct j; [|lia]. cbn [fpow]. ring.
Qed.

(** *** [scale_poly] and [unscale_poly] *)
Lemma rf_extend a (c : K) len : race_free (extend_table a c len).
Proof.
  unfold extend_table. cbn [race_free bindp]. intros t. destruct (_ <? _); [|exact I]. cbn [race_free bindp]. intros t1.
  apply race_free_bindp; [destruct (_ =? 0); unfold push; cbn [race_free]; auto|]. intros _. cbn [race_free bindp]. intros t2. apply rf_for.
  intros i. cbn [race_free bindp]. intros t3. apply rf_liftc. intros j _. apply rf_liftc. intros x _. unfold push. cbn [race_free]. auto.
Qed.
Lemma rf_apply a cell len : race_free (@apply_table K a cell len).
Proof.
  unfold apply_table. apply rf_for. intros i. cbn [race_free bindp]. intros p. apply rf_liftc. intros x _. cbn [race_free bindp]. intros t.
  apply rf_liftc. intros f _. apply rf_liftc. intros q _. exact I.
Qed.
Lemma rf_scale cell (p : list K) : race_free (scale_par cell p).
Proof.
  unfold scale_par. apply rf_liftc. intros inv _. apply rf_liftc. intros l _. apply rf_liftc. intros o _. cbn [race_free].
  apply race_free_bindp; [|cbn; auto]. destruct (o <=? 1024).
  - apply race_free_bindp; [apply rf_extend|intros _; apply rf_apply].
  - apply rf_liftc. intros q _. exact I.
Qed.
Lemma rf_unscale cell (p : list K) : race_free (unscale_par cell p).
Proof.
  unfold unscale_par. cbn [race_free]. apply race_free_bindp; [apply rf_extend|]. intros _.
  apply race_free_bindp; [apply rf_apply|]. cbn. auto.
Qed.

Lemma within_liftc_bind {V A B} S (r : res A) (f : A -> proc V B) :
  (forall a, r = Ok a -> within S (f a)) -> within S (bindp (liftc r) f).
Proof. intros H. destruct r; try exact I. cbn. now apply H. Qed.
Lemma within_extend a (c : K) len S : S a = true -> within S (extend_table a c len).
Proof.
  intros Ha. unfold extend_table. cbn [within bindp]. split; [exact Ha|]. intros t. destruct (_ <? _); [|exact I]. cbn [within bindp]. split; [exact Ha|].
  intros t1. apply within_bindp; [destruct (_ =? 0); unfold push; cbn [within]; auto|]. intros _. cbn [within bindp]. split; [exact Ha|]. intros t2.
  apply within_for. intros i. cbn [within bindp]. split; [exact Ha|]. intros t3. apply within_liftc_bind. intros j _.
  apply within_liftc_bind. intros x _. unfold push. cbn [within]. auto.
Qed.
Lemma within_apply a cell len S : S a = true -> S cell = true -> within S (@apply_table K a cell len).
Proof.
  intros Ha Hc. unfold apply_table. apply within_for. intros i. cbn [within bindp]. split; [exact Hc|]. intros p. apply within_liftc_bind.
  intros x _. cbn [within bindp]. split; [exact Ha|]. intros t. apply within_liftc_bind. intros f _. apply within_liftc_bind.
  intros q _. cbn [within bindp]. auto.
Qed.
(** a long polynomial never touches the table *)
Lemma within_scale cell (p : list K) S :
  S cell = true -> (forall o, std_next_pow2 (length p - 1) = Ok o -> o <= 1024 -> S inverse_factors = true) -> within S (scale_par cell p).
Proof.
  intros Hc Ha. unfold scale_par. apply within_liftc_bind. intros inv _. unfold usub.
  destruct (1 <=? length p); [|exact I]. cbn [liftc bindp]. apply within_liftc_bind. intros o Ho. cbn [within]. split; [exact Hc|].
  apply within_bindp; [|cbn; auto]. destruct (Nat.leb_spec o 1024) as [L|L].
  - specialize (Ha o Ho L). apply within_bindp; [apply within_extend, Ha|intros _; apply within_apply; assumption].
  - apply within_liftc_bind. intros q _. cbn. auto.
Qed.

Lemma ready_set0 c (m : list (list K)) n : tables_ready c m -> tables_ready c (set m 0 (powers (finv (fnat 5)) n)).
Proof.
  intros (L & (n0 & H0) & (n1 & H1)). split; [rewrite set_length; exact L|]. split.
  - exists n. eapply nth_set_eq, H0.
  - exists n1. rewrite nth_set_ne by lia. exact H1.
Qed.
Lemma ready_set1 c (m : list (list K)) n : tables_ready c m -> tables_ready c (set m 1 (powers (fnat 5 : K) n)).
Proof.
  intros (L & (n0 & H0) & (n1 & H1)). split; [rewrite set_length; exact L|]. split.
  - exists n0. rewrite nth_set_ne by lia. exact H0.
  - exists n. eapply nth_set_eq, H1.
Qed.
Lemma ready_set c m cell (p : list K) : 2 <= cell -> tables_ready c m -> tables_ready c (set m cell p).
Proof.
  intros Hc (L & (n0 & H0) & (n1 & H1)). split; [rewrite set_length; exact L|]. split.
  - exists n0. rewrite nth_set_ne by lia. exact H0.
  - exists n1. rewrite nth_set_ne by lia. exact H1.
Qed.

Lemma b_scale c cell (p : list K) o : 2 <= cell -> cell <= c + 1 -> p <> [] ->
  std_next_pow2 (length p - 1) = Ok o -> behaves_c (tables_ready c) (scale_par cell p) (zk_scale_poly p).
Proof.
  intros H2 Hc Np Ho m Hm. unfold scale_par, zk_scale_poly.
  destruct (zkf_inverse (fnat 5)) as [inv| | |] eqn:Ei; cbn [bind liftc bindp]; try reflexivity.
  unfold zkf_inverse in Ei. destruct (feqb _ _); [discriminate|]. injection Ei as <-.
  rewrite zk_apply_powers_scaled. unfold usub.
  destruct (Nat.leb_spec 1 (length p)) as [_|L]; [|destruct p; [contradiction|cbn in L; lia]].
  cbn [liftc bindp]. rewrite Ho. cbn [liftc bindp run].
  destruct (Nat.ltb_spec cell (length m)) as [Lc|Lc]; [|destruct Hm as (L & _); lia].
  assert (Hm1 : tables_ready c (set m cell p)) by (now apply ready_set).
  assert (Hcell : nth_error (set m cell p) cell = Some p) by (rewrite nth_error_set by trivial; now rewrite Nat.eqb_refl).
  destruct (o <=? 1024).
  - destruct Hm1 as (L & (n0 & T0) & T1) eqn:EH. clear EH.
    rewrite (run_table inverse_factors cell (finv (fnat 5)) p n0); [|unfold inverse_factors; lia|exact T0|exact Hcell].
    set (m2 := set _ cell _). exists m2. cbn [run].
    assert (E : nth_error m2 cell = Some (scaled_by (finv (fnat 5)) p)).
    { unfold m2. rewrite nth_error_set; [now rewrite Nat.eqb_refl|]. rewrite !set_length. exact Lc. }
    rewrite E. split; [reflexivity|]. unfold m2. apply ready_set; [exact H2|]. apply ready_set0. exact (conj L (conj (ex_intro _ n0 T0) T1)).
  - cbn [liftc bindp run]. rewrite set_length. destruct (Nat.ltb_spec cell (length m)) as [_|]; [|lia].
    cbn [run]. rewrite set_set. rewrite nth_error_set by trivial. rewrite Nat.eqb_refl. cbn [run].
    eexists. split; [reflexivity|]. now apply ready_set.
Qed.

Lemma b_unscale c cell (p : list K) : 2 <= cell -> cell <= c + 1 ->
  behaves_c (tables_ready c) (unscale_par cell p) (zk_unscale_poly p).
Proof.
  intros H2 Hc m Hm. unfold unscale_par, zk_unscale_poly. rewrite zk_apply_powers_scaled. cbn [run].
  destruct (Nat.ltb_spec cell (length m)) as [Lc|Lc]; [|destruct Hm as (L & _); lia].
  assert (Hm1 : tables_ready c (set m cell p)) by (now apply ready_set).
  assert (Hcell : nth_error (set m cell p) cell = Some p) by (rewrite nth_error_set by trivial; now rewrite Nat.eqb_refl).
  assert (E : forall B (k : unit -> proc (list K) B), run (bindp (extend_table unscale_factor_powers (fnat 5) (length p)) (fun _ =>
        bindp (apply_table unscale_factor_powers cell (length p)) k)) (set m cell p)
     = run (bindp (bindp (extend_table unscale_factor_powers (fnat 5) (length p)) (fun _ => apply_table unscale_factor_powers cell (length p))) k) (set m cell p)).
  { intros B k. rewrite !run_bindp. destruct (run (extend_table _ _ _) _) as [[u m']|]; [|reflexivity]. now rewrite run_bindp. }
  rewrite E. clear E. pose proof Hm1 as (L & T0 & (n1 & T1)).
  rewrite (run_table unscale_factor_powers cell (fnat 5) p n1); [|unfold unscale_factor_powers; lia|exact T1|exact Hcell].
  set (m2 := set _ cell _). exists m2. cbn [run].
  assert (E : nth_error m2 cell = Some (scaled_by (fnat 5) p)).
  { unfold m2. rewrite nth_error_set; [now rewrite Nat.eqb_refl|]. rewrite !set_length. exact Lc. }
  rewrite E. split; [reflexivity|]. unfold m2. apply ready_set; [exact H2|]. apply ready_set1, Hm1.
Qed.

(** ** zkcrypto: recovery *)
Lemma zk_fft_length s (data : list K) inv out : zk_fft_fr s data inv = Ok out -> length out = length data.
Proof.
  unfold zk_fft_fr. destruct (_ <? _); [discriminate|]. destruct (negb _); [discriminate|]. cbv zeta. intros E.
  apply bind_inv in E as (ret & E1 & E). assert (L : length ret = length data).
  { unfold fft_fr_fast in E1. rewrite repeat_length in E1.
    destruct (imp_fft_fr_fast (S (length data)) 0 (length data) data 1 (if inv then reverse_roots s else expanded_roots s) (max_width s / length data)) as (_ & _ & H).
    specialize (H [] (repeat f0 (length data)) [] eq_refl (repeat_length _ _)). rewrite E1 in H. apply H. }
  destruct inv.
  - apply bind_inv in E as (il & _ & E). injection E as <-. rewrite app_length, map_length, firstn_length, skipn_length. lia.
  - now injection E as <-.
Qed.

(** the two local functions of [zk_recover_core_par] *)
Definition zk_rest c (s : fft_settings K) n (ev1 ev2 : list K) : proc (list K) (res (list K)) :=
  let! evr := lift (for_range 0 n (fun i l =>
      let* a := idx ev1 i in
      let* b := idx ev2 i in
      let* q := unwrap (zkf_div a b) in
      upd l i q) ev1) in
  let^ scaled := unwrapc (zk_fft_fr_par s evr true) in
  let^ poly := unscale_par c scaled in
  let^ out := unwrapc (zk_fft_fr_par s poly false) in
  Ret (Ok out).
Definition zk_seq_rest (s : fft_settings K) n (ev1 ev2 : list K) : res (list K) :=
  let* evr := for_range 0 n (fun i l =>
      let* a := idx ev1 i in
      let* b := idx ev2 i in
      let* q := unwrap (zkf_div a b) in
      upd l i q) ev1 in
  let* scaled := unwrap (zk_fft_fr s evr true) in
  let* poly := zk_unscale_poly scaled in
  unwrap (zk_fft_fr s poly false).
Definition zk_transforms c (s : fft_settings K) n o (p z : list K) : proc (list K) (res (list K)) :=
  if 1024 <? o then
    Fork (unwrapc (zk_fft_fr_par s p false)) (unwrapc (zk_fft_fr_par s z false)) (zk_rest c s n)
  else
    let^ ev1 := unwrapc (zk_fft_fr_par s p false) in
    let^ ev2 := unwrapc (zk_fft_fr_par s z false) in
    zk_rest c s n ev1 ev2.
Lemma zk_core_eq c s n (evals zp : list K) : zk_recover_core_par c s n evals zp =
  let^ pz := unwrapc (zk_fft_fr_par s evals true) in
  let! l := lift (usub (length pz) 1) in
  let! o := lift (zk_next_pow2 l) in
  if 1024 <? o then Fork (scale_par c pz) (scale_par (S c) zp) (zk_transforms c s n o)
  else let^ p := scale_par c pz in let^ z := scale_par (S c) zp in zk_transforms c s n o p z.
Proof. reflexivity. Qed.
Lemma zk_seq_core_eq s n (evals zp : list K) : zk_recover_core s n evals zp =
  let* pz := unwrap (zk_fft_fr s evals true) in
  let* p := zk_scale_poly pz in
  let* z := zk_scale_poly zp in
  let* ev1 := unwrap (zk_fft_fr s p false) in
  let* ev2 := unwrap (zk_fft_fr s z false) in
  zk_seq_rest s n ev1 ev2.
Proof. reflexivity. Qed.

Lemma rf_zk_rest c s n x y : race_free (zk_rest c s n x y).
Proof.
  apply rf_lift. intros evr _. apply race_free_bindp; [eapply rf_runs_c, runs_zk_ufft|]. intros sc.
  apply race_free_bindp; [apply rf_unscale|]. intros po. apply race_free_bindp; [eapply rf_runs_c, runs_zk_ufft|]. intros out. exact I.
Qed.
Lemma rf_zk_transforms c s n o p z : race_free (zk_transforms c s n o p z).
Proof.
  unfold zk_transforms. destruct (1024 <? o).
  - eapply rf_fork_c; [apply runs_zk_ufft|apply runs_zk_ufft|apply rf_zk_rest].
  - apply race_free_bindp; [eapply rf_runs_c, runs_zk_ufft|]. intros x.
    apply race_free_bindp; [eapply rf_runs_c, runs_zk_ufft|]. intros y. apply rf_zk_rest.
Qed.

Lemma rf_zk_core c s n evals zp : 2 <= c -> race_free (@zk_recover_core_par K c s n evals zp).
Proof.
  intros Hc. rewrite zk_core_eq. apply race_free_bindp; [eapply rf_runs_c, runs_zk_ufft|]. intros pz.
  apply rf_lift. intros l El. apply rf_lift. intros o Eo.
  destruct (Nat.ltb_spec 1024 o) as [Lo|Lo].
  - cbn [race_free]. split; [|split; [apply rf_scale|split; [apply rf_scale|apply rf_zk_transforms]]].
    exists (fun a => a =? c), (fun a => (a =? 0) || (a =? S c)). split; [|split].
    + intros a Ha. apply Nat.eqb_eq in Ha. subst a. destruct (Nat.eqb_spec c 0); [lia|]. destruct (Nat.eqb_spec c (S c)); [lia|reflexivity].
    + apply within_scale; [apply Nat.eqb_refl|]. intros o' Eo' Lo'. exfalso.
      assert (l = length pz - 1) as ->.
      { unfold usub in El. destruct (1 <=? length pz); [now injection El|discriminate]. }
      assert (L63 : (length pz - 1 <= o')%nat).
      { unfold std_next_pow2 in Eo'. cbv zeta in Eo'. destruct (64 <=? _)%N; [discriminate|]. injection Eo' as <-.
        destruct (Nat.eq_dec (length pz - 1) 0); [lia|].
        pose proof (N.log2_up_spec (N.of_nat (length pz - 1))) as S1. destruct (Nat.eq_dec (length pz - 1) 1) as [E1|E1].
        - rewrite E1. cbn. lia.
        - specialize (S1 ltac:(lia)). lia. }
      assert (Eq : std_next_pow2 (length pz - 1) = zk_next_pow2 (length pz - 1)).
      { apply std_next_pow2_eq; [|lia]. destruct (length pz - 1); [|lia]. discriminate Eo. }
      rewrite Eq, Eo in Eo'. injection Eo' as <-. lia.
    + apply within_scale; [apply orb_true_intro; right; apply Nat.eqb_refl|]. reflexivity.
  - apply race_free_bindp; [apply rf_scale|]. intros x. apply race_free_bindp; [apply rf_scale|]. intros y. apply rf_zk_transforms.
Qed.

Lemma b_unwrap {V A} (I : list V -> Prop) (p : proc V A) r : behaves_c I p r -> r <> NoFuel ->
  behaves I (bindp p (fun a => Ret (Ok a))) (unwrap r).
Proof.
  intros H N. replace (unwrap r) with (let* d := unwrap r in Ok d) by (destruct r; reflexivity).
  apply b_bind_c; [exact H|exact N|]. intros d _. now apply b_ret.
Qed.

Lemma b_zk_rest c s n x y : 2 <= c -> behaves (tables_ready c) (zk_rest c s n x y) (zk_seq_rest s n x y).
Proof.
  intros Hc. apply b_lift. intros evr _.
  apply b_bind_c; [apply b_runs_c, runs_zk_ufft|apply nf_zk_fft_fr|]. intros sc _.
  replace (zk_unscale_poly sc) with (unwrap (zk_unscale_poly sc)) by (unfold zk_unscale_poly; now rewrite zk_apply_powers_scaled).
  apply b_bind_c; [apply b_unscale; lia|unfold zk_unscale_poly; rewrite zk_apply_powers_scaled; discriminate|]. intros po _.
  apply b_unwrap; [apply b_runs_c, runs_zk_ufft|apply nf_zk_fft_fr].
Qed.
Lemma b_zk_transforms c s n o p z : 2 <= c -> behaves (tables_ready c) (zk_transforms c s n o p z)
  (let* ev1 := unwrap (zk_fft_fr s p false) in let* ev2 := unwrap (zk_fft_fr s z false) in zk_seq_rest s n ev1 ev2).
Proof.
  intros Hc. unfold zk_transforms. destruct (1024 <? o); [apply b_fork|];
    (apply b_bind_c; [apply b_runs_c, runs_zk_ufft|apply nf_zk_fft_fr|]; intros x _;
     apply b_bind_c; [apply b_runs_c, runs_zk_ufft|apply nf_zk_fft_fr|]; intros y _; now apply b_zk_rest).
Qed.
Lemma zk_scale_unwrap (p : list K) : zk_scale_poly p = unwrap (zk_scale_poly p).
Proof.
  unfold zk_scale_poly, zkf_inverse. destruct (feqb _ _); cbn [bind]; [reflexivity|]. now rewrite zk_apply_powers_scaled.
Qed.
Lemma zk_scale_nf (p : list K) : zk_scale_poly p <> NoFuel.
Proof.
  unfold zk_scale_poly, zkf_inverse. destruct (feqb _ _); cbn [bind]; [discriminate|].
  rewrite zk_apply_powers_scaled. discriminate.
Qed.

Lemma b_zk_core c s n (evals zp : list K) : 2 <= c -> length evals = n -> length zp = n -> 2 <= n -> (N.of_nat n < 2 ^ 64)%N ->
  behaves (tables_ready c) (zk_recover_core_par c s n evals zp) (zk_recover_core s n evals zp).
Proof.
  intros Hc Le Lz Hn H64. rewrite zk_core_eq, zk_seq_core_eq.
  apply b_bind_c; [apply b_runs_c, runs_zk_ufft|apply nf_zk_fft_fr|]. intros pz Epz.
  pose proof (zk_fft_length _ _ _ _ Epz) as Lp. rewrite Le in Lp.
  assert (H63 : (N.of_nat n <= 2 ^ 63)%N).
  { unfold zk_fft_fr in Epz. destruct (_ <? _); [discriminate|]. destruct (zk_is_pow2 (length evals)) eqn:E2; [|discriminate Epz].
    apply is_pow2_spec in E2. destruct E2 as [k Ek]. rewrite Le in Ek.
    rewrite Ek, N_of_pow2 in H64 |- *. apply N.pow_lt_mono_r_iff in H64; [|lia]. apply N.pow_le_mono_r; lia. }
  rewrite usub_of by lia. cbn [lift bindr bindp].
  destruct (next_pow2_spec (length pz - 1)) as (k & Ek & _ & _); [lia|lia|]. unfold zk_next_pow2. rewrite Ek. cbn [lift bindr bindp].
  assert (Es : std_next_pow2 (length pz - 1) = Ok (2 ^ k)) by (rewrite std_next_pow2_eq by lia; exact Ek).
  set (o := 2 ^ k) in *. clearbody o. clear Ek.
  assert (B : behaves (tables_ready c) (let^ p := scale_par c pz in let^ z := scale_par (S c) zp in zk_transforms c s n o p z)
    (let* p := zk_scale_poly pz in let* z := zk_scale_poly zp in
     let* ev1 := unwrap (zk_fft_fr s p false) in let* ev2 := unwrap (zk_fft_fr s z false) in zk_seq_rest s n ev1 ev2)).
  { rewrite (zk_scale_unwrap pz). apply b_bind_c; [eapply b_scale; [lia|lia| |exact Es]|apply zk_scale_nf|].
    - intros ->. cbn in Lp. lia.
    - intros x _. rewrite (zk_scale_unwrap zp). apply b_bind_c; [eapply b_scale; [lia|lia| |]|apply zk_scale_nf|].
      + intros ->. cbn in Lz. lia.
      + rewrite Lz, <- Lp. exact Es.
      + intros y _. now apply b_zk_transforms. }
  destruct (1024 <? o); [apply b_fork|]; exact B.
Qed.

Lemma missing_nil {A} (f : A -> bool) x (l : list A) : missing_positions f (x :: l) = [] -> f x = false.
Proof.
  unfold missing_positions. cbn [length seq combine filter snd]. destruct (f x); [|reflexivity]. discriminate.
Qed.

Lemma zk_zero_poly_length s n missing (ze zp : list K) : zk_zero_poly s n missing = Ok (ze, zp) -> missing <> [] ->
  length zp = n /\ 2 <= n.
Proof.
  unfold zk_zero_poly. intros E N. destruct (Nat.eqb_spec (length missing) 0) as [E0|E0]; [destruct missing; [contradiction|discriminate]|].
  destruct (Nat.leb_spec n (length missing)) as [L|L]; [discriminate|].
  destruct (_ <? _); [discriminate|]. destruct (negb _); [discriminate|]. cbv zeta in E.
  apply bind_inv in E as (np & _ & E). apply bind_inv in E as (z0 & _ & E). apply bind_inv in E as (z1 & E1 & E).
  apply bind_inv in E as (e & _ & E). injection E as _ <-. split; [|lia].
  destruct (Nat.ltb_spec (length z0) n) as [H|H].
  - unfold zk_pad in E1. cbv zeta in E1. apply bind_inv in E1 as (src & E2 & E1). apply bind_inv in E1 as (u & _ & E1).
    injection E1 as <-. unfold slice in E2. destruct (_ && _) eqn:B; [|discriminate]. injection E2 as <-.
    apply andb_prop in B as [_ B]. apply Nat.leb_le in B.
    assert (M : zk_min_u64 (length z0) n = length z0).
    { unfold zk_min_u64, min_u64. destruct (Nat.ltb_spec (length z0) n); lia. }
    rewrite M, app_length, firstn_length, skipn_length, repeat_length. cbn [skipn]. lia.
  - destruct (Nat.ltb_spec n (length z0)) as [H'|H'].
    + unfold slice in E1. destruct (_ && _); [|discriminate]. injection E1 as <-. rewrite firstn_length. cbn [skipn]. lia.
    + injection E1 as <-. lia.
Qed.

Lemma fill_length (samples : list (option K)) (ze : list K) n : forall l evals,
  for_range 0 n (fun i l =>
      let* sm := idx samples i in
      match sm with
      | None => upd l i f0
      | Some v => let* ze := idx ze i in upd l i (fmul v ze)
      end) l = Ok evals -> length evals = length l.
Proof.
  intros l evals E. eapply upd_for_length; [|exact E]. intros i x y H. apply bind_inv in H as (sm & _ & H).
  destruct sm as [v|]; [apply bind_inv in H as (z & _ & H)|]; now apply upd_length in H.
Qed.

(** with nothing missing the loop stops at the first sample *)
Lemma fill_nothing (samples : list (option K)) n l : n = length samples -> 1 <= n -> missing_positions zk_is_none samples = [] ->
  for_range 0 n (fun i l =>
      let* sm := idx samples i in
      match sm with
      | None => upd l i f0
      | Some v => let* ze := idx ([] : list K) i in upd l i (fmul v ze)
      end) l = Panic.
Proof.
  intros -> Hn Hm. unfold for_range. destruct (length samples - 0) as [|k] eqn:E; [lia|]. cbn [for_].
  destruct samples as [|x t]; [cbn in Hn; lia|]. pose proof (missing_nil _ _ _ Hm) as Hx.
  destruct x as [v|]; [|discriminate]. reflexivity.
Qed.

Lemma std_pow2_pos n : std_is_pow2 n = true -> 1 <= n.
Proof. unfold std_is_pow2. destruct (Nat.eqb_spec n 0); [discriminate|lia]. Qed.

Theorem rf_zk_recover c s (samples : list (option K)) : 2 <= c -> race_free (zk_recover_par c s samples).
Proof.
  intros Hc. unfold zk_recover_par. apply rf_lift. intros _ _.
  apply race_free_bindp; [eapply rf_runs_c, runs_unwrapc, runs_zk_zero_poly|]. intros [ze zp].
  apply rf_lift. intros _ _. apply rf_lift. intros evals _. apply rf_bindr; [now apply rf_zk_core|]. intros out.
  apply rf_lift. intros _ _. exact I.
Qed.

Theorem b_zk_recover c s (samples : list (option K)) : 2 <= c -> (N.of_nat (length samples) < 2 ^ 64)%N ->
  behaves (tables_ready c) (zk_recover_par c s samples) (zk_recover s samples).
Proof.
  intros Hc H64. unfold zk_recover_par, zk_recover. cbv zeta. apply b_lift. intros u Eu.
  assert (Hn : 1 <= length samples).
  { apply std_pow2_pos. unfold assert in Eu. destruct (std_is_pow2 (length samples)); [reflexivity|discriminate]. }
  apply b_bind_c; [apply b_runs_c, runs_unwrapc, runs_zk_zero_poly|apply nf_zk_zero_poly|]. intros [ze zp] Ez.
  apply b_lift. intros _ _. apply b_lift. intros evals Ee.
  destruct (missing_positions zk_is_none samples) as [|i0 miss] eqn:Em.
  { cbn in Ez. injection Ez as <- <-. rewrite fill_nothing in Ee by auto. discriminate. }
  destruct (zk_zero_poly_length _ _ _ _ _ Ez) as [Lz L2]; [discriminate|].
  apply fill_length in Ee. rewrite repeat_length in Ee.
  apply b_bind; [now apply b_zk_core|]. intros out _. apply b_lift. intros _ _. now apply b_ret.
Qed.

Theorem zk_recover_par_ok c s (samples : list (option K)) m :
  2 <= c -> (N.of_nat (length samples) < 2 ^ 64)%N -> tables_ready c m ->
  always_returns (zk_recover_par c s samples) m (zk_recover s samples)
  /\ (forall r m', steps (zk_recover_par c s samples) m (Ret r) m' -> tables_ready c m').
Proof.
  intros Hc H64 Hm. apply behaves_returns; [now apply rf_zk_recover|now apply b_zk_recover|exact Hm].
Qed.

Lemma fresh_ready : tables_ready 2 (@fresh_memory K).
Proof. split; [cbn; lia|]. split; exists 0; reflexivity. Qed.

Theorem zk_session_ok (calls : list (fft_settings K * list (option K))) :
  (forall s samples, In (s, samples) calls -> (N.of_nat (length samples) < 2 ^ 64)%N) ->
  always_returns (zk_session_par 2 calls) fresh_memory (zk_session calls).
Proof.
  intros H. eapply (behaves_returns (tables_ready 2)); [| |apply fresh_ready].
  - clear H. induction calls as [|[s samples] calls IH]; [exact I|]. cbn [zk_session_par].
    apply rf_bindr; [apply rf_zk_recover; lia|]. intros d. apply rf_bindr; [exact IH|]. intros ds. exact I.
  - induction calls as [|[s samples] calls IH]; [now apply b_ret|]. cbn [zk_session_par zk_session].
    apply b_bind; [apply b_zk_recover; [lia|apply (H s); now left]|]. intros d _.
    apply b_bind; [apply IH; intros s' x Hx; apply (H s' x); now right|]. intros ds _. now apply b_ret.
Qed.

(** ** Arkworks: recovery *)
Section Ark.
Variable W : K.

Definition ark_rest c (s : fft_settings K) n (ev1 ev2 : list K) : proc (list K) (res (list K)) :=
  let! evr := lift (for_range 0 n (fun i l =>
      let* a := idx ev1 i in
      let* b := idx ev2 i in
      let* q := unwrap (ark_fr_div a b) in
      upd l i q) ev1) in
  let! scaled := lift (unwrap (ark_fft_fr W s evr true)) in
  let^ poly := unscale_par c scaled in
  lift (unwrap (ark_fft_fr W s poly false)).
Definition ark_seq_rest (s : fft_settings K) n (ev1 ev2 : list K) : res (list K) :=
  let* evr := for_range 0 n (fun i l =>
      let* a := idx ev1 i in
      let* b := idx ev2 i in
      let* q := unwrap (ark_fr_div a b) in
      upd l i q) ev1 in
  let* scaled := unwrap (ark_fft_fr W s evr true) in
  let* poly := zk_unscale_poly scaled in
  unwrap (ark_fft_fr W s poly false).
Definition ark_transforms c (s : fft_settings K) n o (p z : list K) : proc (list K) (res (list K)) :=
  if 1024 <? o then
    Fork (liftc (ark_fft_fr W s p false)) (liftc (ark_fft_fr W s z false)) (ark_rest c s n)
  else
    let^ ev1 := liftc (ark_fft_fr W s p false) in
    let^ ev2 := liftc (ark_fft_fr W s z false) in
    ark_rest c s n ev1 ev2.
Lemma ark_core_eq c s n (evals zp : list K) : ark_recover_core_par W c s n evals zp =
  let! pz := lift (unwrap (ark_fft_fr W s evals true)) in
  let! l := lift (usub (length pz) 1) in
  let! o := lift (std_next_pow2 l) in
  if 1024 <? o then Fork (scale_par c pz) (scale_par (S c) zp) (ark_transforms c s n o)
  else let^ p := scale_par c pz in let^ z := scale_par (S c) zp in ark_transforms c s n o p z.
Proof. reflexivity. Qed.
Lemma ark_seq_core_eq s n (evals zp : list K) : ark_recover_core W s n evals zp =
  let* pz := unwrap (ark_fft_fr W s evals true) in
  let* p := zk_scale_poly pz in
  let* z := zk_scale_poly zp in
  let* ev1 := unwrap (ark_fft_fr W s p false) in
  let* ev2 := unwrap (ark_fft_fr W s z false) in
  ark_seq_rest s n ev1 ev2.
Proof. reflexivity. Qed.

Lemma rf_ark_rest c s n x y : race_free (ark_rest c s n x y).
Proof.
  apply rf_lift. intros evr _. apply rf_lift. intros sc _.
  apply race_free_bindp; [apply rf_unscale|]. intros po. destruct (ark_fft_fr W s po false); exact I.
Qed.
Lemma rf_ark_transforms c s n o p z : race_free (ark_transforms c s n o p z).
Proof.
  unfold ark_transforms. destruct (1024 <? o).
  - eapply rf_fork_c; [apply runs_liftc|apply runs_liftc|apply rf_ark_rest].
  - apply rf_liftc. intros x _. apply rf_liftc. intros y _. apply rf_ark_rest.
Qed.

Lemma rf_ark_core c s n evals zp : 2 <= c -> race_free (ark_recover_core_par W c s n evals zp).
Proof.
  intros Hc. rewrite ark_core_eq. apply rf_lift. intros pz _.
  apply rf_lift. intros l El. apply rf_lift. intros o Eo.
  destruct (Nat.ltb_spec 1024 o) as [Lo|Lo].
  - cbn [race_free]. split; [|split; [apply rf_scale|split; [apply rf_scale|apply rf_ark_transforms]]].
    exists (fun a => a =? c), (fun a => (a =? 0) || (a =? S c)). split; [|split].
    + intros a Ha. apply Nat.eqb_eq in Ha. subst a. destruct (Nat.eqb_spec c 0); [lia|]. destruct (Nat.eqb_spec c (S c)); [lia|reflexivity].
    + apply within_scale; [apply Nat.eqb_refl|]. intros o' Eo' Lo'. exfalso.
      assert (l = length pz - 1) as ->.
      { unfold usub in El. destruct (1 <=? length pz); [now injection El|discriminate]. }
      rewrite Eo in Eo'. injection Eo' as <-. lia.
    + apply within_scale; [apply orb_true_intro; right; apply Nat.eqb_refl|]. reflexivity.
  - apply race_free_bindp; [apply rf_scale|]. intros x. apply race_free_bindp; [apply rf_scale|]. intros y. apply rf_ark_transforms.
Qed.

Lemma b_ark_rest c s n x y : 2 <= c -> behaves (tables_ready c) (ark_rest c s n x y) (ark_seq_rest s n x y).
Proof.
  intros Hc. apply b_lift. intros evr _. apply b_lift. intros sc _.
  replace (zk_unscale_poly sc) with (unwrap (zk_unscale_poly sc)) by (unfold zk_unscale_poly; now rewrite zk_apply_powers_scaled).
  apply b_bind_c; [apply b_unscale; lia|unfold zk_unscale_poly; rewrite zk_apply_powers_scaled; discriminate|]. intros po _.
  apply b_runs, runs_lift.
Qed.
Lemma b_ark_transforms c s n o p z : 2 <= c -> behaves (tables_ready c) (ark_transforms c s n o p z)
  (let* ev1 := unwrap (ark_fft_fr W s p false) in let* ev2 := unwrap (ark_fft_fr W s z false) in ark_seq_rest s n ev1 ev2).
Proof.
  intros Hc. unfold ark_transforms. destruct (1024 <? o); [apply b_fork|];
    (apply b_bind_c; [apply b_runs_c, runs_liftc|apply nf_ark_fft_fr|]; intros x _;
     apply b_bind_c; [apply b_runs_c, runs_liftc|apply nf_ark_fft_fr|]; intros y _; now apply b_ark_rest).
Qed.

Lemma ark_fft_length s (data out : list K) inv : ark_fft_fr W s data inv = Ok out ->
  exists m, m <= 32 /\ length data = 2 ^ m /\ length out = 2 ^ m.
Proof.
  unfold ark_fft_fr. destruct (Nat.ltb_spec (max_width s) (length data)) as [L|L]; [discriminate|].
  destruct (std_is_pow2 (length data)) eqn:E2; [|discriminate]. cbn [negb]. cbv zeta. intros E.
  rewrite std_is_pow2_is in E2. apply is_pow2_spec in E2. destruct E2 as [k Ek].
  assert (Ew : (if length data <? max_width s then length data else max_width s) = 2 ^ k).
  { destruct (Nat.ltb_spec (length data) (max_width s)); lia. }
  rewrite Ew in E. unfold dom_log in E. rewrite log2_up_pow2 in E. destruct (Nat.ltb_spec 32 k) as [|Lk]; [discriminate|].
  cbn [bind] in E. exists k. split; [exact Lk|]. split; [exact Ek|].
  destruct inv.
  - apply bind_inv in E as (pd & _ & E). apply bind_inv in E as (po & _ & E). injection E as <-.
    unfold lib_ifft. cbv zeta. now rewrite map_length, seq_length.
  - injection E as <-. unfold lib_fft. cbv zeta. now rewrite map_length, seq_length.
Qed.

Lemma std_next_pow2_small n : (N.of_nat n <= 2 ^ 63)%N -> exists o, std_next_pow2 n = Ok o.
Proof.
  intros H. destruct n as [|n]; [exists 1; reflexivity|].
  destruct (next_pow2_spec (S n)) as (k & Ek & _); [lia|exact H|]. exists (2 ^ k).
  rewrite std_next_pow2_eq; [exact Ek|lia|exact H].
Qed.

Lemma b_ark_core c s n (evals zp : list K) : 2 <= c -> length evals = n -> length zp = n ->
  behaves (tables_ready c) (ark_recover_core_par W c s n evals zp) (ark_recover_core W s n evals zp).
Proof.
  intros Hc Le Lz. rewrite ark_core_eq, ark_seq_core_eq.
  apply b_lift. intros pz Epz.
  assert (H : exists m, m <= 32 /\ n = 2 ^ m /\ length pz = 2 ^ m).
  { destruct (ark_fft_fr W s evals true) as [q| | |] eqn:E; try discriminate. injection Epz as ->.
    rewrite <- Le. eapply ark_fft_length, E. }
  destruct H as (m & Hm & Hn & Lp). assert (P : 1 <= 2 ^ m) by (apply Nat.neq_0_lt_0, Nat.pow_nonzero; lia).
  rewrite usub_of by lia. cbn [lift bindr bindp].
  destruct (std_next_pow2_small (length pz - 1)) as (o & Es).
  { assert (N.of_nat (length pz) <= 2 ^ 32)%N; [|lia]. rewrite Lp, N_of_pow2. apply N.pow_le_mono_r; lia. }
  rewrite Es. cbn [lift bindr bindp].
  assert (B : behaves (tables_ready c) (let^ p := scale_par c pz in let^ z := scale_par (S c) zp in ark_transforms c s n o p z)
    (let* p := zk_scale_poly pz in let* z := zk_scale_poly zp in
     let* ev1 := unwrap (ark_fft_fr W s p false) in let* ev2 := unwrap (ark_fft_fr W s z false) in ark_seq_rest s n ev1 ev2)).
  { rewrite (zk_scale_unwrap pz). apply b_bind_c; [eapply b_scale; [lia|lia| |exact Es]|apply zk_scale_nf|].
    - intros ->. cbn in Lp. lia.
    - intros x _. rewrite (zk_scale_unwrap zp). apply b_bind_c; [eapply b_scale; [lia|lia| |]|apply zk_scale_nf|].
      + intros ->. cbn in Lz. lia.
      + rewrite Lz, Hn, <- Lp. exact Es.
      + intros y _. now apply b_ark_transforms. }
  destruct (1024 <? o); [apply b_fork|]; exact B.
Qed.

Lemma ark_zero_poly_length s n missing (ze zp : list K) : ark_zero_poly W s n missing = Ok (ze, zp) -> missing <> [] -> length zp = n.
Proof.
  unfold ark_zero_poly. intros E N. destruct (Nat.eqb_spec (length missing) 0) as [E0|E0]; [destruct missing; [contradiction|discriminate]|].
  destruct (n <=? length missing); [discriminate|].
  destruct (_ <? _); [discriminate|]. destruct (negb _); [discriminate|]. cbv zeta in E.
  apply bind_inv in E as (np & _ & E). apply bind_inv in E as (z0 & _ & E). apply bind_inv in E as (z1 & E1 & E).
  apply bind_inv in E as (e & _ & E). injection E as _ <-.
  destruct (Nat.compare_spec (length z0) n) as [H|H|H].
  - injection E1 as <-. exact H.
  - rewrite ark_pad_spec in E1. injection E1 as <-. rewrite app_length, repeat_length. lia.
  - unfold slice in E1. destruct (_ && _); [|discriminate]. injection E1 as <-. rewrite firstn_length. cbn [skipn]. lia.
Qed.

Theorem rf_ark_recover c s (samples : list (option K)) : 2 <= c -> race_free (ark_recover_par W c s samples).
Proof.
  intros Hc. unfold ark_recover_par. destruct (negb _); [exact I|]. apply rf_lift. intros [ze zp] _.
  apply rf_lift. intros _ _. apply rf_lift. intros evals _. apply rf_bindr; [now apply rf_ark_core|]. intros out.
  apply rf_lift. intros _ _. exact I.
Qed.

Theorem b_ark_recover c s (samples : list (option K)) : 2 <= c ->
  behaves (tables_ready c) (ark_recover_par W c s samples) (ark_recover W s samples).
Proof.
  intros Hc. unfold ark_recover_par, ark_recover. cbv zeta.
  destruct (std_is_pow2 (length samples)) eqn:E2; [cbn [negb]|now apply b_ret].
  pose proof (std_pow2_pos _ E2) as Hn.
  apply b_lift. intros [ze zp] Ez. apply b_lift. intros _ _. apply b_lift. intros evals Ee.
  assert (Ez' : ark_zero_poly W s (length samples) (missing_positions zk_is_none samples) = Ok (ze, zp)).
  { destruct (ark_zero_poly _ _ _ _); try discriminate. now injection Ez as ->. }
  destruct (missing_positions zk_is_none samples) as [|i0 miss] eqn:Em.
  { cbn in Ez'. injection Ez' as <- <-. rewrite fill_nothing in Ee by auto. discriminate. }
  apply ark_zero_poly_length in Ez'; [|discriminate].
  apply fill_length in Ee. rewrite repeat_length in Ee.
  apply b_bind; [now apply b_ark_core|]. intros out _. apply b_lift. intros _ _. now apply b_ret.
Qed.

Theorem ark_recover_par_ok c s (samples : list (option K)) m : 2 <= c -> tables_ready c m ->
  always_returns (ark_recover_par W c s samples) m (ark_recover W s samples)
  /\ (forall r m', steps (ark_recover_par W c s samples) m (Ret r) m' -> tables_ready c m').
Proof.
  intros Hc Hm. apply behaves_returns; [now apply rf_ark_recover|now apply b_ark_recover|exact Hm].
Qed.
End Ark.

(** ** mcl: recovery *)
Lemma mcl_fft_length s (data out : list K) inv : (N.of_nat (length data) <= 2 ^ 63)%N -> mcl_fft s data inv = Ok out ->
  exists k, length out = 2 ^ k /\ k <= 63.
Proof.
  intros H. unfold mcl_fft. destruct (_ <? _); [discriminate|]. destruct (mcl_next_pow_spec _ H) as (k & -> & L1 & L2). cbn [bind].
  rewrite Nat2N.id, usub_of by trivial. cbn [bind]. unfold mcl_inplace_fft. cbv zeta.
  assert (P : 1 <= 2 ^ k) by (apply Nat.neq_0_lt_0, Nat.pow_nonzero; lia).
  assert (L : length (data ++ repeat (f0 : K) (2 ^ k - length data)) = 2 ^ k) by (rewrite app_length, repeat_length; lia).
  destruct (Nat.eqb_spec (length (data ++ repeat (f0 : K) (2 ^ k - length data))) 0) as [E0|_]; [lia|]. intros E.
  apply bind_inv in E as (o1 & E1 & E). rewrite L in E1. rewrite !repeat_length in E1.
  match type of E1 with mcl_fft_ ?f ?vs ?o ?st ?rz ?rs _ = _ =>
    destruct (imp_mcl_fft f 0 (2 ^ k) vs o st rz rs) as (_ & _ & HI) end.
  specialize (HI [] (repeat f0 (2 ^ k)) [] eq_refl (repeat_length _ _)). rewrite E1 in HI.
  exists k. split.
  - destruct inv; injection E as <-; [rewrite map_length|]; apply HI.
  - destruct L2 as [->|L2]; [lia|]. assert (N.of_nat (2 ^ (k - 1)) < 2 ^ 63)%N by lia.
    rewrite N_of_pow2 in H0. apply N.pow_lt_mono_r_iff in H0; lia.
Qed.

Definition mcl_rest {V} tl (s : fft_settings K) (e1 e2 : list K) : proc V (res (list K)) :=
  let reconstructed := map (fun p : K * K => mcl_div_fr (fst p) (snd p)) (combine e1 e2) in
  let^ shifted := unwrapc (mcl_fft_par s reconstructed true) in
  let! poly := lift (mcl_unshift_in_place_par tl shifted) in
  let^ data := unwrapc (mcl_fft_par s poly false) in
  Ret (Ok data).
Definition mcl_seq_rest tl (s : fft_settings K) (e1 e2 : list K) : res (list K) :=
  let reconstructed := map (fun p : K * K => mcl_div_fr (fst p) (snd p)) (combine e1 e2) in
  let* shifted := unwrap (mcl_fft s reconstructed true) in
  let* poly := mcl_unshift_in_place_par tl shifted in
  unwrap (mcl_fft s poly false).
Definition mcl_transforms {V} tl (s : fft_settings K) o (p z : list K) : proc V (res (list K)) :=
  if 1024 <? o then
    Fork (unwrapc (mcl_fft_par s p false)) (unwrapc (mcl_fft_par s z false)) (mcl_rest tl s)
  else
    let^ e1 := unwrapc (mcl_fft_par s p false) in
    let^ e2 := unwrapc (mcl_fft_par s z false) in
    mcl_rest tl s e1 e2.

Lemma pure_unwrap {A} (r : res A) : pure r -> unwrap r = r.
Proof. intros [H1 H2]. destruct r; try reflexivity; contradiction. Qed.
Lemma pure_mcl_shift tl (c : K) p : pure (mcl_shift_par tl c p).
Proof. unfold mcl_shift_par, factor_table. pu. Qed.

Lemma rf_mcl_rest {V} tl s x y : race_free (@mcl_rest V tl s x y).
Proof.
  apply race_free_bindp; [eapply rf_runs_c, runs_mcl_ufft|]. intros sh. apply rf_lift. intros po _.
  apply race_free_bindp; [eapply rf_runs_c, runs_mcl_ufft|]. intros d. exact I.
Qed.
Lemma rf_mcl_transforms {V} tl s o p z : race_free (@mcl_transforms V tl s o p z).
Proof.
  unfold mcl_transforms. destruct (1024 <? o).
  - eapply rf_fork_c; [apply runs_mcl_ufft|apply runs_mcl_ufft|apply rf_mcl_rest].
  - apply race_free_bindp; [eapply rf_runs_c, runs_mcl_ufft|]. intros x.
    apply race_free_bindp; [eapply rf_runs_c, runs_mcl_ufft|]. intros y. apply rf_mcl_rest.
Qed.
Theorem rf_mcl_recover {V} tl s (samples : list (option K)) : race_free (@mcl_recover_conc K V tl s samples).
Proof.
  unfold mcl_recover_conc. apply rf_lift. intros p2 _. destruct (negb p2); [exact I|]. cbv zeta.
  apply race_free_bindp; [eapply rf_runs_c, runs_unwrapc, runs_mcl_zero_poly|]. intros [ze zp].
  apply race_free_bindp; [eapply rf_runs_c, runs_mcl_ufft|]. intros pz. apply rf_lift. intros l _. apply rf_lift. intros o _.
  match goal with |- race_free (if _ then Fork ?a ?b _ else _) =>
    change (race_free (if 1024 <? o then Fork a b (mcl_transforms tl s o)
      else let^ p := a in let^ z := b in mcl_transforms tl s o p z)) end.
  destruct (1024 <? o).
  - eapply rf_fork_c; [apply runs_liftc|apply runs_liftc|]. intros x y. apply rf_mcl_transforms.
  - apply rf_liftc. intros x _. apply rf_liftc. intros y _. apply rf_mcl_transforms.
Qed.

Lemma b_mcl_rest {V} (J : list V -> Prop) tl s x y : behaves J (mcl_rest tl s x y) (mcl_seq_rest tl s x y).
Proof.
  apply b_bind_c; [apply b_runs_c, runs_mcl_ufft|apply nf_mcl_fft|]. intros sh _. apply b_lift. intros po _.
  apply b_unwrap; [apply b_runs_c, runs_mcl_ufft|apply nf_mcl_fft].
Qed.
Lemma b_mcl_transforms {V} (J : list V -> Prop) tl s o p z : behaves J (mcl_transforms tl s o p z)
  (let* e1 := unwrap (mcl_fft s p false) in let* e2 := unwrap (mcl_fft s z false) in mcl_seq_rest tl s e1 e2).
Proof.
  unfold mcl_transforms. destruct (1024 <? o); [apply b_fork|];
    (apply b_bind_c; [apply b_runs_c, runs_mcl_ufft|apply nf_mcl_fft|]; intros x _;
     apply b_bind_c; [apply b_runs_c, runs_mcl_ufft|apply nf_mcl_fft|]; intros y _; apply b_mcl_rest).
Qed.

Theorem b_mcl_recover {V} (J : list V -> Prop) tl s (samples : list (option K)) : (N.of_nat (length samples) < 2 ^ 64)%N ->
  behaves J (mcl_recover_conc tl s samples) (mcl_recover_par tl s samples).
Proof.
  intros H64. unfold mcl_recover_conc, mcl_recover_par, mcl_recover_with. apply b_lift. intros p2 Ep.
  destruct p2; cbn [negb]; [|now apply b_ret].
  assert (H63 : (N.of_nat (length samples) <= 2 ^ 63)%N).
  { destruct (Nat.eq_dec (length samples) 0) as [E0|E0]; [lia|]. rewrite mcl_is_pow_eq in Ep by lia. injection Ep as Ep.
    apply is_pow2_spec in Ep. destruct Ep as [k Ek].
    rewrite Ek, N_of_pow2 in H64 |- *. apply N.pow_lt_mono_r_iff in H64; [|lia]. apply N.pow_le_mono_r; lia. }
  cbv zeta. apply b_bind_c; [apply b_runs_c, runs_unwrapc, runs_mcl_zero_poly|apply nf_mcl_zero_poly|]. intros [ze zp] _.
  apply b_bind_c; [apply b_runs_c, runs_mcl_ufft|apply nf_mcl_fft|]. intros pz Epz.
  apply mcl_fft_length in Epz.
  2:{ rewrite map_length, combine_length. lia. }
  destruct Epz as (k & Lp & Hk). assert (P : 1 <= 2 ^ k) by (apply Nat.neq_0_lt_0, Nat.pow_nonzero; lia).
  rewrite usub_of by lia. cbn [lift bindr bindp].
  destruct (mcl_next_pow_spec (length pz - 1)) as (j & Ej & _).
  { assert (N.of_nat (length pz) <= 2 ^ 63)%N; [|lia]. rewrite Lp, N_of_pow2. apply N.pow_le_mono_r; lia. }
  unfold mcl_next_pow. rewrite Ej. cbn [bind lift bindr bindp]. rewrite Nat2N.id. set (o := 2 ^ j). clearbody o. clear Ej.
  match goal with |- behaves _ (if _ then Fork ?a ?b _ else _) _ =>
    change (behaves J (if 1024 <? o then Fork a b (mcl_transforms tl s o)
      else let^ p := a in let^ z := b in mcl_transforms tl s o p z)
     (let* p := mcl_shift_in_place_par tl pz in let* z := mcl_shift_in_place_par tl zp in
      let* e1 := unwrap (mcl_fft s p false) in let* e2 := unwrap (mcl_fft s z false) in mcl_seq_rest tl s e1 e2)) end.
  assert (B : behaves J (let^ p := liftc (mcl_shift_in_place_par tl pz) in let^ z := liftc (mcl_shift_in_place_par tl zp) in
      mcl_transforms tl s o p z)
     (let* p := mcl_shift_in_place_par tl pz in let* z := mcl_shift_in_place_par tl zp in
      let* e1 := unwrap (mcl_fft s p false) in let* e2 := unwrap (mcl_fft s z false) in mcl_seq_rest tl s e1 e2)).
  { rewrite <- (pure_unwrap (mcl_shift_in_place_par tl pz)) at 2 by apply pure_mcl_shift.
    apply b_bind_c; [apply b_runs_c, runs_liftc|apply pure_mcl_shift|]. intros x _.
    rewrite <- (pure_unwrap (mcl_shift_in_place_par tl zp)) at 2 by apply pure_mcl_shift.
    apply b_bind_c; [apply b_runs_c, runs_liftc|apply pure_mcl_shift|]. intros y _. apply b_mcl_transforms. }
  destruct (1024 <? o); [apply b_fork|]; exact B.
Qed.
Theorem mcl_recover_conc_ok {V} tl s (samples : list (option K)) (m : list V) : (N.of_nat (length samples) < 2 ^ 64)%N ->
  always_returns (mcl_recover_conc tl s samples) m (mcl_recover_par tl s samples).
Proof.
  intros H. refine (proj1 (behaves_returns (fun _ => True) _ _ m _ _ I)); [apply rf_mcl_recover|now apply b_mcl_recover].
Qed.
End Tables.
