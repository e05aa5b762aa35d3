(** * Proof_ZkMsm: the bucket method returns the sum of the scalar multiples *)
From Coq Require Import List Arith Lia Bool ZArith NArith.
From Verif Require Import Base Fld Loops Model_Scalar Zr Model_ZkMsm.
Import ListNotations.

Lemma digits_sum v c n : 0 < c ->
  list_sum (map (fun i => 2 ^ (i * c) * (v / 2 ^ (i * c) mod 2 ^ c)) (seq 0 n)) = v mod 2 ^ (n * c).
Proof.
  intros Hc. induction n.
  - cbn [seq map list_sum fold_right Nat.mul Nat.pow]. reflexivity.
  - rewrite seq_S, map_app, list_sum_app, IHn. cbn [map list_sum fold_right Nat.add].
    assert (A : 2 ^ (n * c) <> 0) by (apply Nat.pow_nonzero; lia). assert (B : 2 ^ c <> 0) by (apply Nat.pow_nonzero; lia).
    replace (S n * c) with (n * c + c) by lia. rewrite Nat.pow_add_r, Nat.mod_mul_r by auto. lia.
Qed.

Lemma step_by_spec n c i : 0 < c -> i < length (step_by n c) -> nth i (step_by n c) 0 = i * c /\ i * c < n.
Proof.
  intros Hc H. unfold step_by in *. rewrite map_length, seq_length in H. split.
  - now rewrite nth_map_seq.
  - assert (D := Nat.div_mod (n + c - 1) c ltac:(lia)). assert (E := Nat.mod_upper_bound (n + c - 1) c ltac:(lia)). nia.
Qed.
Lemma step_by_covers n c : 0 < c -> n <= length (step_by n c) * c.
Proof.
  intros Hc. unfold step_by. rewrite map_length, seq_length.
  assert (D := Nat.div_mod (n + c - 1) c ltac:(lia)). assert (E := Nat.mod_upper_bound (n + c - 1) c ltac:(lia)). nia.
Qed.

(** equality of sums up to order and grouping *)
Lemma gswap {K : fld} {M : gmod K} (a b c : M) : gadd a (gadd b c) = gadd b (gadd a c).
Proof. rewrite !gadd_assoc. f_equal. apply gadd_comm. Qed.
Ltac to_front x := repeat match goal with
  | |- _ = gadd x _ => fail 1
  | |- _ = ?R => match R with context [gadd ?a (gadd x ?t)] => rewrite (gswap a x t) end
  end.
Ltac gac :=
  match goal with |- ?L = ?R => rewrite <- (gadd_0_r L), <- (gadd_0_r R) end; rewrite <- ?gadd_assoc;
  repeat match goal with |- gadd ?x _ = _ => to_front x; apply (f_equal (gadd x)) end; reflexivity.

Section P.
Context {K : fld} {M : gmod K} {Sc : Type}.
Notation msm_pair := (Model_ZkMsm.msm_pair (M:=M) gadd).
Notation msm_window := (Model_ZkMsm.msm_window (M:=M) g0 gadd).
Notation msm_variable_base := (Model_ZkMsm.msm_variable_base (M:=M) g0 gadd (fun a => gadd a a)).
Variables (is_zero is_one : Sc -> bool) (digit : Sc -> nat -> nat -> res nat).
Variable value : Sc -> nat.

Definition nmul (n : nat) (a : M) : M := smul (fnat n) a.
Lemma nmul_add n m a : nmul (n + m) a = gadd (nmul n a) (nmul m a).
Proof. unfold nmul. now rewrite fnat_add, smul_add_l. Qed.
Lemma nmul_S n a : nmul (S n) a = gadd (nmul n a) a.
Proof. rewrite <- Nat.add_1_r, nmul_add. unfold nmul at 2. now rewrite fnat_1, smul_1. Qed.
Lemma nmul_0 a : nmul 0 a = g0.
Proof. apply smul_0_l. Qed.
Lemma nmul_1 a : nmul 1 a = a.
Proof. unfold nmul. now rewrite fnat_1, smul_1. Qed.
Lemma nmul_mul n m a : nmul n (nmul m a) = nmul (n * m) a.
Proof. unfold nmul. now rewrite smul_smul, fnat_mul. Qed.
Lemma nmul_g0 n : nmul n g0 = g0.
Proof. apply smul_0_r. Qed.
Lemma nmul_gadd n a b : nmul n (gadd a b) = gadd (nmul n a) (nmul n b).
Proof. apply smul_add_r. Qed.

(** sums over lists *)
Definition lsum {A} (f : A -> M) (l : list A) : M := fold_right (fun x t => gadd (f x) t) g0 l.
Lemma lsum_app {A} (f : A -> M) l l' : lsum f (l ++ l') = gadd (lsum f l) (lsum f l').
Proof. induction l; cbn [lsum fold_right app]; [now rewrite gadd_0_l|]. fold (lsum f (l ++ l')) (lsum f l). now rewrite IHl, gadd_assoc. Qed.
Lemma lsum_ext {A} (f g : A -> M) l : (forall x, In x l -> f x = g x) -> lsum f l = lsum g l.
Proof. induction l; intros H; cbn [lsum fold_right]; auto. f_equal; [apply H; now left|]. apply IHl. intros. apply H. now right. Qed.
Lemma lsum_gadd {A} (f g : A -> M) l : lsum (fun x => gadd (f x) (g x)) l = gadd (lsum f l) (lsum g l).
Proof.
  induction l; cbn [lsum fold_right]; [now rewrite gadd_0_l|]. fold (lsum (fun x => gadd (f x) (g x)) l) (lsum f l) (lsum g l). rewrite IHl.
  rewrite !gadd_assoc. f_equal. rewrite <- !gadd_assoc. f_equal. apply gadd_comm.
Qed.
Lemma lsum_nmul {A} n (f : A -> M) l : lsum (fun x => nmul n (f x)) l = nmul n (lsum f l).
Proof. induction l; cbn [lsum fold_right]; [now rewrite nmul_g0|]. fold (lsum (fun x => nmul n (f x)) l) (lsum f l). now rewrite IHl, nmul_gadd. Qed.
Lemma lsum_list_sum (f : nat -> nat) (a : M) l : lsum (fun i => nmul (f i) a) l = nmul (list_sum (map f l)) a.
Proof.
  induction l; cbn [lsum fold_right map list_sum]; [now rewrite nmul_0|]. fold (lsum (fun i => nmul (f i) a) l). rewrite IHl. now rewrite <- nmul_add.
Qed.
Lemma lsum_swap {A B} (f : A -> B -> M) l l' : lsum (fun x => lsum (f x) l') l = lsum (fun y => lsum (fun x => f x y) l) l'.
Proof.
  induction l; cbn [lsum fold_right].
  - induction l'; cbn [lsum fold_right]; auto. fold (lsum (fun _ : B => g0) l'). cbn [lsum fold_right] in IHl'. rewrite <- IHl'. now rewrite gadd_0_l.
  - fold (lsum (fun x => lsum (f x) l') l). rewrite IHl. rewrite <- lsum_gadd. apply lsum_ext. intros y _. reflexivity.
Qed.

(** the value a window's state stands for: bucket d counts d times *)
Fixpoint weigh (k : nat) (bs : list M) : M :=
  match bs with [] => g0 | b :: bs => gadd (nmul k b) (weigh (S k) bs) end.
Lemma weigh_set bs : forall k i x, i < length bs -> weigh k (set bs i (gadd (nth i bs g0) x)) = gadd (weigh k bs) (nmul (k + i) x).
Proof.
  induction bs as [|b bs IH]; intros k i x H; [simpl in H; lia|]. destruct i; cbn [set weigh nth].
  - rewrite nmul_gadd, Nat.add_0_r. rewrite <- !gadd_assoc. f_equal. apply gadd_comm.
  - rewrite IH by (simpl in H; lia). rewrite gadd_assoc. do 2 f_equal. lia.
Qed.
Lemma weigh_repeat n : forall k, weigh k (repeat g0 n) = g0.
Proof. induction n; intros k; cbn [repeat weigh]; auto. rewrite IHn, nmul_g0. apply gadd_0_l. Qed.
Lemma weigh_app l l' : forall k, weigh k (l ++ l') = gadd (weigh k l) (weigh (k + length l) l').
Proof.
  induction l as [|b l IH]; intros k; cbn [app weigh length]; [now rewrite Nat.add_0_r, gadd_0_l|].
  rewrite IH, gadd_assoc. do 2 f_equal. lia.
Qed.
Lemma weigh_S bs : forall k, weigh (S k) bs = gadd (weigh k bs) (lsum (fun b => b) bs).
Proof.
  induction bs as [|b bs IH]; intros k; cbn [weigh lsum fold_right]; [now rewrite gadd_0_l|]. fold (lsum (fun b => b) bs).
  rewrite IH, nmul_S. rewrite !gadd_assoc. rewrite <- !gadd_assoc. f_equal. rewrite !gadd_assoc. f_equal. apply gadd_comm.
Qed.

Lemma running_sums bs : forall rs acc,
  for_each (rev bs) (fun b (st : M * M) =>
      let (running_sum, res) := st in
      let running_sum := gadd running_sum b in
      Ok (running_sum, gadd res running_sum)) (rs, acc) =
  Ok (gadd rs (lsum (fun b => b) bs), gadd acc (gadd (nmul (length bs) rs) (weigh 1 bs))).
Proof.
  assert (FA : forall (A St : Type) (l l' : list A) (body : A -> St -> res St) s, for_each (l ++ l') body s = let* s := for_each l body s in for_each l' body s).
  { induction l; intros; cbn [app for_each bind]; auto. destruct (body a s); cbn [bind]; auto. }
  induction bs as [|b bs IH]; intros rs acc.
  - cbn [rev for_each lsum fold_right weigh length]. rewrite nmul_0, !gadd_0_r. reflexivity.
  - cbn [rev]. rewrite FA, IH. cbn [bind for_each lsum fold_right weigh length]. fold (lsum (fun b => b) bs). do 2 f_equal.
    + rewrite <- gadd_assoc. f_equal. apply gadd_comm.
    + rewrite nmul_1, (weigh_S bs 1), nmul_S.
      gac.
Qed.

Section W.
Variable c : nat.
Hypothesis Hc : 0 < c.
Variable w : nat.
Definition dig (v : nat) : nat := v / 2 ^ w mod 2 ^ c.

Definition good (s : Sc) : Prop :=
  (is_zero s = true <-> value s = 0) /\ (is_one s = true <-> value s = 1) /\ digit s w c = Ok (dig (value s)).

Lemma dig_lt v : dig v < 2 ^ c.
Proof. apply Nat.mod_upper_bound. apply Nat.pow_nonzero. lia. Qed.
Lemma dig_0 : dig 0 = 0.
Proof. unfold dig. rewrite Nat.div_0_l by (apply Nat.pow_nonzero; lia). apply Nat.mod_0_l. apply Nat.pow_nonzero. lia. Qed.
Lemma dig_1 : dig 1 = if w =? 0 then 1 else 0.
Proof.
  unfold dig. assert (1 < 2 ^ c) by (apply Nat.pow_gt_1; lia).
  destruct (Nat.eqb_spec w 0) as [->|N].
  - change (2 ^ 0) with 1. rewrite Nat.div_1_r. now apply Nat.mod_small.
  - assert (1 < 2 ^ w) by (apply Nat.pow_gt_1; lia). rewrite Nat.div_small by auto. apply Nat.mod_0_l. lia.
Qed.

Definition state_val (st : M * list M) : M := gadd (fst st) (weigh 1 (snd st)).

Lemma pair_step s base st : good s -> length (snd st) = 2 ^ c - 1 ->
  exists st', msm_pair is_zero is_one digit c w (s, base) st = Ok st' /\ length (snd st') = 2 ^ c - 1 /\
    state_val st' = gadd (state_val st) (nmul (dig (value s)) base).
Proof.
  intros (Z & O & D) L. destruct st as [res bs]. cbn [snd fst] in *. unfold Model_ZkMsm.msm_pair, state_val.
  destruct (is_zero s) eqn:Ez.
  - rewrite (proj1 Z eq_refl), dig_0, nmul_0, gadd_0_r. eauto.
  - destruct (is_one s) eqn:Eo.
    + rewrite (proj1 O eq_refl), dig_1. destruct (Nat.eqb_spec w 0) as [Hw|Hw].
      * eexists. split; [reflexivity|]. split; [auto|]. cbn [fst snd]. rewrite nmul_1, <- !gadd_assoc. f_equal. apply gadd_comm.
      * rewrite nmul_0, gadd_0_r. eauto.
    + rewrite D. cbn [bind]. destruct (Nat.eqb_spec (dig (value s)) 0) as [E0|N0].
      * rewrite E0, nmul_0, gadd_0_r. eauto.
      * assert (B := dig_lt (value s)). rewrite (idx_ok bs _ g0) by lia. cbn [bind]. rewrite upd_ok by lia. cbn [bind].
        eexists. split; [reflexivity|]. cbn [fst snd]. rewrite set_length. split; [auto|].
        rewrite weigh_set by lia. rewrite gadd_assoc. do 2 f_equal. lia.
Qed.

Lemma window_spec pairs : Forall (fun sp => good (fst sp)) pairs ->
  msm_window is_zero is_one digit c pairs w = Ok (lsum (fun sp => nmul (dig (value (fst sp))) (snd sp)) pairs).
Proof.
  intros H. unfold Model_ZkMsm.msm_window.
  assert (L : forall st, length (snd st) = 2 ^ c - 1 -> exists st', for_each pairs (msm_pair is_zero is_one digit c w) st = Ok st' /\
     length (snd st') = 2 ^ c - 1 /\ state_val st' = gadd (state_val st) (lsum (fun sp => nmul (dig (value (fst sp))) (snd sp)) pairs)).
  { induction H as [|[s base] pairs G _ IH]; intros st Ls.
    - exists st. cbn [for_each lsum fold_right]. now rewrite gadd_0_r.
    - destruct (pair_step s base st G Ls) as (st1 & E1 & L1 & V1). cbn [for_each]. rewrite E1. cbn [bind].
      destruct (IH st1 L1) as (st2 & E2 & L2 & V2). exists st2. split; [auto|]. split; [auto|].
      rewrite V2, V1. cbn [lsum fold_right fst snd]. now rewrite gadd_assoc. }
  destruct (L (g0, repeat g0 (2 ^ c - 1)) (repeat_length _ _)) as ([res bs] & E & Lb & V). rewrite E. cbn [bind].
  rewrite running_sums. cbn [bind snd]. f_equal. rewrite nmul_g0, gadd_0_l.
  unfold state_val in V. cbn [fst snd] in V. rewrite V, weigh_repeat, !gadd_0_l. reflexivity.
Qed.
End W.

Lemma for_each_push {A B} (f : A -> res B) (g : A -> B) (l : list A) : forall acc, (forall x, In x l -> f x = Ok (g x)) ->
  for_each l (fun x sums => let* s := f x in Ok (sums ++ [s])) acc = Ok (acc ++ map g l).
Proof.
  induction l as [|a l IH]; intros acc H; cbn [for_each map]; [now rewrite app_nil_r|].
  rewrite H by now left. cbn [bind]. rewrite IH by (intros; apply H; now right). now rewrite <- app_assoc.
Qed.

Lemma dbl_loop c (t : M) : for_range 0 c (fun _ t => Ok (gadd t t)) t = Ok (nmul (2 ^ c) t).
Proof.
  destruct (for_range_inv (fun i x => x = nmul (2 ^ i) t) (fun _ t => Ok (gadd t t)) 0 c t) as (x & E & H).
  - lia.
  - simpl. now rewrite nmul_1.
  - intros i x Hi ->. eexists. split; [reflexivity|]. rewrite Nat.pow_succ_r', <- nmul_add. f_equal. lia.
  - rewrite E. now subst.
Qed.

(** the windows combined from the top *)
Lemma combine_spec c (sums : list M) :
  for_each (rev sums) (fun sum_i total => for_range 0 c (fun _ total => Ok (gadd total total)) (gadd total sum_i)) g0 =
  Ok (lsum (fun i => nmul (2 ^ (S i * c)) (nth i sums g0)) (seq 0 (length sums))).
Proof.
  assert (FA : forall (A St : Type) (l l' : list A) (body : A -> St -> res St) s, for_each (l ++ l') body s = let* s := for_each l body s in for_each l' body s).
  { induction l; intros; cbn [app for_each bind]; auto. destruct (body a s); cbn [bind]; auto. }
  induction sums as [|x sums IH]; [reflexivity|]. cbn [rev length]. rewrite FA, IH. cbn [bind for_each]. rewrite dbl_loop. cbn [bind]. f_equal.
  change (seq 0 (S (length sums))) with (0 :: seq 1 (length sums)).
  rewrite <- seq_shift. cbn [lsum fold_right nth]. rewrite nmul_gadd, gadd_comm. f_equal; [f_equal; f_equal; lia|].
  rewrite <- lsum_nmul. clear IH.
  induction (seq 0 (length sums)) as [|a l IHl]; cbn [map lsum fold_right]; auto.
  fold (lsum (fun i => nmul (2 ^ c) (nmul (2 ^ (S i * c)) (nth i sums g0))) l). rewrite IHl. apply f_equal2; [|reflexivity].
  rewrite nmul_mul. cbn [nth]. apply f_equal2; [|reflexivity]. rewrite <- Nat.pow_add_r. reflexivity.
Qed.

Theorem msm_gen (points : list M) (scalars : list Sc) :
  Forall (fun s => value s < 2 ^ 255 /\ (is_zero s = true <-> value s = 0) /\ (is_one s = true <-> value s = 1) /\
    forall w c, 0 < c <= 64 -> w < 255 -> digit s w c = Ok (value s / 2 ^ w mod 2 ^ c)) scalars ->
  (N.of_nat (length scalars) < 2 ^ 64)%N ->
  msm_variable_base is_zero is_one digit points scalars =
  Ok (lsum (fun sp => nmul (value (fst sp)) (snd sp)) (combine scalars points)).
Proof.
  intros H HL. unfold Model_ZkMsm.msm_variable_base.
  set (c := if length scalars <? 32 then 3 else ln_without_floats (length scalars) + 2).
  assert (Hc : 0 < c <= 64).
  { unfold c. destruct (Nat.ltb_spec (length scalars) 32); [lia|]. split; [lia|]. unfold ln_without_floats, msm_log2.
    destruct (Nat.leb_spec (length scalars) 1); [lia|].
    assert (B : (N.size (N.of_nat (length scalars)) <= 64)%N).
    { rewrite N.size_log2 by lia. assert (N.log2 (N.of_nat (length scalars)) < 64)%N; [|lia]. apply N.log2_lt_pow2; lia. }
    assert (D := Nat.div_mod (N.to_nat (N.size (N.of_nat (length scalars))) * 69) 100 ltac:(lia)). lia. }
  clearbody c. set (pairs := combine scalars points).
  assert (G : forall w, w < 255 -> Forall (fun sp : Sc * M => good c w (fst sp)) pairs).
  { intros w Hw. apply Forall_forall. intros [s b] Hin. apply in_combine_l in Hin. rewrite Forall_forall in H.
    destruct (H s Hin) as (_ & Z & O & D). cbn [fst]. split; [auto|]. split; [auto|]. now apply D. }
  rewrite (for_each_push _ (fun w => lsum (fun sp => nmul (value (fst sp) / 2 ^ w mod 2 ^ c) (snd sp)) pairs)).
  2:{ intros w Hin. apply (In_nth _ _ 0) in Hin as (i & Hi & <-). destruct (step_by_spec 255 c i ltac:(lia) Hi) as [-> B].
      now rewrite window_spec by (auto; lia). }
  cbn [app bind]. set (ws := step_by 255 c).
  assert (Cov := step_by_covers 255 c ltac:(lia)). fold ws in Cov.
  assert (Lw : 0 < length ws) by nia.
  set (f := fun w => lsum (fun sp => nmul (value (fst sp) / 2 ^ w mod 2 ^ c) (snd sp)) pairs).
  rewrite (idx_ok (map f ws) 0 g0) by (now rewrite map_length). cbn [bind]. unfold slice_from.
  rewrite map_length. destruct (Nat.leb_spec 1 (length ws)); [|lia]. cbn [bind].
  rewrite combine_spec. cbn [bind]. f_equal.
  assert (NW : forall i, i < length ws -> nth i (map f ws) g0 = f (i * c)).
  { intros i Hi. rewrite (nth_indep _ g0 (f 0)) by (now rewrite map_length). rewrite map_nth.
    f_equal. now apply (step_by_spec 255 c). }
  rewrite skipn_length, map_length, gadd_comm, NW by lia.
  transitivity (lsum (fun i => nmul (2 ^ (i * c)) (f (i * c))) (seq 0 (length ws))).
  - destruct (length ws) as [|n] eqn:En; [lia|]. rewrite Nat.sub_succ, Nat.sub_0_r.
    change (seq 0 (S n)) with (0 :: seq 1 n). rewrite <- seq_shift. cbn [lsum fold_right]. rewrite nmul_1. f_equal.
    assert (Q : forall l, (forall i, In i l -> i < n) -> lsum (fun i => nmul (2 ^ (S i * c)) (nth i (skipn 1 (map f ws)) g0)) l =
      fold_right (fun x t => gadd (nmul (2 ^ (x * c)) (f (x * c))) t) g0 (map S l)).
    { induction l as [|a l IHl]; intros B; cbn [lsum map fold_right]; auto.
      fold (lsum (fun i => nmul (2 ^ (S i * c)) (nth i (skipn 1 (map f ws)) g0)) l). rewrite IHl by (intros; apply B; now right). do 2 f_equal.
      rewrite <- NW by (assert (a < n) by (apply B; now left); lia). destruct (map f ws); [now destruct a|reflexivity]. }
    apply Q. intros i Hi. apply in_seq in Hi. lia.
  - unfold f. transitivity (lsum (fun i => lsum (fun sp => nmul (2 ^ (i * c) * (value (fst sp) / 2 ^ (i * c) mod 2 ^ c)) (snd sp)) pairs) (seq 0 (length ws))).
    { apply lsum_ext. intros i _. rewrite <- lsum_nmul. apply lsum_ext. intros sp _. apply nmul_mul. }
    rewrite lsum_swap. apply lsum_ext. intros [s b] Hin. cbn [fst snd].
    rewrite (lsum_list_sum (fun i => 2 ^ (i * c) * (value s / 2 ^ (i * c) mod 2 ^ c))). rewrite digits_sum by lia. f_equal.
    apply Nat.mod_small. apply in_combine_l in Hin. rewrite Forall_forall in H. destruct (H s Hin) as (B & _).
    eapply Nat.lt_le_trans; [exact B|]. apply Nat.pow_le_mono_r; lia.
Qed.
End P.
