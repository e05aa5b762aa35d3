(** * Base: results, bounds-checked vectors and loops

    These combinators give a meaning to the imperative Rust constructs used all
    over the repository.  They model the Rust language, not a particular file:
    - [Result<T, String>] return values: [Ok]/[Err] (the message is dropped);
    - panics (index out of bounds, [unwrap] of an [Err], failed [assert!],
      [usize] underflow with overflow checks on): [Panic];
    - [for i in a..b]: [for_range a b];
    - [v[i]] read and write: [idx] and [upd]; slices: [slice]. *)
From Coq Require Import List Arith Lia Bool.
Import ListNotations.

Inductive res (A : Type) : Type :=
| Ok (a : A)
| Err
| Panic
| NoFuel.
Arguments Ok {A} a.
Arguments Err {A}.
Arguments Panic {A}.
Arguments NoFuel {A}.

Definition bind {A B} (m : res A) (k : A -> res B) : res B :=
  match m with Ok a => k a | Err => Err | Panic => Panic | NoFuel => NoFuel end.

Notation "'let*' x ':=' m 'in' k" := (bind m (fun x => k))
  (at level 200, x pattern, m at level 100, k at level 200, right associativity).

(** [.unwrap()] *)
Definition unwrap {A} (m : res A) : res A :=
  match m with Err => Panic | _ => m end.

(** [v[i]] as an rvalue *)
Definition idx {A} (l : list A) (i : nat) : res A :=
  match nth_error l i with Some x => Ok x | None => Panic end.

(** functional update, only meaningful in range *)
Fixpoint set {A} (l : list A) (i : nat) (x : A) : list A :=
  match l, i with
  | [], _ => []
  | _ :: t, O => x :: t
  | h :: t, S i' => h :: set t i' x
  end.

(** [v[i] = x] *)
Definition upd {A} (l : list A) (i : nat) (x : A) : res (list A) :=
  if i <? length l then Ok (set l i x) else Panic.

(** checked [a - b] on [usize] *)
Definition usub (a b : nat) : res nat :=
  if b <=? a then Ok (a - b) else Panic.

(** [&v[a..b]] *)
Definition slice {A} (l : list A) (a b : nat) : res (list A) :=
  if (a <=? b) && (b <=? length l) then Ok (firstn (b - a) (skipn a l)) else Panic.

(** [&v[a..]] *)
Definition slice_from {A} (l : list A) (a : nat) : res (list A) :=
  if a <=? length l then Ok (skipn a l) else Panic.

(** [assert!(b)] *)
Definition assert (b : bool) : res unit := if b then Ok tt else Panic.

Fixpoint for_ {S} (n i : nat) (body : nat -> S -> res S) (s : S) : res S :=
  match n with
  | O => Ok s
  | Datatypes.S n' => bind (body i s) (fun s' => for_ n' (Datatypes.S i) body s')
  end.

(** [for i in a..b] *)
Definition for_range {S} (a b : nat) (body : nat -> S -> res S) (s : S) : res S :=
  for_ (b - a) a body s.

(** [while cond { body }] with fuel; running out of fuel is visible. *)
Fixpoint while_ {S} (fuel : nat) (cond : S -> bool) (body : S -> res S) (s : S) : res S :=
  match fuel with
  | O => NoFuel
  | Datatypes.S f => if cond s then bind (body s) (fun s' => while_ f cond body s') else Ok s
  end.

(** ** Lemmas *)

Lemma bind_Ok {A B} (m : res A) (k : A -> res B) a :
  m = Ok a -> bind m k = k a.
Proof. intros ->. reflexivity. Qed.

Lemma bind_inv {A B} (m : res A) (k : A -> res B) b :
  bind m k = Ok b -> exists a, m = Ok a /\ k a = Ok b.
Proof. destruct m; simpl; intros; try discriminate. eauto. Qed.

Lemma idx_ok {A} (l : list A) i d : i < length l -> idx l i = Ok (nth i l d).
Proof.
  intros H. unfold idx. rewrite (nth_error_nth' l d H). reflexivity.
Qed.

Lemma idx_panic {A} (l : list A) i : length l <= i -> idx l i = Panic.
Proof.
  intros H. unfold idx. apply nth_error_None in H. now rewrite H.
Qed.

Lemma idx_inv {A} (l : list A) i x d : idx l i = Ok x -> i < length l /\ nth i l d = x.
Proof.
  unfold idx. destruct (nth_error l i) eqn:E; [|discriminate].
  intros H; injection H as ->. split.
  - apply nth_error_Some. congruence.
  - now apply nth_error_nth.
Qed.

Lemma set_length {A} (l : list A) i x : length (set l i x) = length l.
Proof. revert i; induction l; destruct i; simpl; auto. Qed.

Lemma nth_set {A} (l : list A) i x j d :
  i < length l -> nth j (set l i x) d = if j =? i then x else nth j l d.
Proof.
  revert i j; induction l; simpl; intros i j H; [lia|].
  destruct i, j; simpl; auto.
  apply IHl. lia.
Qed.

Lemma nth_set_same {A} (l : list A) i x d : i < length l -> nth i (set l i x) d = x.
Proof. intros; rewrite nth_set, Nat.eqb_refl; auto. Qed.

Lemma nth_set_other {A} (l : list A) i x j d : i < length l -> j <> i -> nth j (set l i x) d = nth j l d.
Proof. intros H N; rewrite nth_set by auto. apply Nat.eqb_neq in N. now rewrite N. Qed.

Lemma upd_ok {A} (l : list A) i x : i < length l -> upd l i x = Ok (set l i x).
Proof. intros H. unfold upd. apply Nat.ltb_lt in H. now rewrite H. Qed.

Lemma upd_panic {A} (l : list A) i x : length l <= i -> upd l i x = Panic.
Proof. intros H. unfold upd. apply Nat.ltb_ge in H. now rewrite H. Qed.

Lemma usub_ok a b : b <= a -> usub a b = Ok (a - b).
Proof. intros H. unfold usub. apply Nat.leb_le in H. now rewrite H. Qed.

Lemma usub_panic a b : a < b -> usub a b = Panic.
Proof. intros H. unfold usub. apply Nat.leb_gt in H. now rewrite H. Qed.

Lemma slice_ok {A} (l : list A) a b :
  a <= b -> b <= length l -> slice l a b = Ok (firstn (b - a) (skipn a l)).
Proof.
  intros H1 H2. unfold slice. apply Nat.leb_le in H1, H2. now rewrite H1, H2.
Qed.

Lemma slice_from_ok {A} (l : list A) a :
  a <= length l -> slice_from l a = Ok (skipn a l).
Proof. intros H. unfold slice_from. apply Nat.leb_le in H. now rewrite H. Qed.

(** Loop rule: an invariant indexed by the counter. *)
Lemma for_inv {S} (I : nat -> S -> Prop) body n : forall i s,
  I i s ->
  (forall j t, i <= j < i + n -> I j t -> exists t', body j t = Ok t' /\ I (Datatypes.S j) t') ->
  exists s', for_ n i body s = Ok s' /\ I (i + n) s'.
Proof.
  induction n; simpl; intros i s Hi Hb.
  - exists s. rewrite Nat.add_0_r. auto.
  - destruct (Hb i s) as (t & E & It); [lia|auto|]. rewrite E; simpl.
    destruct (IHn (Datatypes.S i) t It) as (s' & E' & I').
    + intros j u Hj Hu. apply Hb; [lia|auto].
    + exists s'. split; auto. now rewrite <- Nat.add_succ_comm.
Qed.

Lemma for_range_inv {S} (I : nat -> S -> Prop) body a b s :
  a <= b ->
  I a s ->
  (forall j t, a <= j < b -> I j t -> exists t', body j t = Ok t' /\ I (Datatypes.S j) t') ->
  exists s', for_range a b body s = Ok s' /\ I b s'.
Proof.
  intros Hab Ha Hb. unfold for_range.
  destruct (for_inv I body (b - a) a s Ha) as (s' & E & I').
  - intros j t Hj. apply Hb. lia.
  - exists s'. split; auto. now replace (a + (b - a)) with b in I' by lia.
Qed.

Lemma for_ext {S} (body body' : nat -> S -> res S) n : forall i s,
  (forall j t, i <= j < i + n -> body j t = body' j t) ->
  for_ n i body s = for_ n i body' s.
Proof.
  induction n; simpl; intros i s H; auto.
  rewrite H by lia. destruct (body' i s); simpl; auto.
  apply IHn. intros; apply H; lia.
Qed.

Lemma for_app {S} (body : nat -> S -> res S) n m : forall i s,
  for_ (n + m) i body s = let* s' := for_ n i body s in for_ m (i + n) body s'.
Proof.
  induction n; simpl; intros i s.
  - now rewrite Nat.add_0_r.
  - destruct (body i s); simpl; auto. rewrite IHn. now rewrite Nat.add_succ_r.
Qed.

(** While rule with a variant. *)
Lemma while_inv {S} (I : S -> Prop) (V : S -> nat) cond body : forall fuel s,
  I s -> V s < fuel ->
  (forall t, I t -> cond t = true -> exists t', body t = Ok t' /\ I t' /\ V t' < V t) ->
  exists s', while_ fuel cond body s = Ok s' /\ I s' /\ cond s' = false.
Proof.
  induction fuel; intros s Hs Hv Hb; [lia|]. simpl.
  destruct (cond s) eqn:C.
  - destruct (Hb s Hs C) as (t & E & It & Vt). rewrite E; simpl.
    apply IHfuel; auto. lia.
  - eauto.
Qed.

(** ** List facts *)

Lemma nth_ext' {A} (d : A) (l l' : list A) :
  length l = length l' -> (forall i, i < length l -> nth i l d = nth i l' d) -> l = l'.
Proof. intros H1 H2. apply (nth_ext l l' d d); auto. Qed.

Lemma nth_map_seq {A} (f : nat -> A) n i d : i < n -> nth i (map f (seq 0 n)) d = f i.
Proof.
  intros H. rewrite nth_indep with (d' := f 0) by (rewrite map_length, seq_length; lia).
  rewrite map_nth, seq_nth by lia. reflexivity.
Qed.

Lemma length_map_seq {A} (f : nat -> A) n : length (map f (seq 0 n)) = n.
Proof. now rewrite map_length, seq_length. Qed.

Lemma nth_firstn' {A} (l : list A) n i d : i < n -> nth i (firstn n l) d = nth i l d.
Proof.
  revert n i; induction l; intros [|n] [|i] H; simpl; auto; try lia.
  apply IHl; lia.
Qed.

Lemma nth_skipn' {A} (l : list A) n i d : nth i (skipn n l) d = nth (n + i) l d.
Proof.
  revert n; induction l; intros [|n]; simpl; auto. destruct i; auto.
Qed.

Lemma nth_repeat' {A} (x : A) n i d : i < n -> nth i (repeat x n) d = x.
Proof. revert i; induction n; intros [|i] H; simpl; auto; try lia. apply IHn; lia. Qed.

Lemma nth_repeat_same {A} (x : A) n i : nth i (repeat x n) x = x.
Proof. revert i; induction n; intros [|i]; simpl; auto. Qed.

Lemma skipn_skipn' {A} (l : list A) a b : skipn a (skipn b l) = skipn (b + a) l.
Proof. revert b; induction l; intros [|b]; simpl; auto. now rewrite skipn_nil. Qed.

Lemma map_ext_seq {A} (f g : nat -> A) n :
  (forall i, i < n -> f i = g i) -> map f (seq 0 n) = map g (seq 0 n).
Proof. intros H. apply map_ext_in. intros i Hi. apply in_seq in Hi. apply H. lia. Qed.

Lemma list_map_nth {A} (l : list A) d : l = map (fun i => nth i l d) (seq 0 (length l)).
Proof.
  apply (nth_ext' d).
  - now rewrite length_map_seq.
  - intros i Hi. now rewrite nth_map_seq.
Qed.
