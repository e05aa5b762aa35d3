(** * Conc: fork-join processes over shared memory

    Meaning of the parallel constructs used under [feature = "parallel"]: [rayon::join]
    and parallel iterators.  Several tasks work on one vector at the same time; their
    individual reads and writes interleave in any order.  This file models the language
    and the scheduler, not a particular file of the repository. *)
From Coq Require Import List Arith Bool.
From Verif Require Import Base.
Import ListNotations.

(** A task with result type [A] that works on a shared vector of cells of type [V].
    - [Rd]/[Wr]: one access to the shared vector;
    - [Fork p q k]: [rayon::join(p, q)], then continue with [k];
    - [Own l p k]: allocate a vector with contents [l] and run [p] on it (no other task
      can see it), then continue with its final contents;
    - [Crash]: a panic. *)
Inductive proc (V A : Type) : Type :=
| Ret (a : A)
| Crash
| Rd (a : nat) (k : V -> proc V A)
| Wr (a : nat) (v : V) (k : proc V A)
| Fork (B C : Type) (p : proc V B) (q : proc V C) (k : B -> C -> proc V A)
| Own (W B : Type) (l : list W) (p : proc W B) (k : list W -> B -> proc V A).
Arguments Ret {V A} a.
Arguments Crash {V A}.
Arguments Rd {V A} a k.
Arguments Wr {V A} a v k.
Arguments Fork {V A B C} p q k.
Arguments Own {V A W B} l p k.

(** One step of one task, chosen by the scheduler.  A join may go on as soon as both
    sides have returned; if one side has panicked the panic may be propagated at once or
    after the other side has worked on. *)
Fixpoint step {V A} (p : proc V A) (m : list V) (p' : proc V A) (m' : list V) {struct p} : Prop :=
  match p with
  | Ret _ => False
  | Crash => False
  | Rd a k => m' = m /\ p' = match nth_error m a with Some v => k v | None => Crash end
  | Wr a v k => if a <? length m then m' = set m a v /\ p' = k else m' = m /\ p' = Crash
  | Fork p1 p2 k =>
      (exists r, step p1 m r m' /\ p' = Fork r p2 k)
      \/ (exists r, step p2 m r m' /\ p' = Fork p1 r k)
      \/ (exists b c, p1 = Ret b /\ p2 = Ret c /\ m' = m /\ p' = k b c)
      \/ ((p1 = Crash \/ p2 = Crash) /\ m' = m /\ p' = Crash)
  | Own l q k =>
      (exists r l', step q l r l' /\ m' = m /\ p' = Own l' r k)
      \/ (exists b, q = Ret b /\ m' = m /\ p' = k l b)
      \/ (q = Crash /\ m' = m /\ p' = Crash)
  end.

(** any number of steps *)
Inductive steps {V A} : proc V A -> list V -> proc V A -> list V -> Prop :=
| steps_refl p m : steps p m p m
| steps_step p m p1 m1 p2 m2 : step p m p1 m1 -> steps p1 m1 p2 m2 -> steps p m p2 m2.

(** what a finished task has returned *)
Definition returned {V A} (p : proc V (res A)) : option (res A) :=
  match p with Ret r => Some r | Crash => Some Panic | _ => None end.

(** Under every schedule the task stops after finitely many steps, it can only stop by
    returning or panicking (no deadlock), and it returns [r] (or panics, if [r = Panic]). *)
Definition always_returns {V A} (p : proc V (res A)) (m : list V) (r : res A) : Prop :=
  Acc (fun c' c : proc V (res A) * list V => step (fst c) (snd c) (fst c') (snd c')) (p, m)
  /\ forall p' m', steps p m p' m' ->
       returned p' = Some r \/ exists p'' m'', step p' m' p'' m''.

(** ** Sequencing *)

Fixpoint bindp {V A B} (p : proc V A) (f : A -> proc V B) : proc V B :=
  match p with
  | Ret a => f a
  | Crash => Crash
  | Rd a k => Rd a (fun v => bindp (k v) f)
  | Wr a v k => Wr a v (bindp k f)
  | Fork p q k => Fork p q (fun b c => bindp (k b c) f)
  | Own l p k => Own l p (fun l b => bindp (k l b) f)
  end.

Notation "'let^' x ':=' m 'in' k" := (bindp m (fun x => k))
  (at level 200, x pattern, m at level 100, k at level 200, right associativity).

(** sequencing of functions that return a [Result]: an [Err] is returned at once *)
Definition bindr {V A B} (p : proc V (res A)) (f : A -> proc V (res B)) : proc V (res B) :=
  bindp p (fun r => match r with Ok a => f a | Err => Ret Err | Panic => Crash | NoFuel => Ret NoFuel end).

Notation "'let!' x ':=' m 'in' k" := (bindr m (fun x => k))
  (at level 200, x pattern, m at level 100, k at level 200, right associativity).

(** a computation on private data only, as part of a function returning a [Result] *)
Definition lift {V A} (r : res A) : proc V (res A) :=
  match r with Panic => Crash | _ => Ret r end.

(** the same inside a closure returning a plain value; an exhausted loop bound cannot
    be told from a panic here *)
Definition liftc {V A} (r : res A) : proc V A :=
  match r with Ok a => Ret a | _ => Crash end.

(** [.unwrap()] of a call that may itself fork *)
Definition unwrapc {V A} (p : proc V (res A)) : proc V A :=
  let^ r := p in match r with Ok a => Ret a | _ => Crash end.

(** [for i in a..b] in a closure *)
Fixpoint forc_ {V} (n i : nat) (body : nat -> proc V unit) : proc V unit :=
  match n with O => Ret tt | S n' => let^ _ := body i in forc_ n' (S i) body end.
Definition forc {V} (a b : nat) (body : nat -> proc V unit) : proc V unit := forc_ (b - a) a body.

(** [for i in a..b] over calls that return a [Result] *)
Fixpoint forr_ {V T} (n i : nat) (body : nat -> T -> proc V (res T)) (s : T) : proc V (res T) :=
  match n with O => Ret (Ok s) | S n' => let! s' := body i s in forr_ n' (S i) body s' end.
Definition forr {V T} (a b : nat) (body : nat -> T -> proc V (res T)) (s : T) : proc V (res T) :=
  forr_ (b - a) a body s.

(** [while cond { body }] over calls that return a [Result] *)
Fixpoint whiler {V T} (fuel : nat) (cond : T -> bool) (body : T -> proc V (res T)) (s : T) : proc V (res T) :=
  match fuel with
  | O => Ret NoFuel
  | S f => if cond s then let! s' := body s in whiler f cond body s' else Ret (Ok s)
  end.

(** [rayon::join] of two closures without result *)
Definition join {V} (p q : proc V unit) : proc V unit := Fork p q (fun _ _ => Ret tt).

(** element access in the mutable sub-slice of length [len] that starts at [off] *)
Definition rd_at {V} (off len i : nat) : proc V V := if i <? len then Rd (off + i) Ret else Crash.
Definition wr_at {V} (off len i : nat) (v : V) : proc V unit :=
  if i <? len then Wr (off + i) v (Ret tt) else Crash.

(** ** Shape of an iteration split by the thread pool

    A parallel iterator cuts its index range into pieces in a way that depends on the
    load of the pool; [split] is an arbitrary such choice. *)
Inductive split := Whole | Cut (k : nat) (l r : split).
