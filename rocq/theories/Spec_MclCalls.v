(** * Spec_MclCalls: several calls of the constructors of the mcl backend at once *)
From Coq Require Import List.
From Verif Require Import Base Fld Model_Mcl.
Import ListNotations.

(** a mix of calls of both constructors: [(None, k)] is [new(k)], [(Some t, k)] is
    [new_custom_primitive_roots(k, t)]; the tables the calls use *)
Section Calls.
Context {K : fld}.
Definition call_thread (c : option (list K) * nat) : thread K :=
  match fst c with None => new_thread (snd c) | Some table => custom_thread table (snd c) end.

Definition is_table (pr5 : list K) (calls : list (option (list K) * nat)) (t : list K) : Prop :=
  t = pr5 \/ exists k, In (Some t, k) calls.
End Calls.
