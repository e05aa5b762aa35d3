(** * Proof_ParRaceFr: the theorems of [Proof_ParRace] for the scalars of the curve *)
From Coq Require Import ZArith List Arith Bool Lia NArith.
From Verif Require Import Base Fld Zr Tables ZrTables Model_FFT Conc Model_Zk Model_ZkZero
  Proof_Conc Model_ParBackends Spec_ParTables Proof_ParTables Proof_ParRace.
Import ListNotations.
Local Open Scope nat_scope.

Lemma five_ne : (fnat 5 : Fr) <> f0.
Proof. apply feqb_false. vm_compute. reflexivity. Qed.

Definition fr_scale_call c cell (p : list Fr) m := scale_call_ok c cell p m five_ne.
Definition fr_scale_empty cell (m : list (list Fr)) := scale_empty cell m five_ne.
Definition fr_race (a b x y : Fr) := race a b x y five_ne.
Definition fr_poisoned cell (t q : list Fr) m := poisoned cell t q m five_ne.

Lemma Some_inj {A} (x y : A) : Some x = Some y -> x = y.
Proof. congruence. Qed.
Lemma ready_case : tables_ready 2 (@fresh_memory Fr) /\
  tables_ready 2 [powers (finv (fnat 5 : Fr)) 3; powers (fnat 5) 1; []; []] /\
  ~ tables_ready 2 [[f1; f1]; []; []; ([] : list Fr)].
Proof.
  split; [apply fresh_ready|]. split.
  - split; [cbn; lia|]. split; eexists; reflexivity.
  - intros (_ & (n & H) & _). cbn [nth_error] in H.
    assert (E : nth_error [f1; f1] 1 = nth_error (powers (finv (fnat 5 : Fr)) n) 1) by (rewrite (Some_inj _ _ H); reflexivity).
    change (Some f1 = nth_error (powers (finv (fnat 5 : Fr)) n) 1) in E. destruct n as [|[|n]]; [discriminate E|discriminate E|]. rewrite powers_nth in E by lia.
    apply Some_inj in E. revert E. apply feqb_false. vm_compute. reflexivity.
Qed.

Lemma list_eqb_Fr : forall l1 l2 : list Fr, length l1 = length l2 -> forallb (fun p => feqb (fst p) (snd p)) (combine l1 l2) = true -> l1 = l2.
Proof.
  induction l1 as [|x l1 IH]; intros [|y l2] L H; try discriminate; [reflexivity|]. cbn [combine forallb fst snd] in H.
  apply andb_prop in H as [H1 H2]. apply (proj1 (feqb_spec _ _ _)) in H1. subst y. apply f_equal. apply IH; [now injection L|exact H2].
Qed.

Lemma poisoned_recover : exists s, zk_fft_settings_new zk_table 1 = Ok s /\
  zk_recover s [Some (fr_of 4); None] = Ok [fr_of 4; fr_of 4] /\
  always_returns (zk_recover_par 2 s [Some (fr_of 4); None]) [[f1; f1]; []; []; []] Panic.
Proof.
  assert (C : match zk_fft_settings_new zk_table 1 with
    | Ok s => match zk_recover s [Some (fr_of 4); None] with
              | Ok d => (length d =? 2) && forallb (fun p => feqb (fst p) (snd p)) (combine d [fr_of 4; fr_of 4])
              | _ => false end
       && match run (zk_recover_par 2 s [Some (fr_of 4); None]) [[f1; f1]; []; []; []] with None => true | _ => false end
    | _ => false end = true) by (vm_compute; reflexivity).
  destruct (zk_fft_settings_new zk_table 1) as [s| | |]; try discriminate C. exists s. split; [reflexivity|].
  apply andb_prop in C as [C1 C2]. split.
  - destruct (zk_recover s _) as [d| | |]; try discriminate C1. apply andb_prop in C1 as [L C1]. apply Nat.eqb_eq in L.
    apply f_equal. apply list_eqb_Fr; [exact L|exact C1].
  - assert (R : race_free (zk_recover_par 2 s [Some (fr_of 4); None])) by (apply rf_zk_recover; lia).
    pose proof (race_free_deterministic _ [[f1; f1]; []; []; []] R) as D.
    destruct (run _ _); [discriminate C2|]. exact D.
Qed.
