(** * Proof_Tight: further facts about padding, division and concurrent constructors *)
From Coq Require Import List Arith Lia Bool NArith ZArith Field.
From Verif Require Import Base Fld Poly Zr Model_FFT Spec Model_Zk Proof_Zk Model_Mcl Spec_Mcl Spec_MclCalls Proof_Mcl Proof_MclFr.
Import ListNotations.

Section Tight.
Context {K : fld}.
Add Field Ktight : (fld_field K).

Theorem pad_poly_spec (p : list K) n :
  zk_pad p n = Ok (map (fun i => nth i p f0) (seq 0 n)) /\ zk_pad_ p n = Ok (map (fun i => nth i p f0) (seq 0 n)) /\
  (length p <= n -> zk_pad_poly p n = Ok (p ++ repeat f0 (n - length p))) /\ (n < length p -> zk_pad_poly p n = Err).
Proof.
  split; [exact (zk_pad_spec p n)|]. split; [exact (zk_pad__eq p n)|]. split; intros H; unfold zk_pad_poly.
  - destruct (Nat.ltb_spec n (length p)); [lia|]. rewrite zk_pad_spec. f_equal.
    apply (nth_ext _ _ f0 f0).
    + rewrite map_length, seq_length, app_length, repeat_length. lia.
    + rewrite map_length, seq_length. intros i Hi.
      rewrite (nth_indep _ f0 (coef p 0)) by (rewrite map_length, seq_length; lia). rewrite map_nth, seq_nth by lia. cbn [Nat.add]. unfold coef.
      destruct (Nat.lt_ge_cases i (length p)).
      * now rewrite app_nth1.
      * rewrite app_nth2 by lia. rewrite nth_repeat. now apply nth_overflow.
  - destruct (Nat.ltb_spec n (length p)); [reflexivity|lia].
Qed.

Theorem field_division (x y : K) :
  (y <> f0 -> zkf_inverse y = Ok (finv y) /\ exists q, zkf_div x y = Ok q /\ fmul q y = x) /\
  (y = f0 -> zkf_inverse y = Panic /\ zkf_div x y = Ok f0).
Proof.
  split.
  - intros H. split; [now apply zkf_inverse_ok|]. unfold zkf_div. apply feqb_false in H as F. rewrite F, zkf_inverse_ok by exact H. cbn [bind].
    eexists. split; [reflexivity|]. field. exact H.
  - intros ->. unfold zkf_inverse, zkf_div. assert (E : feqb (f0 : K) f0 = true) by now apply feqb_spec. now rewrite E.
Qed.

(** ** constructors of both kinds running at once *)
Definition good_mix (tab : list K -> Prop) (k : nat) (t : thread K) (g : globals K) : Prop :=
  match t with
  | NCheck k' | NTable k' => k' = k
  | NInit k' | NDefault k' | NRead k' | KInit k' | KDefault k' | KRead k' => k' = k /\ tab (g_table g)
  | KTable table k' => k' = k /\ tab table
  | Finished r => exists t, tab t /\ (r = idx t k \/ (length t <= k /\ r = Err))
  end.

Theorem threads_mixed (pr5 : list K) calls sched ts g :
  run_threads pr5 sched (map call_thread calls) globals0 = (ts, g) ->
  forall i c, nth_error calls i = Some c ->
    (forall r, nth_error ts i = Some (Finished r) -> exists t, is_table pr5 calls t /\ (r = idx t (snd c) \/ (length t <= snd c /\ r = Err))) /\
    (5 <= count_occ Nat.eq_dec sched i -> exists r, nth_error ts i = Some (Finished r)).
Proof.
  intros E i c Hc. pose (tab := is_table pr5 calls).
  destruct (run_invariant pr5 (good_mix tab) (fun g => g_init g = true -> tab (g_table g)) (map snd calls)) with (sched := sched)
    (ts := map call_thread calls) (g := @globals0 K) (ts' := ts) (g' := g) as (L & G & I); auto.
  - intros a b k1 k2 t t' g0 _ _ HG H1 H2.
    assert (P5 : tab pr5) by now left.
    destruct t; cbn [thread_step fst snd good_mix g_table g_init g_default] in *.
    + split; [exact HG|]. split; [|exact H2]. destruct (g_init g0) eqn:Ei; cbn [andb]; [|exact H1].
      destruct (g_default g0); cbn [good_mix]; auto.
    + repeat split; auto. destruct t'; cbn [good_mix g_table] in *; tauto.
    + destruct H1 as [-> T]. repeat split; auto.
    + destruct H1 as [-> T]. repeat split; auto.
    + destruct H1 as [-> T]. split; [exact HG|]. split; [|exact H2]. exists (g_table g0). auto.
    + destruct H1 as [-> T]. repeat split; auto. destruct t'; cbn [good_mix g_table] in *; tauto.
    + destruct H1 as [-> T]. repeat split; auto.
    + destruct H1 as [-> T]. repeat split; auto.
    + destruct H1 as [-> T]. split; [exact HG|]. split; [|exact H2]. exists (g_table g0). split; [exact T|].
      destruct (Nat.leb_spec (length (g_table g0)) k1); auto.
    + auto.
  - now rewrite !map_length.
  - cbn. discriminate.
  - intros a b Hb. destruct (nth_error calls a) as [c'|] eqn:Ec; [|apply nth_error_None in Ec; (assert (Y : a < length (map snd calls)) by (apply nth_error_Some; congruence); rewrite map_length in Y; lia)].
    rewrite (map_nth_error _ a calls Ec) in Hb. injection Hb as <-. exists (call_thread c'). split; [now apply map_nth_error|].
    unfold call_thread. destruct c' as [[t|] k]; cbn.
    + split; [reflexivity|]. right. exists k. now apply nth_error_In with a.
    + reflexivity.
  - destruct (I i (snd c)) as (t & t' & A & B & C & D); [now apply map_nth_error|]. split.
    + intros r Hr. rewrite B in Hr. injection Hr as ->. exact C.
    + intros H5. destruct (steps_left_0 t') as (r & ->); [|now exists r].
      rewrite (map_nth_error _ i calls Hc) in A. injection A as <-.
      assert (steps_left (call_thread c) <= 5) by (destruct c as [[?|] ?]; cbn; lia). lia.
Qed.

(** the table of the last assignment before the read decides *)
Theorem last_table (pr5 table : list K) k j :
  (forall s, In s [[0; 0; 1; 0; 0; 0; 1; 1; 1]; [0; 0; 0; 1; 0; 0; 1; 1; 1]; [0; 0; 0; 0; 1; 0; 1; 1; 1]; [0; 0; 0; 1; 1; 1; 1; 0; 0]] ->
     fst (run_threads pr5 s [new_thread k; custom_thread table j] globals0) =
     [Finished (idx table k); Finished (if length table <=? j then Err else idx table j)]) /\
  (forall s, In s [[0; 1; 0; 0; 0; 0; 1; 1; 1]; [0; 1; 1; 0; 0; 0; 0; 1; 1]; [0; 1; 1; 1; 0; 0; 0; 0; 1]] ->
     fst (run_threads pr5 s [new_thread k; custom_thread table j] globals0) =
     [Finished (idx pr5 k); Finished (if length pr5 <=? j then Err else idx pr5 j)]).
Proof. split; intros s H; cbn [In] in H; repeat (destruct H as [<-|H]; [reflexivity|]); destruct H. Qed.
End Tight.
