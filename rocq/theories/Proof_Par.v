(** * Proof_Par: the parallel build computes what the sequential build computes *)
From Coq Require Import List Arith Bool Lia NArith.
From Verif Require Import Base Fld Model_Utils Model_FFT Model_Das Model_Poly Model_ZeroPoly Model_Recovery
  Conc Proof_Conc Model_Par Proof_Zero1 Proof_Zero2.
Import ListNotations.

(** ** Loop bounds are never exhausted *)
Lemma nf_bind {A B} (r : res A) (f : A -> res B) :
  r <> NoFuel -> (forall a, r = Ok a -> f a <> NoFuel) -> bind r f <> NoFuel.
Proof. destruct r; cbn; intros H Hf; try discriminate; [now apply Hf|congruence]. Qed.

Lemma nf_for {T} a b (body : nat -> T -> res T) s :
  (forall i s, body i s <> NoFuel) -> for_range a b body s <> NoFuel.
Proof.
  intros H. unfold for_range. generalize (b - a) as n. intros n. revert a s.
  induction n as [|n IH]; intros a s; cbn [for_]; [discriminate|]. apply nf_bind; auto.
Qed.

Lemma nf_while {T} (mu : T -> nat) cond (body : T -> res T) : forall fuel s,
  (forall s, body s <> NoFuel) ->
  (forall s s', cond s = true -> body s = Ok s' -> mu s' < mu s) ->
  mu s < fuel -> while_ fuel cond body s <> NoFuel.
Proof.
  induction fuel as [|n IH]; intros s Hb Hm L; [lia|]. cbn [while_].
  destruct (cond s) eqn:C; [|discriminate]. apply nf_bind; [auto|]. intros s' E. apply IH; auto.
  specialize (Hm s s' C E). lia.
Qed.

Lemma nf_idx {A} (l : list A) i : idx l i <> NoFuel.
Proof. unfold idx. destruct (nth_error l i); discriminate. Qed.
Lemma nf_upd {A} (l : list A) i v : upd l i v <> NoFuel.
Proof. unfold upd. destruct (i <? length l); discriminate. Qed.
Lemma nf_usub a b : usub a b <> NoFuel.
Proof. unfold usub. destruct (b <=? a); discriminate. Qed.
Lemma nf_slice {A} (l : list A) a b : slice l a b <> NoFuel.
Proof. unfold slice. destruct (_ && _); discriminate. Qed.
Lemma nf_slice_from {A} (l : list A) a : slice_from l a <> NoFuel.
Proof. unfold slice_from. destruct (_ <=? _); discriminate. Qed.
Lemma nf_unwrap {A} (r : res A) : r <> NoFuel -> unwrap r <> NoFuel.
Proof. destruct r; cbn; congruence. Qed.
Lemma nf_splice {A} (l v : list A) a b : splice l a b v <> NoFuel.
Proof. unfold splice. destruct (_ && _); discriminate. Qed.
Lemma nf_Ok {A} (a : A) : Ok a <> NoFuel.
Proof. discriminate. Qed.

(** a computation that neither runs out of fuel nor returns [Err] *)
Definition pure {A} (r : res A) : Prop := r <> NoFuel /\ r <> Err.
Lemma pure_bind {A B} (r : res A) (f : A -> res B) :
  pure r -> (forall a, r = Ok a -> pure (f a)) -> pure (bind r f).
Proof. unfold pure. destruct r; cbn; intros [H1 H2] Hf; try congruence; [now apply Hf|split; discriminate]. Qed.
Lemma pure_for {T} a b (body : nat -> T -> res T) s :
  (forall i s, pure (body i s)) -> pure (for_range a b body s).
Proof.
  intros H. unfold for_range. generalize (b - a) as n. intros n. revert a s.
  induction n as [|n IH]; intros a s; cbn [for_]; [split; discriminate|]. apply pure_bind; auto.
Qed.
Lemma pure_idx {A} (l : list A) i : pure (idx l i).
Proof. unfold idx. destruct (nth_error l i); split; discriminate. Qed.
Lemma pure_upd {A} (l : list A) i v : pure (upd l i v).
Proof. unfold upd. destruct (i <? length l); split; discriminate. Qed.
Lemma pure_slice_from {A} (l : list A) a : pure (slice_from l a).
Proof. unfold slice_from. destruct (_ <=? _); split; discriminate. Qed.
Lemma pure_Ok {A} (a : A) : pure (Ok a).
Proof. split; discriminate. Qed.
Ltac pu := repeat first
  [ apply pure_Ok | apply pure_idx | apply pure_upd | apply pure_slice_from
  | match goal with
    | |- pure (bind _ _) => apply pure_bind; [|intros ? ?]
    | |- pure (for_range _ _ _ _) => apply pure_for; intros ? ?
    end ].

Ltac nf := repeat first
  [ apply nf_Ok | apply nf_idx | apply nf_upd | apply nf_usub | apply nf_slice | apply nf_slice_from
  | apply nf_splice | discriminate
  | match goal with
    | |- unwrap _ <> NoFuel => apply nf_unwrap
    | |- bind _ _ <> NoFuel => apply nf_bind; [|intros ? ?]
    | |- for_range _ _ _ _ <> NoFuel => apply nf_for; intros ? ?
    | |- (if ?b then _ else _) <> NoFuel => destruct b
    | |- (let (_, _) := ?p in _) <> NoFuel => destruct p
    | |- (match ?c with Lt => _ | Eq => _ | Gt => _ end) <> NoFuel => destruct c
    end ].

Section Proofs.
Context {K : fld}.

(** ** [fft_fr] *)
Lemma wr_last {V} (pre l post : list V) i v :
  run (wr_at (length pre) (length l) i v) (pre ++ l ++ post) =
  match upd l i v with Ok l' => Some (tt, pre ++ l' ++ post) | _ => None end.
Proof.
  pose proof (run_wr_at pre l post i v (fun u => Ret u)) as E. rewrite run_bindp in E.
  destruct (run (wr_at (length pre) (length l) i v) (pre ++ l ++ post)) as [[[] m]|]; cbn in E; exact E.
Qed.

Lemma upd_length {A} (l : list A) i v l' : upd l i v = Ok l' -> length l' = length l.
Proof. unfold upd. destruct (i <? length l); [|discriminate]. intros E. injection E as <-. apply set_length. Qed.

Local Ltac rf := repeat first [ apply race_free_bindp; [|intros ?] | apply race_free_rd_at | apply race_free_wr_at | apply race_free_liftc ].
Local Ltac wi := repeat first [ apply within_bindp; [|intros ?] | apply within_rd_at | apply within_wr_at | apply within_liftc ].

Lemma imp_fft_fr_butterflies off len half (roots : list K) rs :
  implements off len (fft_fr_butterflies off len half roots rs)
   (for_range 0 half (fun i ret =>
        let* y := idx ret (i + half) in
        let* r := idx roots (i * rs) in
        let y_times_root := fmul y r in
        let* x := idx ret i in
        let* ret := upd ret (i + half) (fsub x y_times_root) in
        let* x := idx ret i in
        upd ret i (fadd x y_times_root))).
Proof.
  apply imp_for. intros i. split; [rf|split; [wi|]]. intros pre l post <- <-.
  rewrite run_rd_at. destruct (idx l (i + half)) as [y| | |]; cbn [bind]; try reflexivity.
  rewrite run_liftc. destruct (idx roots (i * rs)) as [r| | |]; cbn [bind]; try reflexivity.
  rewrite run_rd_at. destruct (idx l i) as [x| | |]; cbn [bind]; try reflexivity.
  rewrite run_wr_at. destruct (upd l (i + half) _) as [l1| | |] eqn:E1; cbn [bind]; try reflexivity.
  rewrite <- (upd_length _ _ _ _ E1).
  rewrite run_rd_at. destruct (idx l1 i) as [x'| | |]; cbn [bind]; try reflexivity.
  rewrite wr_last. destruct (upd l1 i _) as [l2| | |] eqn:E2; try reflexivity.
  split; [apply (upd_length _ _ _ _ E2)|reflexivity].
Qed.

Lemma imp_const {V A} off len (r : res A) (k : A -> proc V unit) f :
  (forall a, r = Ok a -> implements off len (k a) (f a)) ->
  implements off len (bindp (liftc r) k) (fun l => let* a := r in f a l).
Proof.
  intros H. destruct r as [a| | |]; cbn.
  - now apply H.
  - split; [exact I|split; [exact I|]]. reflexivity.
  - split; [exact I|split; [exact I|]]. reflexivity.
  - split; [exact I|split; [exact I|]]. reflexivity.
Qed.

Lemma imp_wr {V} off len i (v : V) : implements off len (wr_at off len i v) (fun l => upd l i v).
Proof.
  split; [apply race_free_wr_at|split; [apply within_wr_at|]]. intros pre l post <- <-.
  rewrite wr_last. destruct (upd l i v) as [l2| | |] eqn:E2; try reflexivity.
  split; [apply (upd_length _ _ _ _ E2)|reflexivity].
Qed.

Lemma bind_assoc {A B C} (r : res A) (f : A -> res B) (g : B -> res C) :
  bind (bind r f) g = bind r (fun a => bind (f a) g).
Proof. destruct r; reflexivity. Qed.

Lemma imp_fft_fr_fast : forall fuel off len data stride (roots : list K) rs,
  implements off len (fft_fr_fast_par fuel off len data stride roots rs)
    (fun ret => fft_fr_fast_ fuel ret data stride roots rs).
Proof.
  induction fuel as [|fuel IH]; intros off len data stride roots rs.
  { split; [exact I|split; [exact I|]]. reflexivity. }
  cbn [fft_fr_fast_par]. set (half := len / 2).
  assert (Hh : half <= len) by (apply Nat.div_le_upper_bound; lia).
  destruct (0 <? half) eqn:Eh.
  - set (lo := fft_fr_fast_par fuel off half data (stride * 2) roots (rs * 2)).
    set (hi := bindp (liftc (slice_from data stride)) _).
    pose proof (IH off half data (stride * 2) roots (rs * 2)) as Hlo. fold lo in Hlo.
    assert (Hhi : implements (off + half) (len - half) hi
       (fun ret => let* data' := slice_from data stride in fft_fr_fast_ fuel ret data' (stride * 2) roots (rs * 2))).
    { apply imp_const. intros a _. apply IH. }
    eapply imp_ext.
    2:{ apply imp_seq; [|apply imp_fft_fr_butterflies].
        destruct (256 <? half).
        - apply (imp_join off len half lo hi _ _ Hh Hlo Hhi).
        - apply (imp_halves off len half lo hi _ _ Hh Hlo Hhi). }
    intros l Hl. cbn [fft_fr_fast_]. rewrite Hl. fold half. rewrite Eh.
    rewrite bind_assoc. destruct (fft_fr_fast_ fuel (firstn half l) data _ _ _) as [lo'| | |]; cbn [bind]; try reflexivity.
    destruct (slice_from data stride) as [data'| | |]; cbn [bind]; try reflexivity.
    rewrite bind_assoc. reflexivity.
  - eapply imp_ext.
    2:{ apply imp_const. intros d _. apply imp_wr. }
    intros l Hl. cbn [fft_fr_fast_]. rewrite Hl. fold half. now rewrite Eh.
Qed.

Lemma pure_fft_fr_fast : forall fuel (ret data : list K) stride roots rs,
  length ret < fuel -> pure (fft_fr_fast_ fuel ret data stride roots rs).
Proof.
  induction fuel as [|fuel IH]; intros ret data stride roots rs L; [lia|].
  cbn [fft_fr_fast_]. destruct (Nat.ltb_spec 0 (length ret / 2)) as [H|H]; [|pu].
  pose proof (Nat.div_lt (length ret) 2) as D.
  assert (0 < length ret) by (destruct (length ret); [cbn in H; lia|lia]).
  pu; apply IH; rewrite ?firstn_length, ?skipn_length; lia.
Qed.

Lemma nf_fft_fr s (data : list K) inv : fft_fr s data inv <> NoFuel.
Proof. unfold fft_fr. nf. apply pure_fft_fr_fast. rewrite repeat_length. lia. Qed.

Lemma imp_whole {V} len (p : proc V unit) f l :
  implements 0 len p f -> length l = len ->
  run p l = match f l with Ok l' => Some (tt, l') | _ => None end.
Proof.
  intros (_ & _ & E) Hl. specialize (E [] l [] eq_refl Hl). rewrite app_nil_r in E. cbn [app] in E.
  destruct (f l) as [l'| | |]; try exact E. destruct E as [_ ->]. now rewrite app_nil_r.
Qed.

(** a vector owned by the caller, worked on by a task, then used *)
Lemma runs_own {V W A} (l : list W) (p : proc W unit) (k : list W -> unit -> proc V (res A)) f g :
  implements 0 (length l) p f -> pure (f l) ->
  (forall l', runs_as (k l' tt) (g l')) ->
  runs_as (Own l p k) (let* l' := f l in g l').
Proof.
  intros Hi [N1 N2] Hk. split; [|split].
  - cbn. split; [apply Hi|]. intros l' []. apply Hk.
  - cbn. intros l' []. apply Hk.
  - intros m. cbn. rewrite (imp_whole _ _ _ _ Hi eq_refl).
    destruct (f l) as [l'| | |]; cbn [bind]; try reflexivity; try contradiction. apply Hk.
Qed.

Lemma runs_fft_fr {V} s (data : list K) inv : @runs_as V _ (fft_fr_par s data inv) (fft_fr s data inv).
Proof.
  unfold fft_fr_par, fft_fr. destruct (max_width s <? length data); [now apply runs_ret|].
  destruct (negb (is_pow2 (length data))); [now apply runs_ret|].
  cbv zeta. refine (runs_own (repeat f0 (length data)) _ _ (fun ret => fft_fr_fast ret data 1 _ _) _ _ _ _).
  - rewrite repeat_length. unfold fft_fr_fast. eapply imp_ext; [|apply imp_fft_fr_fast].
    intros l ->. reflexivity.
  - apply pure_fft_fr_fast. lia.
  - intros l'. destruct inv; [|now apply runs_ret].
    apply runs_bind; [apply runs_lift|]. intros _. now apply runs_ret.
Qed.

(** ** [fft_g1] *)
Section G1.
Context {M : gmod K}.

Lemma imp_fft_g1_butterflies off len half (roots : list K) rs :
  implements off len (@fft_g1_butterflies K M off len half roots rs)
   (for_range 0 half (fun i ret =>
        let* y := idx ret (i + half) in
        let* r := idx roots (i * rs) in
        let y_times_root := smul r y in
        let* x := idx ret i in
        let* ret := upd ret (i + half) (gsub x y_times_root) in
        let* x := idx ret i in
        upd ret i (gadd x y_times_root))).
Proof.
  apply imp_for. intros i. split; [rf|split; [wi|]]. intros pre l post <- <-.
  rewrite run_rd_at. destruct (idx l (i + half)) as [y| | |]; cbn [bind]; try reflexivity.
  rewrite run_liftc. destruct (idx roots (i * rs)) as [r| | |]; cbn [bind]; try reflexivity.
  rewrite run_rd_at. destruct (idx l i) as [x| | |]; cbn [bind]; try reflexivity.
  rewrite run_wr_at. destruct (upd l (i + half) _) as [l1| | |] eqn:E1; cbn [bind]; try reflexivity.
  rewrite <- (upd_length _ _ _ _ E1).
  rewrite run_rd_at. destruct (idx l1 i) as [x'| | |]; cbn [bind]; try reflexivity.
  rewrite wr_last. destruct (upd l1 i _) as [l2| | |] eqn:E2; try reflexivity.
  split; [apply (upd_length _ _ _ _ E2)|reflexivity].
Qed.

Lemma imp_fft_g1_fast : forall fuel off len (data : list M) stride (roots : list K) rs,
  implements off len (fft_g1_fast_par fuel off len data stride roots rs)
    (fun ret => fft_g1_fast_ fuel ret data stride roots rs).
Proof.
  induction fuel as [|fuel IH]; intros off len data stride roots rs.
  { split; [exact I|split; [exact I|]]. reflexivity. }
  cbn [fft_g1_fast_par]. set (half := len / 2).
  assert (Hh : half <= len) by (apply Nat.div_le_upper_bound; lia).
  destruct (0 <? half) eqn:Eh.
  - set (lo := fft_g1_fast_par fuel off half data (stride * 2) roots (rs * 2)).
    set (hi := bindp (liftc (slice_from data stride)) _).
    pose proof (IH off half data (stride * 2) roots (rs * 2)) as Hlo. fold lo in Hlo.
    assert (Hhi : implements (off + half) (len - half) hi
       (fun ret => let* data' := slice_from data stride in fft_g1_fast_ fuel ret data' (stride * 2) roots (rs * 2))).
    { apply imp_const. intros a _. apply IH. }
    eapply imp_ext.
    2:{ apply imp_seq; [|apply imp_fft_g1_butterflies].
        destruct (8 <? len).
        - apply (imp_join off len half lo hi _ _ Hh Hlo Hhi).
        - apply (imp_halves off len half lo hi _ _ Hh Hlo Hhi). }
    intros l Hl. cbn [fft_g1_fast_]. rewrite Hl. fold half. rewrite Eh.
    rewrite bind_assoc. destruct (fft_g1_fast_ fuel (firstn half l) data _ _ _) as [lo'| | |]; cbn [bind]; try reflexivity.
    destruct (slice_from data stride) as [data'| | |]; cbn [bind]; try reflexivity.
    rewrite bind_assoc. reflexivity.
  - eapply imp_ext.
    2:{ apply imp_const. intros d _. apply imp_wr. }
    intros l Hl. cbn [fft_g1_fast_]. rewrite Hl. fold half. now rewrite Eh.
Qed.

Lemma pure_fft_g1_fast : forall fuel (ret data : list M) stride roots rs,
  length ret < fuel -> pure (fft_g1_fast_ fuel ret data stride roots rs).
Proof.
  induction fuel as [|fuel IH]; intros ret data stride roots rs L; [lia|].
  cbn [fft_g1_fast_]. destruct (Nat.ltb_spec 0 (length ret / 2)) as [H|H]; [|pu].
  pose proof (Nat.div_lt (length ret) 2) as D.
  assert (0 < length ret) by (destruct (length ret); [cbn in H; lia|lia]).
  pu; apply IH; rewrite ?firstn_length, ?skipn_length; lia.
Qed.

Lemma nf_fft_g1 s (data : list M) inv : fft_g1 s data inv <> NoFuel.
Proof. unfold fft_g1. nf. apply pure_fft_g1_fast. rewrite repeat_length. lia. Qed.

Lemma runs_fft_g1 {V} s (data : list M) inv : @runs_as V _ (fft_g1_par s data inv) (fft_g1 s data inv).
Proof.
  unfold fft_g1_par, fft_g1. destruct (max_width s <? length data); [now apply runs_ret|].
  destruct (negb (is_pow2 (length data))); [now apply runs_ret|].
  cbv zeta. refine (runs_own (repeat g0 (length data)) _ _ (fun ret => fft_g1_fast ret data 1 _ _) _ _ _ _).
  - rewrite repeat_length. unfold fft_g1_fast. eapply imp_ext; [|apply imp_fft_g1_fast].
    intros l ->. reflexivity.
  - apply pure_fft_g1_fast. lia.
  - intros l'. destruct inv; [|now apply runs_ret].
    apply runs_bind; [apply runs_lift|]. intros _. now apply runs_ret.
Qed.

End G1.

(** ** [das_fft_extension] *)
Lemma imp_das_split (s : fft_settings K) off len half stride :
  implements off len (das_split_par s off len half stride) (das_split s half stride).
Proof.
  apply imp_for. intros i. split; [rf|split; [wi|]]. intros pre l post <- <-.
  rewrite run_rd_at. destruct (idx l i) as [a| | |]; cbn [bind]; try reflexivity.
  rewrite run_rd_at. destruct (idx l (half + i)) as [b| | |]; cbn [bind]; try reflexivity.
  rewrite run_liftc. destruct (idx (reverse_roots s) _) as [r| | |]; cbn [bind]; try reflexivity.
  rewrite run_wr_at. destruct (upd l (half + i) _) as [l1| | |] eqn:E1; cbn [bind]; try reflexivity.
  rewrite <- (upd_length _ _ _ _ E1).
  rewrite wr_last. destruct (upd l1 i _) as [l2| | |] eqn:E2; try reflexivity.
  split; [apply (upd_length _ _ _ _ E2)|reflexivity].
Qed.

Lemma imp_das_join (s : fft_settings K) off len half stride :
  implements off len (das_join_par s off len half stride) (das_join s half stride).
Proof.
  apply imp_for. intros i. split; [rf|split; [wi|]]. intros pre l post <- <-.
  rewrite run_rd_at. destruct (idx l i) as [a| | |]; cbn [bind]; try reflexivity.
  rewrite run_rd_at. destruct (idx l (half + i)) as [b| | |]; cbn [bind]; try reflexivity.
  rewrite run_liftc. destruct (idx (expanded_roots s) _) as [r| | |]; cbn [bind]; try reflexivity.
  rewrite run_wr_at. destruct (upd l i _) as [l1| | |] eqn:E1; cbn [bind]; try reflexivity.
  rewrite <- (upd_length _ _ _ _ E1).
  rewrite wr_last. destruct (upd l1 (half + i) _) as [l2| | |] eqn:E2; try reflexivity.
  split; [apply (upd_length _ _ _ _ E2)|reflexivity].
Qed.

Lemma imp_das_stride : forall fuel (s : fft_settings K) off len stride,
  implements off len (das_stride_par fuel s off len stride) (fun l => das_stride_ fuel s l stride).
Proof.
  induction fuel as [|fuel IH]; intros s off len stride.
  { split; [exact I|split; [exact I|]]. reflexivity. }
  cbn [das_stride_par]. destruct (len ?= 2) eqn:C.
  - split; [rf|split; [wi|]]. intros pre l post <- <-. cbn [das_stride_]. rewrite C.
    rewrite run_rd_at. destruct (idx l 0) as [a| | |]; cbn [bind]; try reflexivity.
    rewrite run_rd_at. destruct (idx l 1) as [b| | |]; cbn [bind]; try reflexivity.
    rewrite run_liftc. destruct (idx (expanded_roots s) _) as [r| | |]; cbn [bind]; try reflexivity.
    rewrite run_wr_at. destruct (upd l 0 _) as [l1| | |] eqn:E1; cbn [bind]; try reflexivity.
    rewrite <- (upd_length _ _ _ _ E1).
    rewrite wr_last. destruct (upd l1 1 _) as [l2| | |] eqn:E2; try reflexivity.
    split; [apply (upd_length _ _ _ _ E2)|reflexivity].
  - split; [exact I|split; [exact I|]]. intros pre l post <- <-. cbn [das_stride_]. rewrite C. split; reflexivity.
  - set (half := len / 2).
    assert (Hh : half <= len) by (apply Nat.div_le_upper_bound; lia).
    set (lo := das_stride_par fuel s off half (stride * 2)).
    set (hi := das_stride_par fuel s (off + half) (len - half) (stride * 2)).
    pose proof (IH s off half (stride * 2)) as Hlo. fold lo in Hlo.
    pose proof (IH s (off + half) (len - half) (stride * 2)) as Hhi. fold hi in Hhi.
    eapply imp_ext.
    2:{ apply imp_seq; [apply imp_das_split|]. apply imp_seq; [|apply imp_das_join].
        destruct (32 <? len).
        - apply (imp_join_swap off len half lo hi _ _ Hh Hlo Hhi).
        - apply (imp_halves off len half lo hi _ _ Hh Hlo Hhi). }
    intros l Hl. cbn [das_stride_]. rewrite Hl, C. fold half.
    destruct (das_split s half stride l) as [l1| | |]; cbn [bind]; try reflexivity.
    rewrite bind_assoc. destruct (das_stride_ fuel s (firstn half l1) _) as [lo'| | |]; cbn [bind]; try reflexivity.
    rewrite bind_assoc. reflexivity.
Qed.

Lemma upd_for_length {T} (body : nat -> list T -> res (list T)) a b l l' :
  (forall i x y, body i x = Ok y -> length y = length x) -> for_range a b body l = Ok l' -> length l' = length l.
Proof.
  intros H. unfold for_range. generalize (b - a) as n. intros n. revert a l.
  induction n as [|n IH]; intros a l; cbn [for_]; [congruence|]. intros E.
  apply bind_inv in E as (y & E1 & E2). rewrite (IH _ _ E2). eauto.
Qed.

Lemma pure_das_stride : forall fuel s (l : list K) stride, length l < fuel -> pure (das_stride_ fuel s l stride).
Proof.
  induction fuel as [|fuel IH]; intros s l stride L; [lia|]. cbn [das_stride_].
  destruct (Nat.compare_spec (length l) 2) as [H|H|H]; [pu|pu|].
  pose proof (Nat.div_lt (length l) 2) as D.
  assert (0 < length l / 2) by (apply Nat.div_str_pos; lia).
  apply pure_bind; [unfold das_split; pu|]. intros l1 E1.
  assert (L1 : length l1 = length l).
  { eapply upd_for_length; [|exact E1]. intros i x y E.
    repeat (apply bind_inv in E as (? & ? & E)). apply upd_length in E.
    repeat match goal with H : upd _ _ _ = Ok _ |- _ => apply upd_length in H end. congruence. }
  pu; [apply IH; rewrite firstn_length; lia|apply IH; rewrite skipn_length; lia|unfold das_join; pu].
Qed.

Lemma runs_das {V} s (evens : list K) : @runs_as V _ (das_fft_extension_par s evens) (das_fft_extension s evens).
Proof.
  unfold das_fft_extension_par, das_fft_extension.
  destruct (length evens =? 0); [now apply runs_ret|].
  destruct (negb (is_pow2 (length evens))); [now apply runs_ret|].
  destruct (max_width s <? length evens * 2); [now apply runs_ret|].
  cbv zeta. refine (runs_own evens _ _ (fun l => das_fft_extension_stride s l _) _ _ _ _).
  - unfold das_fft_extension_stride. eapply imp_ext; [|apply imp_das_stride]. intros l ->. reflexivity.
  - apply pure_das_stride. lia.
  - intros l'. now apply runs_ret.
Qed.
End Proofs.
