(** * Proof_ParBackends: the parallel code of the zkcrypto, Arkworks and mcl backends computes
    what the sequential code computes *)
From Coq Require Import List Arith Bool Lia NArith ZArith.
From Verif Require Import Base Fld Model_Utils Model_FFT Model_Das Model_Poly Model_ZeroPoly Model_Recovery Conc Model_Par
  Model_Scalar Model_Zk Model_ZkZero Model_ZkMsm Model_Ark Model_ArkZero Model_Mcl Model_MclPoly Model_MclZero
  Proof_Conc Proof_Zero1 Proof_Zero2 Proof_Par Proof_Par2 Model_ParBackends Zr.
Import ListNotations.

Local Ltac rf := repeat first [ apply race_free_bindp; [|intros ?] | apply race_free_rd_at | apply race_free_wr_at | apply race_free_liftc ].
Local Ltac wi := repeat first [ apply within_bindp; [|intros ?] | apply within_rd_at | apply within_wr_at | apply within_liftc ].

Lemma nf_std_next_pow2 n : std_next_pow2 n <> NoFuel.
Proof. unfold std_next_pow2. cbv zeta. destruct (64 <=? _)%N; discriminate. Qed.

Lemma nf_mcl_next n : mcl_next_pow_of_2 n <> NoFuel.
Proof.
  unfold mcl_next_pow_of_2, mcl_is_power_of_2. destruct (n =? 0)%N; [discriminate|]. cbn [bind].
  destruct (_ =? 0)%N; [discriminate|]. destruct (64 <=? _)%N; discriminate.
Qed.
Lemma nf_mcl_next_pow n : mcl_next_pow n <> NoFuel.
Proof. unfold mcl_next_pow. apply nf_bind; [apply nf_mcl_next|discriminate]. Qed.
Lemma nf_mcl_is_pow n : mcl_is_pow n <> NoFuel.
Proof. unfold mcl_is_pow, mcl_is_power_of_2. destruct (_ =? 0)%N; discriminate. Qed.


(** ** The sum of scalar multiples *)
Lemma pure_each {A S} (l : list A) (body : A -> S -> res S) : (forall x s, pure (body x s)) ->
  forall s, pure (for_each l body s).
Proof. intros H. induction l as [|x l IH]; intros s; cbn; [apply pure_Ok|]. apply pure_bind; auto. Qed.

Lemma pure_mapr {A B} (f : A -> res B) l : (forall x, pure (f x)) -> pure (mapr f l).
Proof. intros H. induction l as [|x l IH]; cbn; [apply pure_Ok|]. apply pure_bind; [auto|]. intros y _. pu. exact IH. Qed.

Lemma each_push {A B} (f : A -> res B) l : forall acc,
  for_each l (fun x sums => let* s := f x in Ok (sums ++ [s])) acc = let* vs := mapr f l in Ok (acc ++ vs).
Proof.
  induction l as [|x l IH]; intros acc; cbn; [now rewrite app_nil_r|].
  destruct (f x) as [y| | |]; cbn; try reflexivity. rewrite IH. destruct (mapr f l); cbn; try reflexivity.
  now rewrite <- app_assoc.
Qed.

Lemma mapr_idx {A B} (f : A -> res B) (l : list A) :
  mapr (fun i => let* x := idx l i in f x) (seq 0 (length l)) = mapr f l.
Proof.
  assert (H : forall pre, mapr (fun i => let* x := idx (pre ++ l) i in f x) (seq (length pre) (length l)) = mapr f l).
  { induction l as [|x l IH]; intros pre; cbn [length seq mapr]; [reflexivity|].
    unfold idx at 1. rewrite nth_error_app2, Nat.sub_diag by lia. cbn [nth_error bind].
    destruct (f x); cbn [bind]; try reflexivity.
    specialize (IH (pre ++ [x])). rewrite <- app_assoc in IH. cbn [app] in IH.
    rewrite app_length in IH. cbn [length] in IH. replace (length pre + 1) with (S (length pre)) in IH by lia.
    now rewrite IH. }
  exact (H []).
Qed.

Section Msm.
Context {M Sc : Type}.
Variables (zero : M) (add : M -> M -> M) (dbl : M -> M) (is_zero is_one : Sc -> bool) (digit : Sc -> nat -> nat -> res nat).
Hypothesis Hd : forall s w c, pure (digit s w c).

Lemma pure_window c pairs w : pure (msm_window zero add is_zero is_one digit c pairs w).
Proof.
  unfold msm_window. apply pure_bind.
  - apply pure_each. intros [s b] [r bs]. unfold msm_pair. destruct (is_zero s); [apply pure_Ok|].
    destruct (is_one s); [destruct (w =? 0); apply pure_Ok|].
    apply pure_bind; [apply Hd|]. intros d _. destruct (d =? 0); pu.
  - intros [r bs] _. apply pure_bind; [|intros; apply pure_Ok]. apply pure_each. intros b [x y]. apply pure_Ok.
Qed.

Theorem runs_msm {V} t points scalars :
  @runs_as V _ (msm_variable_base_par t zero add dbl is_zero is_one digit points scalars)
    (msm_variable_base zero add dbl is_zero is_one digit points scalars).
Proof.
  unfold msm_variable_base_par, msm_variable_base. cbv zeta.
  set (c := if length scalars <? 32 then _ else _). set (ws := step_by 255 c). set (pairs := combine scalars points).
  set (f := msm_window zero add is_zero is_one digit c pairs).
  rewrite (each_push f ws []).
  match goal with |- runs_as _ (bind _ ?g) => set (fin := g) end.
  assert (E : bind (let* vs := mapr f ws in Ok ([] ++ vs)) fin =
    let* l' := (let* vs := mapr (fun i => let* w_start := idx ws i in f w_start) (seq 0 (length ws)) in Ok (map Some vs)) in
    fin (flat_map (fun o => match o with Some x => [x] | None => [] end) l')).
  { rewrite mapr_idx. destruct (mapr f ws); cbn [bind]; try reflexivity. now rewrite somes_map. }
  rewrite E. clear E.
  refine (runs_own (repeat None (length ws)) _ _ (fun _ => let* vs := mapr (fun i => let* w_start := idx ws i in f w_start) (seq 0 (length ws)) in Ok (map Some vs)) _ _ _ _).
  - rewrite repeat_length. apply imp_collect.
  - apply pure_bind; [|intros; apply pure_Ok]. apply pure_mapr. intros i. apply pure_bind; [apply pure_idx|].
    intros w _. apply pure_window.
  - intros l'. apply runs_lift.
Qed.
End Msm.

Section Proofs.
Context {K : fld}.

(** ** zkcrypto *)
Lemma nf_zk_fft_fr s (data : list K) inv : zk_fft_fr s data inv <> NoFuel.
Proof.
  unfold zk_fft_fr. cbv zeta. nf; first [apply pure_fft_fr_fast; lia|unfold zkf_inverse; nf].
Qed.

Theorem runs_zk_fft_fr {V} s (data : list K) inv : @runs_as V _ (zk_fft_fr_par s data inv) (zk_fft_fr s data inv).
Proof.
  unfold zk_fft_fr_par, zk_fft_fr. destruct (max_width s <? length data); [now apply runs_ret|].
  destruct (negb (zk_is_pow2 (length data))); [now apply runs_ret|].
  cbv zeta. refine (runs_own (repeat f0 (length data)) _ _ (fun ret => fft_fr_fast ret data 1 _ _) _ _ _ _).
  - rewrite repeat_length. unfold fft_fr_fast. eapply imp_ext; [|apply imp_fft_fr_fast].
    intros l ->. reflexivity.
  - apply pure_fft_fr_fast. lia.
  - intros l'. destruct inv; [|now apply runs_ret].
    apply runs_bind; [apply runs_lift|]. intros il. now apply runs_ret.
Qed.
Lemma runs_zk_ufft {V} s (data : list K) inv : @runs_as_c V _ (unwrapc (zk_fft_fr_par s data inv)) (zk_fft_fr s data inv).
Proof. apply runs_unwrapc, runs_zk_fft_fr. Qed.

Theorem runs_zk_das {V} s (val : list K) : @runs_as V _ (zk_das_par s val) (zk_das_fft_extension s val).
Proof.
  unfold zk_das_par, zk_das_fft_extension.
  destruct (length val =? 0); [now apply runs_ret|].
  destruct (negb (std_is_pow2 (length val))); [now apply runs_ret|].
  destruct (max_width s <? length val * 2); [now apply runs_ret|].
  cbv zeta. refine (runs_own val _ _ (fun l => das_fft_extension_stride s l _) _ _ _ _).
  - unfold das_fft_extension_stride. eapply imp_ext; [|apply imp_das_stride]. intros l ->. reflexivity.
  - apply pure_das_stride. lia.
  - intros l'. apply runs_bind; [apply runs_lift|]. intros invlen.
    refine (runs_own [] _ _ (fun l => das_fft_extension_stride s l _) _ _ _ _).
    + unfold das_fft_extension_stride. eapply imp_ext; [|apply imp_das_stride]. intros l ->. reflexivity.
    + apply pure_das_stride. lia.
    + intros odds. apply runs_lift.
Qed.

Theorem runs_zk_mul_fft {V} (table : list K) out a b :
  @runs_as V _ (zk_mul_fft_par table out a b) (zk_poly_mul_fft table out a b).
Proof.
  unfold zk_mul_fft_par, zk_poly_mul_fft. rb. cbv zeta. rb.
  match goal with |- context [Fork _ _ ?k] => set (rest := k) end.
  match goal with |- runs_as _ (let* x := _ in let* y := _ in @?g x y) =>
    assert (HR : forall x y, runs_as (rest x y) (g x y)) end.
  { intros x y. unfold rest. cbv beta. rb.
    apply runs_bind_c; [apply runs_zk_ufft|apply nf_zk_fft_fr|]. intros ab. rb. now apply runs_ret. }
  destruct (1024 <? a1).
  - apply runs_fork_c; try apply runs_zk_ufft; try apply nf_zk_fft_fr. exact HR.
  - apply runs_bind_c; [apply runs_zk_ufft|apply nf_zk_fft_fr|]. intros x.
    apply runs_bind_c; [apply runs_zk_ufft|apply nf_zk_fft_fr|]. intros y. apply HR.
Qed.

Lemma nf_zk_pad (p : list K) n : zk_pad p n <> NoFuel.
Proof. unfold zk_pad. cbv zeta. nf. Qed.

Lemma runs_zk_reduce {V} s len (ps : list (list K)) :
  @runs_as V _ (zk_reduce_partials_par s len ps) (zk_reduce_partials s len ps).
Proof.
  unfold zk_reduce_partials_par, zk_reduce_partials. rb. destruct (negb (zk_is_pow2 len)); [now apply runs_ret|].
  destruct (len <? a + 1); [now apply runs_ret|]. rb.
  apply runs_bind_c; [apply runs_zk_ufft|apply nf_zk_fft_fr|]. intros ev.
  apply runs_bind.
  - apply runs_forr. intros i st. rb. apply runs_bind_c; [apply runs_zk_ufft|apply nf_zk_fft_fr|]. intros e. apply runs_lift.
  - intros ev'. apply runs_bind_c; [apply runs_zk_ufft|apply nf_zk_fft_fr|]. intros co. apply runs_lift.
Qed.

Lemma nf_zk_reduce s len (ps : list (list K)) : zk_reduce_partials s len ps <> NoFuel.
Proof. unfold zk_reduce_partials. nf; first [apply nf_zk_pad|apply nf_zk_fft_fr]. Qed.

Lemma runs_zk_group {V} (s : fft_settings K) dom ceil count size i st :
  @runs_as V _ (zk_zp_group_par s dom ceil count size i st) (zk_zp_group s dom ceil count size i st).
Proof.
  destruct st as [[work lens] offsets]. unfold zk_zp_group_par, zk_zp_group. cbv zeta. rb.
  destruct a2 as [offs pv]. destruct (1 <? Nat.min 4 a0).
  - apply runs_bind; [apply runs_zk_reduce|]. intros red. apply runs_lift.
  - apply runs_lift.
Qed.
Lemma nf_zk_group (s : fft_settings K) dom ceil count size i st : zk_zp_group s dom ceil count size i st <> NoFuel.
Proof.
  destruct st as [[work lens] offs]. unfold zk_zp_group. cbv zeta.
  nf; first [apply nf_zp_views|apply nf_zk_reduce|apply nf_zk_pad].
Qed.

Lemma runs_zk_level {V} (s : fft_settings K) dom ceil st :
  @runs_as V _ (zk_zp_level_par s dom ceil st) (zk_zp_level s dom ceil st).
Proof.
  destruct st as [count [[work lens] offsets]]. unfold zk_zp_level_par, zk_zp_level. cbv zeta. rb.
  apply runs_bind; [apply runs_forr; intros; apply runs_zk_group|]. intros wlo. now apply runs_ret.
Qed.
Lemma nf_zk_level (s : fft_settings K) dom ceil st : zk_zp_level s dom ceil st <> NoFuel.
Proof.
  destruct st as [count [[work lens] offs]]. unfold zk_zp_level. cbv zeta.
  nf; first [apply nf_std_next_pow2|apply nf_zk_group].
Qed.

Lemma nf_zk_partial (s : fft_settings K) idxs stride : zk_zero_partial s idxs stride <> NoFuel.
Proof.
  unfold zk_zero_partial. cbv zeta. nf. unfold zk_zero_step. nf. apply zero_inner_shape.
Qed.

Lemma runs_zk_tree {V} (s : fft_settings K) dom ceil count stride missing :
  @runs_as V _ (zk_zp_tree_par s dom ceil count stride missing) (zk_zp_tree s dom ceil count stride missing).
Proof.
  unfold zk_zp_tree_par, zk_zp_tree. rb. destruct a0 as [[work lens] offs]. rb.
  apply runs_bind; [apply runs_whiler; intros; apply runs_zk_level|].
  intros [c [[w l] o]]. now apply runs_ret.
Qed.
Lemma nf_zk_tree (s : fft_settings K) dom ceil count stride missing : zk_zp_tree s dom ceil count stride missing <> NoFuel.
Proof.
  unfold zk_zp_tree. apply nf_bind; [apply nf_std_next_pow2|]. intros wl _. apply nf_bind.
  { unfold zk_zp_partials. apply nf_bind; [|intros [[[[? ?] ?] ?] ?] _; discriminate].
    apply nf_for. intros i [[[[? ?] ?] ?] ?]. cbv zeta. nf; first [apply nf_zk_partial|apply nf_zk_pad]. }
  intros [[work lens] offs] _. nf.
  - apply (nf_while fst).
    + intros st. apply nf_zk_level.
    + intros [c [[w l] o]] st' Hc E. cbn [fst] in Hc |- *. apply Nat.ltb_lt in Hc.
      unfold zk_zp_level in E. apply bind_inv in E as (l0 & _ & E). apply bind_inv in E as (sz & _ & E).
      apply bind_inv in E as (wlo & _ & E). apply Ok_inj in E. subst st'. cbn [fst].
      pose proof (Nat.div_lt (c - 1) 4 ltac:(lia) ltac:(lia)). lia.
    + cbn [fst]. lia.
Qed.

Theorem runs_zk_zero_poly {V} (s : fft_settings K) len missing :
  @runs_as V _ (zk_zero_poly_par s len missing) (zk_zero_poly s len missing).
Proof.
  unfold zk_zero_poly_par, zk_zero_poly.
  destruct (length missing =? 0); [now apply runs_ret|].
  destruct (len <=? length missing); [now apply runs_ret|].
  destruct (max_width s <? len); [now apply runs_ret|].
  destruct (negb (std_is_pow2 len)); [now apply runs_ret|]. cbv zeta. rb.
  apply runs_bind.
  - destruct (length missing <=? 63); [apply runs_lift|]. apply runs_zk_tree.
  - intros zp. rb. apply runs_bind; [apply runs_zk_fft_fr|]. intros ze. now apply runs_ret.
Qed.
Lemma nf_zk_zero_poly (s : fft_settings K) len missing : zk_zero_poly s len missing <> NoFuel.
Proof.
  unfold zk_zero_poly. cbv zeta.
  nf; first [apply nf_std_next_pow2|apply nf_zk_partial|apply nf_zk_tree|apply nf_zk_pad|apply nf_zk_fft_fr].
Qed.

(** ** Arkworks *)
Section G1.
Context {M : gmod K}.

Lemma imp_ark_copy off len (data : list M) :
  implements off len (ark_copy_par off len data) (for_range 0 len (fun i ret => let* d := idx data i in upd ret i d)).
Proof. apply imp_for. intros i. apply imp_const. intros d _. apply imp_wr. Qed.

Lemma imp_ark_fft_g1_fast : forall fuel off len (data : list M) stride (roots : list K) rs,
  implements off len (ark_fft_g1_fast_par fuel off len data stride roots rs)
    (fun ret => ark_fft_g1_fast_ fuel ret data stride roots rs).
Proof.
  induction fuel as [|fuel IH]; intros off len data stride roots rs.
  { split; [exact I|split; [exact I|]]. reflexivity. }
  cbn [ark_fft_g1_fast_par]. set (half := len / 2).
  assert (Hh : half <= len) by (apply Nat.div_le_upper_bound; lia).
  destruct (0 <? half) eqn:Eh.
  - set (lo := ark_fft_g1_fast_par fuel off half data (stride * 2) roots (rs * 2)).
    set (hi := bindp (liftc (slice_from data stride)) _).
    pose proof (IH off half data (stride * 2) roots (rs * 2)) as Hlo. fold lo in Hlo.
    assert (Hhi : implements (off + half) (len - half) hi
       (fun ret => let* data' := slice_from data stride in ark_fft_g1_fast_ fuel ret data' (stride * 2) roots (rs * 2))).
    { apply imp_const. intros a _. apply IH. }
    eapply imp_ext.
    2:{ apply imp_seq; [|apply imp_fft_g1_butterflies].
        destruct (8 <? len).
        - apply (imp_join_swap off len half lo hi _ _ Hh Hlo Hhi).
        - apply (imp_halves off len half lo hi _ _ Hh Hlo Hhi). }
    intros l Hl. cbn [ark_fft_g1_fast_]. rewrite Hl. fold half. rewrite Eh.
    rewrite bind_assoc. destruct (ark_fft_g1_fast_ fuel (firstn half l) data _ _ _) as [lo'| | |]; cbn [bind]; try reflexivity.
    destruct (slice_from data stride) as [data'| | |]; cbn [bind]; try reflexivity.
    rewrite bind_assoc. reflexivity.
  - eapply imp_ext; [|apply imp_ark_copy].
    intros l Hl. cbn [ark_fft_g1_fast_]. rewrite Hl. fold half. now rewrite Eh.
Qed.

Lemma pure_ark_fft_g1_fast : forall fuel (ret data : list M) stride roots rs,
  length ret < fuel -> pure (ark_fft_g1_fast_ fuel ret data stride roots rs).
Proof.
  induction fuel as [|fuel IH]; intros ret data stride roots rs L; [lia|].
  cbn [ark_fft_g1_fast_]. destruct (Nat.ltb_spec 0 (length ret / 2)) as [H|H]; [|pu].
  pose proof (Nat.div_lt (length ret) 2) as D.
  assert (0 < length ret) by (destruct (length ret); [cbn in H; lia|lia]).
  pu; apply IH; rewrite ?firstn_length, ?skipn_length; lia.
Qed.

Theorem runs_ark_fft_g1 {V} s (data : list M) inv : @runs_as V _ (ark_fft_g1_par s data inv) (ark_fft_g1 s data inv).
Proof.
  unfold ark_fft_g1_par, ark_fft_g1. destruct (max_width s <? length data); [now apply runs_ret|].
  destruct (negb (std_is_pow2 (length data))); [now apply runs_ret|]. cbv zeta.
  assert (H : forall roots stride, implements 0 (length (repeat (@g0 _ M) (length data)))
     (ark_fft_g1_fast_par (S (length data)) 0 (length data) data 1 roots stride)
     (fun ret => ark_fft_g1_fast ret data 1 roots stride)).
  { intros roots stride. rewrite repeat_length. unfold ark_fft_g1_fast. eapply imp_ext; [|apply imp_ark_fft_g1_fast].
    intros l ->. reflexivity. }
  destruct inv.
  - rb. refine (runs_own (repeat g0 (length data)) _ _ (fun ret => ark_fft_g1_fast ret data 1 _ _) _ (H _ _) _ _).
    + apply pure_ark_fft_g1_fast. lia.
    + intros l'. now apply runs_ret.
  - match goal with |- runs_as _ ?r => replace r with (let* out := r in Ok out) by (destruct r; reflexivity) end.
    refine (runs_own (repeat g0 (length data)) _ _ (fun ret => ark_fft_g1_fast ret data 1 _ _) _ (H _ _) _ _).
    + apply pure_ark_fft_g1_fast. lia.
    + intros l'. now apply runs_ret.
Qed.
End G1.

Theorem runs_ark_das {V} s (vals : list K) : @runs_as V _ (ark_das_par s vals) (ark_das_fft_extension s vals).
Proof.
  unfold ark_das_par, ark_das_fft_extension.
  destruct (length vals =? 0); [now apply runs_ret|].
  destruct (negb (std_is_pow2 (length vals))); [now apply runs_ret|].
  destruct (max_width s <? length vals * 2); [now apply runs_ret|].
  cbv zeta. refine (runs_own vals _ _ (fun l => das_fft_extension_stride s l _) _ _ _ _).
  - unfold das_fft_extension_stride. eapply imp_ext; [|apply imp_das_stride]. intros l ->. reflexivity.
  - apply pure_das_stride. lia.
  - intros l'. rb. now apply runs_ret.
Qed.

Lemma nf_ark_fft_fr (W : K) s data inv : ark_fft_fr W s data inv <> NoFuel.
Proof. unfold ark_fft_fr, dom_log. cbv zeta. nf. Qed.

Theorem runs_ark_mul_fft {V} (W : K) a b fs len :
  @runs_as V _ (ark_mul_fft_par W a b fs len) (ark_mul_fft W a b fs len).
Proof.
  unfold ark_mul_fft_par, ark_mul_fft. cbv zeta. rb. destruct (max_width _ <? _); [now apply runs_ret|]. rb.
  match goal with |- context [Fork _ _ ?k] => set (rest := k) end.
  match goal with |- runs_as _ (let* x := _ in let* y := _ in @?g x y) =>
    assert (HR : forall x y, runs_as (rest x y) (g x y)) end.
  { intros x y. unfold rest. cbv beta. apply runs_lift. }
  destruct (1024 <? _).
  - apply runs_fork_c; try apply runs_liftc; try apply nf_ark_fft_fr. exact HR.
  - apply runs_bind_c; [apply runs_liftc|apply nf_ark_fft_fr|]. intros x.
    apply runs_bind_c; [apply runs_liftc|apply nf_ark_fft_fr|]. intros y. apply HR.
Qed.

(** ** mcl *)
Lemma imp_mcl_simple off len values offset stride (roots : list K) rs :
  implements off len (mcl_simple_fft_par off len values offset stride roots rs)
    (mcl_simple_fft values offset stride roots rs).
Proof.
  eapply imp_ext.
  2:{ apply imp_const. intros v0 _. apply imp_const. intros r0 _. apply imp_for. intros i.
      apply imp_const. intros last _. apply imp_wr. }
  intros l Hl. unfold mcl_simple_fft. cbv zeta. rewrite Hl. reflexivity.
Qed.

Lemma imp_mcl_butterfly off len half (roots : list K) rs :
  implements off len (mcl_butterfly_par off len roots rs half) (mcl_butterfly roots rs half).
Proof.
  apply imp_for. intros i. split; [rf|split; [wi|]]. intros pre l post <- <-.
  rewrite run_liftc. destruct (idx roots (i * rs)) as [r| | |]; cbn [bind]; try reflexivity.
  rewrite run_rd_at. destruct (idx l (i + half)) as [y| | |]; cbn [bind]; try reflexivity.
  rewrite run_rd_at. destruct (idx l i) as [x| | |]; cbn [bind]; try reflexivity.
  rewrite run_wr_at. destruct (upd l (i + half) _) as [l1| | |] eqn:E1; cbn [bind]; try reflexivity.
  rewrite <- (upd_length _ _ _ _ E1).
  rewrite run_rd_at. destruct (idx l1 i) as [x'| | |]; cbn [bind]; try reflexivity.
  rewrite wr_last. destruct (upd l1 i _) as [l2| | |] eqn:E2; try reflexivity.
  split; [apply (upd_length _ _ _ _ E2)|reflexivity].
Qed.

Lemma imp_mcl_fft : forall fuel off len values offset stride (roots : list K) rs,
  implements off len (mcl_fft_rec_par fuel off len values offset stride roots rs)
    (mcl_fft_ fuel values offset stride roots rs).
Proof.
  induction fuel as [|fuel IH]; intros off len values offset stride roots rs.
  { split; [exact I|split; [exact I|]]. reflexivity. }
  cbn [mcl_fft_rec_par]. destruct (len <=? 4) eqn:E4.
  { eapply imp_ext; [|apply imp_mcl_simple]. intros l Hl. cbn [mcl_fft_]. now rewrite Hl, E4. }
  set (half := len / 2).
  assert (Hh : half <= len) by (apply Nat.div_le_upper_bound; lia).
  set (lo := mcl_fft_rec_par fuel off half _ _ _ _ _). set (hi := mcl_fft_rec_par fuel (off + half) _ _ _ _ _ _).
  pose proof (IH off half values offset (stride * 2) roots (rs * 2)) as Hlo. fold lo in Hlo.
  pose proof (IH (off + half) (len - half) values (offset + stride) (stride * 2) roots (rs * 2)) as Hhi. fold hi in Hhi.
  eapply imp_ext.
  2:{ apply imp_seq; [|apply imp_mcl_butterfly].
      destruct (256 <? half).
      - apply (imp_join off len half lo hi _ _ Hh Hlo Hhi).
      - apply (imp_halves off len half lo hi _ _ Hh Hlo Hhi). }
  intros l Hl. cbn [mcl_fft_]. rewrite Hl, E4. fold half.
  rewrite bind_assoc. destruct (mcl_fft_ fuel _ _ _ _ _ (firstn half l)) as [lo'| | |]; cbn [bind]; try reflexivity.
  rewrite bind_assoc. reflexivity.
Qed.

Lemma pure_mcl_fft : forall fuel values offset stride (roots : list K) rs out,
  length out < fuel -> pure (mcl_fft_ fuel values offset stride roots rs out).
Proof.
  induction fuel as [|fuel IH]; intros values offset stride roots rs out L; [lia|].
  cbn [mcl_fft_]. destruct (Nat.leb_spec (length out) 4); [unfold mcl_simple_fft; pu|].
  pose proof (Nat.div_lt (length out) 2) as D.
  assert (0 < length out / 2) by (apply Nat.div_str_pos; lia).
  pu; [apply IH; rewrite firstn_length; lia|apply IH; rewrite skipn_length; lia|unfold mcl_butterfly; pu].
Qed.

Theorem runs_mcl_fft {V} s (values : list K) inv : @runs_as V _ (mcl_fft_par s values inv) (mcl_fft s values inv).
Proof.
  unfold mcl_fft_par, mcl_fft. destruct (max_width s <? length values); [now apply runs_ret|]. rb.
  unfold mcl_inplace_fft_par, mcl_inplace_fft. set (vs := values ++ _). clearbody vs.
  destruct (length vs =? 0); [split; [exact I|split; [exact I|reflexivity]]|]. cbv zeta.
  refine (runs_own (repeat f0 (length vs)) _ _ (fun out => mcl_fft_ (S (length out)) vs 0 1 _ _ out) _ _ _ _).
  - rewrite repeat_length. eapply imp_ext; [|apply imp_mcl_fft]. intros l ->. reflexivity.
  - apply pure_mcl_fft. lia.
  - intros l'. destruct inv; now apply runs_ret.
Qed.
Lemma runs_mcl_ufft {V} s (data : list K) inv : @runs_as_c V _ (unwrapc (mcl_fft_par s data inv)) (mcl_fft s data inv).
Proof. apply runs_unwrapc, runs_mcl_fft. Qed.
Lemma nf_mcl_fft s (values : list K) inv : mcl_fft s values inv <> NoFuel.
Proof.
  unfold mcl_fft, mcl_inplace_fft. cbv zeta. nf; try apply nf_mcl_next; apply pure_mcl_fft; lia.
Qed.

Section MclG1.
Context {M : gmod K}.

Lemma imp_mcl_simple_g1 off len (values : list M) offset stride (roots : list K) rs :
  implements off len (mcl_simple_fft_g1_par off len values offset stride roots rs)
    (mcl_simple_fft_g1 values offset stride roots rs).
Proof.
  eapply imp_ext.
  2:{ apply imp_for. intros i. apply imp_const. intros last _. apply imp_wr. }
  intros l Hl. unfold mcl_simple_fft_g1. cbv zeta. rewrite Hl.
  unfold for_range at 1 3. apply for_ext. intros i out Hi.
  destruct (idx values offset) as [v0| | |]; cbn [bind]; try reflexivity.
  destruct (idx roots 0) as [r0| | |]; reflexivity.
Qed.

Lemma imp_mcl_butterfly_g1 off len half (roots : list K) rs :
  implements off len (mcl_butterfly_g1_par off len roots rs half) (@mcl_butterfly_g1 K M roots rs half).
Proof.
  apply imp_for. intros i. split; [rf|split; [wi|]]. intros pre l post <- <-.
  rewrite run_rd_at. destruct (idx l i) as [x| | |]; cbn [bind]; try reflexivity.
  rewrite run_rd_at. destruct (idx l (i + half)) as [y| | |]; cbn [bind]; try reflexivity.
  rewrite run_liftc. destruct (idx roots (i * rs)) as [r| | |]; cbn [bind]; try reflexivity.
  rewrite run_wr_at. destruct (upd l i _) as [l1| | |] eqn:E1; cbn [bind]; try reflexivity.
  rewrite <- (upd_length _ _ _ _ E1).
  rewrite wr_last. destruct (upd l1 (i + half) _) as [l2| | |] eqn:E2; try reflexivity.
  split; [apply (upd_length _ _ _ _ E2)|reflexivity].
Qed.

Lemma imp_mcl_fft_g1 : forall fuel off len (values : list M) offset stride (roots : list K) rs,
  implements off len (mcl_fft_g1_rec_par fuel off len values offset stride roots rs)
    (mcl_fft_g1_ fuel values offset stride roots rs).
Proof.
  induction fuel as [|fuel IH]; intros off len values offset stride roots rs.
  { split; [exact I|split; [exact I|]]. reflexivity. }
  cbn [mcl_fft_g1_rec_par]. destruct (len <=? 4) eqn:E4.
  { eapply imp_ext; [|apply imp_mcl_simple_g1]. intros l Hl. cbn [mcl_fft_g1_]. now rewrite Hl, E4. }
  set (half := len / 2).
  assert (Hh : half <= len) by (apply Nat.div_le_upper_bound; lia).
  set (lo := mcl_fft_g1_rec_par fuel off half _ _ _ _ _). set (hi := mcl_fft_g1_rec_par fuel (off + half) _ _ _ _ _ _).
  pose proof (IH off half values offset (stride * 2) roots (rs * 2)) as Hlo. fold lo in Hlo.
  pose proof (IH (off + half) (len - half) values (offset + stride) (stride * 2) roots (rs * 2)) as Hhi. fold hi in Hhi.
  eapply imp_ext.
  2:{ apply imp_seq; [|apply imp_mcl_butterfly_g1]. apply (imp_join off len half lo hi _ _ Hh Hlo Hhi). }
  intros l Hl. cbn [mcl_fft_g1_]. rewrite Hl, E4. fold half.
  rewrite bind_assoc. destruct (mcl_fft_g1_ fuel _ _ _ _ _ (firstn half l)) as [lo'| | |]; cbn [bind]; try reflexivity.
  rewrite bind_assoc. reflexivity.
Qed.

Lemma pure_mcl_fft_g1 : forall fuel (values : list M) offset stride (roots : list K) rs out,
  length out < fuel -> pure (mcl_fft_g1_ fuel values offset stride roots rs out).
Proof.
  induction fuel as [|fuel IH]; intros values offset stride roots rs out L; [lia|].
  cbn [mcl_fft_g1_]. destruct (Nat.leb_spec (length out) 4); [unfold mcl_simple_fft_g1; pu|].
  pose proof (Nat.div_lt (length out) 2) as D.
  assert (0 < length out / 2) by (apply Nat.div_str_pos; lia).
  pu; [apply IH; rewrite firstn_length; lia|apply IH; rewrite skipn_length; lia|unfold mcl_butterfly_g1; pu].
Qed.

Theorem runs_mcl_fft_g1 {V} s (values : list M) inv : @runs_as V _ (mcl_fft_g1_par s values inv) (mcl_fft_g1 s values inv).
Proof.
  unfold mcl_fft_g1_par, mcl_fft_g1. destruct (max_width s <? length values); [now apply runs_ret|]. rb.
  destruct (negb a); [now apply runs_ret|].
  destruct (length values =? 0); [split; [exact I|split; [exact I|reflexivity]]|]. cbv zeta.
  refine (runs_own (repeat g0 (length values)) _ _ (fun out => mcl_fft_g1_ (S (length out)) values 0 1 _ _ out) _ _ _ _).
  - rewrite repeat_length. eapply imp_ext; [|apply imp_mcl_fft_g1]. intros l ->. reflexivity.
  - apply pure_mcl_fft_g1. lia.
  - intros l'. destruct inv; now apply runs_ret.
Qed.
End MclG1.

Lemma imp_mcl_das_split (s : fft_settings K) off len half stride :
  implements off len (mcl_das_split_par s off len half stride) (mcl_das_split s half stride).
Proof.
  apply imp_for. intros i. split; [rf|split; [wi|]]. intros pre l post <- <-.
  rewrite run_rd_at. destruct (idx l i) as [a| | |]; cbn [bind]; try reflexivity.
  rewrite run_rd_at. destruct (idx l (half + i)) as [b| | |]; cbn [bind]; try reflexivity.
  rewrite run_liftc. destruct (idx (reverse_roots s) _) as [r| | |]; cbn [bind]; try reflexivity.
  rewrite run_wr_at. destruct (upd l (half + i) _) as [l1| | |] eqn:E1; cbn [bind]; try reflexivity.
  rewrite <- (upd_length _ _ _ _ E1).
  rewrite wr_last. destruct (upd l1 i _) as [l2| | |] eqn:E2; try reflexivity.
  split; [apply (upd_length _ _ _ _ E2)|reflexivity].
Qed.

Lemma imp_mcl_das_join (s : fft_settings K) off len half stride :
  implements off len (mcl_das_join_par s off len half stride) (mcl_das_join s half stride).
Proof.
  apply imp_for. intros i. split; [rf|split; [wi|]]. intros pre l post <- <-.
  rewrite run_liftc. destruct (idx (expanded_roots s) _) as [r| | |]; cbn [bind]; try reflexivity.
  rewrite run_rd_at. destruct (idx l (half + i)) as [b| | |]; cbn [bind]; try reflexivity.
  rewrite run_rd_at. destruct (idx l i) as [a| | |]; cbn [bind]; try reflexivity.
  rewrite run_wr_at. destruct (upd l i _) as [l1| | |] eqn:E1; cbn [bind]; try reflexivity.
  rewrite <- (upd_length _ _ _ _ E1).
  rewrite wr_last. destruct (upd l1 (i + half) _) as [l2| | |] eqn:E2; try reflexivity.
  split; [apply (upd_length _ _ _ _ E2)|reflexivity].
Qed.

Lemma imp_mcl_das : forall fuel (s : fft_settings K) off len stride,
  implements off len (mcl_das_rec_par fuel s off len stride) (fun l => mcl_das_ fuel s l stride).
Proof.
  induction fuel as [|fuel IH]; intros s off len stride.
  { split; [exact I|split; [exact I|]]. reflexivity. }
  cbn [mcl_das_rec_par]. destruct (len <? 2) eqn:E2.
  { split; [exact I|split; [exact I|]]. intros pre l post <- <-. cbn [mcl_das_]. rewrite E2. split; reflexivity. }
  destruct (len =? 2) eqn:C.
  - split; [rf|split; [wi|]]. intros pre l post <- <-. cbn [mcl_das_]. rewrite E2, C.
    rewrite run_rd_at. destruct (idx l 0) as [a| | |]; cbn [bind]; try reflexivity.
    rewrite run_rd_at. destruct (idx l 1) as [b| | |]; cbn [bind]; try reflexivity.
    rewrite run_liftc. destruct (idx (expanded_roots s) _) as [r| | |]; cbn [bind]; try reflexivity.
    rewrite run_wr_at. destruct (upd l 0 _) as [l1| | |] eqn:E1; cbn [bind]; try reflexivity.
    rewrite <- (upd_length _ _ _ _ E1).
    rewrite wr_last. destruct (upd l1 1 _) as [l2| | |] eqn:E3; try reflexivity.
    split; [apply (upd_length _ _ _ _ E3)|reflexivity].
  - set (half := len / 2).
    assert (Hh : half <= len) by (apply Nat.div_le_upper_bound; lia).
    set (lo := mcl_das_rec_par fuel s off half (stride * 2)).
    set (hi := mcl_das_rec_par fuel s (off + half) (len - half) (stride * 2)).
    pose proof (IH s off half (stride * 2)) as Hlo. fold lo in Hlo.
    pose proof (IH s (off + half) (len - half) (stride * 2)) as Hhi. fold hi in Hhi.
    eapply imp_ext.
    2:{ apply imp_seq; [apply imp_mcl_das_split|]. apply imp_seq; [|apply imp_mcl_das_join].
        destruct (32 <? len).
        - apply (imp_join_swap off len half lo hi _ _ Hh Hlo Hhi).
        - apply (imp_halves off len half lo hi _ _ Hh Hlo Hhi). }
    intros l Hl. cbn [mcl_das_]. rewrite Hl, E2, C. fold half.
    destruct (mcl_das_split s half stride l) as [l1| | |]; cbn [bind]; try reflexivity.
    rewrite bind_assoc. destruct (mcl_das_ fuel s (firstn half l1) _) as [lo'| | |]; cbn [bind]; try reflexivity.
    rewrite bind_assoc. reflexivity.
Qed.

Lemma pure_mcl_das : forall fuel s (l : list K) stride, length l < fuel -> pure (mcl_das_ fuel s l stride).
Proof.
  induction fuel as [|fuel IH]; intros s l stride L; [lia|]. cbn [mcl_das_].
  destruct (Nat.ltb_spec (length l) 2); [pu|]. destruct (Nat.eqb_spec (length l) 2); [pu|].
  pose proof (Nat.div_lt (length l) 2) as D.
  assert (0 < length l / 2) by (apply Nat.div_str_pos; lia).
  apply pure_bind; [unfold mcl_das_split; pu|]. intros l1 E1.
  assert (L1 : length l1 = length l).
  { eapply upd_for_length; [|exact E1]. intros i x y E.
    repeat (apply bind_inv in E as (? & ? & E)). apply upd_length in E.
    repeat match goal with H : upd _ _ _ = Ok _ |- _ => apply upd_length in H end. congruence. }
  pu; [apply IH; rewrite firstn_length; lia|apply IH; rewrite skipn_length; lia|unfold mcl_das_join; pu].
Qed.

Theorem runs_mcl_das {V} s (values : list K) : @runs_as V _ (mcl_das_par s values) (mcl_das_fft_extension s values).
Proof.
  unfold mcl_das_par, mcl_das_fft_extension.
  destruct (length values =? 0); [now apply runs_ret|]. rb. destruct (negb a); [now apply runs_ret|].
  destruct (max_width s <? length values * 2); [now apply runs_ret|].
  cbv zeta. refine (runs_own values _ _ (fun l => mcl_das_ (S (length l)) s l _) _ _ _ _).
  - eapply imp_ext; [|apply imp_mcl_das]. intros l ->. reflexivity.
  - apply pure_mcl_das. lia.
  - intros l'. now apply runs_ret.
Qed.

Theorem runs_mcl_mul_fft {V} (pr5 : list K) a b ft len :
  @runs_as V _ (mcl_mul_fft_par pr5 a b ft len) (mcl_mul_fft pr5 a b ft len).
Proof.
  unfold mcl_mul_fft_par, mcl_mul_fft. cbv zeta. rb. destruct (max_width _ <? _); [now apply runs_ret|].
  match goal with |- context [Fork _ _ ?k] => set (rest := k) end.
  match goal with |- runs_as _ (let* x := _ in let* y := _ in @?g x y) =>
    assert (HR : forall x y, runs_as (rest x y) (g x y)) end.
  { intros x y. unfold rest. cbv beta. rb.
    apply runs_bind_c; [apply runs_mcl_ufft|apply nf_mcl_fft|]. intros ab. now apply runs_ret. }
  destruct (1024 <? _).
  - apply runs_fork_c; try apply runs_mcl_ufft; try apply nf_mcl_fft. exact HR.
  - apply runs_bind_c; [apply runs_mcl_ufft|apply nf_mcl_fft|]. intros x.
    apply runs_bind_c; [apply runs_mcl_ufft|apply nf_mcl_fft|]. intros y. apply HR.
Qed.

Lemma nf_mcl_pad_poly n (p : list K) : mcl_pad_poly n p <> NoFuel.
Proof. unfold mcl_pad_poly. nf. Qed.

Lemma runs_mcl_reduce {V} s len (ps : list (list K)) :
  @runs_as V _ (mcl_reduce_partials_par s len ps) (mcl_reduce_partials s len ps).
Proof.
  unfold mcl_reduce_partials_par, mcl_reduce_partials. rb. destruct (negb a); [now apply runs_ret|]. rb.
  destruct (len <? _); [now apply runs_ret|]. rb.
  apply runs_bind_c; [apply runs_mcl_ufft|apply nf_mcl_fft|]. intros ev. rb.
  apply runs_bind.
  - apply runs_forr. intros i st. rb. apply runs_bind_c; [apply runs_mcl_ufft|apply nf_mcl_fft|]. intros e. apply runs_lift.
  - intros ev'. apply runs_bind_c; [apply runs_mcl_ufft|apply nf_mcl_fft|]. intros co. apply runs_lift.
Qed.
Lemma nf_mcl_reduce s len (ps : list (list K)) : mcl_reduce_partials s len ps <> NoFuel.
Proof. unfold mcl_reduce_partials. nf; first [apply nf_mcl_is_pow|apply nf_mcl_pad_poly|apply nf_mcl_fft]. Qed.

Lemma runs_mcl_group {V} (s : fft_settings K) dom ceil count size i st :
  @runs_as V _ (mcl_zp_group_par s dom ceil count size i st) (mcl_zp_group s dom ceil count size i st).
Proof.
  destruct st as [[work lens] offsets]. unfold mcl_zp_group_par, mcl_zp_group. cbv zeta. rb.
  destruct a2 as [offs pv]. destruct (1 <? Nat.min 4 a0).
  - apply runs_bind_c; [apply runs_unwrapc, runs_mcl_reduce|apply nf_mcl_reduce|]. intros red. apply runs_lift.
  - apply runs_lift.
Qed.
Lemma nf_mcl_group (s : fft_settings K) dom ceil count size i st : mcl_zp_group s dom ceil count size i st <> NoFuel.
Proof.
  destruct st as [[work lens] offs]. unfold mcl_zp_group, mcl_zp_views. cbv zeta.
  nf; first [apply nf_mcl_reduce|apply nf_mcl_pad_poly].
Qed.

Lemma runs_mcl_level {V} (s : fft_settings K) dom ceil st :
  @runs_as V _ (mcl_zp_level_par s dom ceil st) (mcl_zp_level s dom ceil st).
Proof.
  destruct st as [count [[work lens] offsets]]. unfold mcl_zp_level_par, mcl_zp_level. cbv zeta. rb.
  apply runs_bind; [apply runs_forr; intros; apply runs_mcl_group|]. intros wlo. now apply runs_ret.
Qed.
Lemma nf_mcl_level (s : fft_settings K) dom ceil st : mcl_zp_level s dom ceil st <> NoFuel.
Proof.
  destruct st as [count [[work lens] offs]]. unfold mcl_zp_level. cbv zeta.
  nf; first [apply nf_mcl_next_pow|apply nf_mcl_group].
Qed.

Lemma nf_mcl_do_zero (s : fft_settings K) idxs stride : mcl_do_zero s idxs stride <> NoFuel.
Proof. unfold mcl_do_zero. cbv zeta. nf. unfold mcl_zero_step, mcl_zero_inner. nf. Qed.

Lemma runs_mcl_tree {V} (s : fft_settings K) dom ceil count stride missing :
  @runs_as V _ (mcl_zp_tree_par s dom ceil count stride missing) (mcl_zp_tree s dom ceil count stride missing).
Proof.
  unfold mcl_zp_tree_par, mcl_zp_tree. rb. destruct a0 as [[work lens] offs]. rb.
  apply runs_bind; [apply runs_whiler; intros; apply runs_mcl_level|].
  intros [c [[w l] o]]. now apply runs_ret.
Qed.
Lemma nf_mcl_tree (s : fft_settings K) dom ceil count stride missing : mcl_zp_tree s dom ceil count stride missing <> NoFuel.
Proof.
  unfold mcl_zp_tree. apply nf_bind; [apply nf_mcl_next_pow|]. intros wl _. apply nf_bind.
  { unfold mcl_zp_partials. apply nf_bind; [|intros [[[[? ?] ?] ?] ?] _; discriminate].
    apply nf_for. intros i [[[[? ?] ?] ?] ?]. cbv zeta. nf; first [apply nf_mcl_do_zero|apply nf_mcl_pad_poly]. }
  intros [[work lens] offs] _. nf.
  - apply (nf_while fst).
    + intros st. apply nf_mcl_level.
    + intros [c [[w l] o]] st' Hc E. cbn [fst] in Hc |- *. apply Nat.ltb_lt in Hc.
      unfold mcl_zp_level in E. apply bind_inv in E as (l0 & _ & E). apply bind_inv in E as (sz & _ & E).
      apply bind_inv in E as (wlo & _ & E). apply Ok_inj in E. subst st'. cbn [fst].
      pose proof (Nat.div_lt (c - 1) 4 ltac:(lia) ltac:(lia)). lia.
    + cbn [fst]. lia.
Qed.

Theorem runs_mcl_zero_poly {V} (s : fft_settings K) len missing :
  @runs_as V _ (mcl_zero_poly_par s len missing) (mcl_zero_poly s len missing).
Proof.
  unfold mcl_zero_poly_par, mcl_zero_poly.
  destruct (length missing =? 0); [now apply runs_ret|].
  destruct (len <=? length missing); [now apply runs_ret|].
  destruct (max_width s <? len); [now apply runs_ret|]. rb.
  destruct (negb a); [now apply runs_ret|]. cbv zeta. rb.
  apply runs_bind.
  - destruct (length missing <=? 63); [apply runs_lift|]. apply runs_mcl_tree.
  - intros zp. apply runs_bind_c; [apply runs_mcl_ufft|apply nf_mcl_fft|]. intros ze. now apply runs_ret.
Qed.
Lemma nf_mcl_zero_poly (s : fft_settings K) len missing : mcl_zero_poly s len missing <> NoFuel.
Proof.
  unfold mcl_zero_poly. cbv zeta.
  nf; first [apply nf_mcl_is_pow|apply nf_mcl_next_pow|apply nf_mcl_do_zero|apply nf_mcl_tree|apply nf_mcl_fft].
Qed.
End Proofs.
