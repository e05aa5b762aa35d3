(** * Proof_Par2: multiplication, vanishing polynomials and recovery in the parallel build *)
From Coq Require Import List Arith Bool Lia NArith.
From Verif Require Import Base Fld Model_Utils Proof_Utils Model_FFT Model_Das Model_Poly Model_ZeroPoly Model_Recovery
  Conc Proof_Conc Model_Par Proof_Zero1 Proof_Zero2 Proof_Par.
Import ListNotations.

Lemma runs_bind_c {V A B} (p : proc V A) (r : res A) (f : A -> proc V (res B)) (g : A -> res B) :
  runs_as_c p r -> r <> NoFuel -> (forall a, runs_as (f a) (g a)) ->
  runs_as (bindp p f) (let* a := unwrap r in g a).
Proof.
  intros (R1 & W1 & E1) N Hf. split; [|split].
  - apply race_free_bindp; [trivial|]. apply Hf.
  - apply within_bindp; [trivial|]. apply Hf.
  - intros m. rewrite run_bindp, E1. destruct r as [a| | |]; cbn; try reflexivity; try contradiction. apply Hf.
Qed.

Ltac rb := repeat (apply runs_bind; [first [apply runs_lift|apply runs_fft_fr]|intros ?]).

Lemma Ok_inj {A} (a b : A) : Ok a = Ok b -> a = b.
Proof. intros E. now injection E. Qed.

Section Proofs.
Context {K : fld}.

Lemma runs_ufft {V} s (data : list K) inv : @runs_as_c V _ (unwrapc (fft_fr_par s data inv)) (fft_fr s data inv).
Proof. apply runs_unwrapc, runs_fft_fr. Qed.

Lemma runs_mul_fft {V} (table a b : list K) out :
  @runs_as V _ (mul_fft_par table a b out) (mul_fft table a b out).
Proof.
  unfold mul_fft_par, mul_fft. rb. cbv zeta.
  match goal with |- context [Fork _ _ ?k] => set (rest := k) end.
  assert (HR : forall x y, runs_as (rest x y) (
    let* ab_fft := for_range 0 a1 (fun i ab =>
        let* x := idx x i in
        let* y := idx y i in
        upd ab i (fmul x y)) (repeat f0 a1) in
    let* ab := unwrap (fft_fr a2 ab_fft true) in
    let ret := repeat f0 out in
    let range := min_u64 out a1 in
    let* src := slice ab 0 range in
    let* _ := slice ret 0 range in
    Ok (src ++ skipn range ret))).
  { intros x y. unfold rest. rb.
    apply runs_bind_c; [apply runs_ufft|apply nf_fft_fr|]. intros ab. rb. now apply runs_ret. }
  destruct (1024 <? a1).
  - apply runs_fork_c; try apply runs_ufft; try apply nf_fft_fr. exact HR.
  - apply runs_bind_c; [apply runs_ufft|apply nf_fft_fr|]. intros x.
    apply runs_bind_c; [apply runs_ufft|apply nf_fft_fr|]. intros y. apply HR.
Qed.

(** ** The parallel iterator *)
Fixpoint mapr {A B} (f : A -> res B) (l : list A) : res (list B) :=
  match l with [] => Ok [] | x :: l => let* y := f x in let* ys := mapr f l in Ok (y :: ys) end.

Lemma mapr_app {A B} (f : A -> res B) l1 l2 :
  mapr f (l1 ++ l2) = let* a := mapr f l1 in let* b := mapr f l2 in Ok (a ++ b).
Proof.
  induction l1 as [|x l1 IH]; cbn; [destruct (mapr f l2); reflexivity|].
  destruct (f x); cbn; try reflexivity. rewrite IH. destruct (mapr f l1); cbn; try reflexivity.
  destruct (mapr f l2); reflexivity.
Qed.

Lemma mapr_length {A B} (f : A -> res B) l ys : mapr f l = Ok ys -> length ys = length l.
Proof.
  revert ys; induction l as [|x l IH]; cbn; intros ys E; [now injection E as <-|].
  apply bind_inv in E as (y & _ & E). apply bind_inv in E as (ys' & E' & E). injection E as <-. cbn. f_equal. auto.
Qed.

Lemma imp_collect_whole {A} (f : nat -> res A) : forall n lo,
  implements lo n (forc_ n lo (fun i => bindp (liftc (f i)) (fun v => Wr i (Some v) (Ret tt))))
    (fun _ => let* vs := mapr f (seq lo n) in Ok (map Some vs)).
Proof.
  induction n as [|n IH]; intros lo.
  { split; [exact I|split; [exact I|]]. intros pre l post _ Hl. destruct l; [|discriminate]. cbn. auto. }
  destruct (IH (S lo)) as (R & W & E). cbn [forc_]. split; [|split].
  - apply race_free_bindp; [|auto]. apply race_free_bindp; [apply race_free_liftc|]. cbn; auto.
  - apply within_bindp; [|intros _]; [|revert W; apply within_weaken; intros a; rewrite !inside_iff; lia].
    apply within_bindp; [apply within_liftc|]. intros v. cbn. split; [apply inside_iff; lia|trivial].
  - intros pre l post Hp Hl. destruct l as [|x l]; [discriminate|]. rewrite run_bindp, run_bindp.
    cbn [seq mapr]. destruct (f lo) as [v| | |]; cbn [liftc run bind]; try reflexivity.
    rewrite !app_length. cbn [length].
    destruct (Nat.ltb_spec lo (length pre + (S (length l) + length post))); [|lia].
    pose proof (set_app_r pre (x :: l ++ post) 0 (Some v)) as E0. rewrite Nat.add_0_r, Hp in E0.
    change ((x :: l) ++ post) with (x :: l ++ post). rewrite E0. cbn [set run]. specialize (E (pre ++ [Some v]) l post).
    rewrite app_length in E. cbn [length] in E. specialize (E ltac:(lia) ltac:(cbn in Hl; lia)).
    rewrite <- app_assoc in E. cbn [app] in E.
    destruct (mapr f (seq (S lo) n)) as [vs| | |] eqn:M; cbn [bind] in E |- *; try exact E.
    destruct E as [L ->]. cbn [map length]. rewrite <- app_assoc. cbn [app]. split; [lia|reflexivity].
Qed.

Lemma imp_collect {A} (f : nat -> res A) : forall t lo n,
  implements lo n (collect_par t f lo n) (fun _ => let* vs := mapr f (seq lo n) in Ok (map Some vs)).
Proof.
  induction t as [|k l IHl r IHr]; intros lo n.
  - cbn [collect_par]. unfold forc. replace (lo + n - lo) with n by lia. apply imp_collect_whole.
  - cbn [collect_par]. set (h := Nat.min k n).
    eapply imp_ext; [|apply (imp_join lo n h _ _ _ _ (Nat.le_min_r k n) (IHl lo h) (IHr (lo + h) (n - h)))].
    intros x _. cbn beta.
    replace (seq lo n) with (seq lo h ++ seq (lo + h) (n - h))
      by (rewrite <- seq_app; f_equal; unfold h; lia).
    rewrite mapr_app. destruct (mapr f (seq lo h)); cbn [bind]; try reflexivity.
    destruct (mapr f (seq (lo + h) (n - h))); cbn [bind]; try reflexivity. now rewrite map_app.
Qed.

Lemma somes_map {A} (vs : list A) :
  flat_map (fun o => match o with Some x => [x] | None => [] end) (map Some vs) = vs.
Proof. induction vs; cbn; congruence. Qed.

(** ** The partial polynomials *)
Lemma zero_inner_shape (w : K) i p : pure (zero_inner w i p)
  /\ forall p', zero_inner w i p = Ok p' -> length p' = length p.
Proof.
  unfold zero_inner.
  assert (H : forall fuel j (q : list K), j < fuel ->
    let r := while_ fuel (fun st : nat * list K => 0 <? fst st)
    (fun st => let (j, poly) := st in
       let* x := idx poly j in
       let* poly := upd poly j (fmul x w) in
       let* x := idx poly j in
       let* y := idx poly (j - 1) in
       let* poly := upd poly j (fadd x y) in
       Ok (j - 1, poly)) (j, q) in
    pure r /\ forall st, r = Ok st -> length (snd st) = length q).
  { induction fuel as [|fuel IH]; intros j q L; [lia|]. cbn [while_ fst].
    destruct (Nat.ltb_spec 0 j); [|split; [pu|]; intros st E; injection E as <-; reflexivity].
    split.
    - apply pure_bind; [pu|]. intros st E. repeat (apply bind_inv in E as (? & ? & E)). injection E as <-.
      apply IH. lia.
    - intros st E. apply bind_inv in E as (st1 & E1 & E2).
      repeat (apply bind_inv in E1 as (? & ? & E1)). injection E1 as <-.
      apply IH in E2; [|lia].
      repeat match goal with H : upd _ _ _ = Ok _ |- _ => apply upd_length in H end. congruence. }
  destruct (H (S i) (i - 1) p ltac:(lia)) as [P L]. split.
  - apply pure_bind; [exact P|]. intros; pu.
  - intros p' E. apply bind_inv in E as (st & E1 & E2). injection E2 as <-. eauto.
Qed.

Lemma zero_step_shape (s : fft_settings K) idxs stride i p : pure (zero_step s idxs stride i p)
  /\ forall p', zero_step s idxs stride i p = Ok p' -> length p' = length p.
Proof.
  unfold zero_step. split.
  - pu. apply zero_inner_shape.
  - intros p' E. repeat (apply bind_inv in E as (? & ? & E)). apply upd_length in E.
    repeat match goal with
      | H : upd _ _ _ = Ok _ |- _ => apply upd_length in H
      | H : zero_inner _ _ _ = Ok _ |- _ => apply (proj2 (zero_inner_shape _ _ _)) in H end. congruence.
Qed.

Lemma do_zero_shape (s : fft_settings K) idxs stride : idxs <> [] ->
  pure (do_zero_poly_mul_partial s idxs stride)
  /\ forall p, do_zero_poly_mul_partial s idxs stride = Ok p -> length p = length idxs + 1.
Proof.
  intros H. unfold do_zero_poly_mul_partial.
  destruct (Nat.eqb_spec (length idxs) 0) as [E|E]; [destruct idxs; [contradiction|discriminate]|].
  split.
  - pu. apply zero_step_shape.
  - intros p Ep. repeat (apply bind_inv in Ep as (? & ? & Ep)).
    apply upd_for_length in Ep; [|intros i l l' H3; eapply zero_step_shape; exact H3].
    repeat match goal with H : upd _ _ _ = Ok _ |- _ => apply upd_length in H end.
    rewrite repeat_length in *. congruence.
Qed.

Section Partials.
Variables (s : fft_settings K) (missing : list nat) (stride : nat).
Hypothesis Hm : 0 < length missing.
Let count := 1 + (length missing - 1) / 63.
Let item := zp_partial_item s missing stride.

Lemma item_offset i : i < count -> 63 * i < length missing.
Proof.
  unfold count. intros H. assert (63 * ((length missing - 1) / 63) <= length missing - 1) by (apply Nat.mul_div_le; lia). nia.
Qed.

Definition missing_part i := firstn (Nat.min (63 * i + 63) (length missing) - 63 * i) (skipn (63 * i) missing).

Lemma part_slice i : i < count ->
  slice missing (63 * i) (Nat.min (63 * i + 63) (length missing)) = Ok (missing_part i).
Proof.
  intros H. apply item_offset in H. unfold slice.
  destruct (Nat.leb_spec (63 * i) (Nat.min (63 * i + 63) (length missing))); [|lia].
  destruct (Nat.leb_spec (Nat.min (63 * i + 63) (length missing)) (length missing)); [|lia]. reflexivity.
Qed.

Lemma part_length i : i < count -> 1 <= length (missing_part i) <= 63.
Proof. intros H. apply item_offset in H. unfold missing_part. rewrite firstn_length, skipn_length. lia. Qed.

Lemma item_spec i : i < count ->
  item i = match do_zero_poly_mul_partial s (missing_part i) stride with
           | Ok p => Ok (p ++ repeat f0 (64 - length p), 64, 64 * i)
           | _ => Panic
           end
  /\ (forall p, do_zero_poly_mul_partial s (missing_part i) stride = Ok p -> length p <= 64).
Proof.
  intros H. pose proof (part_length i H) as L.
  destruct (do_zero_shape s (missing_part i) stride) as [[P1 P2] Lp].
  { intros E. rewrite E in L. cbn in L. lia. }
  split.
  - unfold item, zp_partial_item. cbv zeta. rewrite (part_slice i H). cbn [bind].
    destruct (do_zero_poly_mul_partial s (missing_part i) stride) as [p| | |]; try contradiction; try reflexivity.
    cbn [bind]. rewrite pad_poly_spec by (rewrite (Lp p eq_refl); lia). reflexivity.
  - intros p E. rewrite (Lp p E). lia.
Qed.

Lemma zp_for n : forall i pre lens offs extra, i + n <= count -> length pre = 64 * i ->
  for_ n i (fun _ (st : list K * list nat * list nat * nat * nat) =>
      let '(work, lens, offsets, missing_offset, work_offset) := st in
      let e := Nat.min (missing_offset + 63) (length missing) in
      let* sl := slice missing missing_offset e in
      let* partial := do_zero_poly_mul_partial s sl stride in
      let* partial := pad_poly partial 64 in
      let* work := Model_ZeroPoly.splice work work_offset (work_offset + 64) partial in
      Ok (work, lens ++ [64], offsets ++ [work_offset], missing_offset + 63, work_offset + 64))
    (pre ++ repeat f0 (64 * n + extra), lens, offs, 63 * i, 64 * i)
  = let* vs := mapr item (seq i n) in
    Ok (pre ++ flat_map (fun x => fst (fst x)) vs ++ repeat f0 extra, lens ++ map (fun x => snd (fst x)) vs,
        offs ++ map snd vs, 63 * (i + n), 64 * (i + n)).
Proof.
  induction n as [|n IH]; intros i pre lens offs extra Hi Hp.
  - cbn [for_ seq mapr bind flat_map map app]. rewrite !app_nil_r. do 3 f_equal; lia.
  - cbn [for_ seq mapr]. cbv zeta. rewrite part_slice by lia.
    destruct (item_spec i ltac:(lia)) as [-> Lp].
    destruct (do_zero_shape s (missing_part i) stride) as [[P1 P2] _].
    { pose proof (part_length i ltac:(lia)) as L. intros E. rewrite E in L. cbn in L. lia. }
    cbn [bind].
    destruct (do_zero_poly_mul_partial s (missing_part i) stride) as [p| | |]; try contradiction; try reflexivity.
    cbn [bind]. specialize (Lp p eq_refl). rewrite pad_poly_spec by lia. cbn [bind].
    rewrite splice_ok; [|lia|rewrite app_length, repeat_length; lia]. cbn [bind].
    rewrite (firstn_app (64 * i)), firstn_all2 by lia. replace (64 * i - length pre) with 0 by lia.
    cbn [firstn]. rewrite app_nil_r.
    rewrite (skipn_app (64 * i + 64)), skipn_all2 by lia. cbn [app].
    replace (64 * i + 64 - length pre) with 64 by lia.
    replace (64 * S n + extra) with (64 + (64 * n + extra)) by lia.
    rewrite repeat_app, skipn_app, skipn_all2 by (rewrite repeat_length; lia).
    rewrite repeat_length, Nat.sub_diag. cbn [skipn app].
    set (q := p ++ repeat f0 (64 - length p)).
    assert (Lq : length q = 64) by (unfold q; rewrite app_length, repeat_length; lia).
    rewrite (app_assoc pre q).
    replace (63 * i + 63) with (63 * S i) by lia. replace (64 * i + 64) with (64 * S i) by lia.
    rewrite IH; [|lia|rewrite app_length; lia].
    destruct (mapr item (seq (S i) n)) as [vs| | |]; cbn [bind flat_map map fst snd]; try reflexivity.
    rewrite <- !app_assoc. cbn [app]. do 3 f_equal; lia.
Qed.

Lemma mapr_item_pure : pure (mapr item (seq 0 count))
  /\ forall vs, mapr item (seq 0 count) = Ok vs -> length (flat_map (fun x => fst (fst x)) vs) = 64 * count.
Proof.
  assert (H : forall n i, i + n <= count -> pure (mapr item (seq i n))
     /\ forall vs, mapr item (seq i n) = Ok vs -> length (flat_map (fun x => fst (fst x)) vs) = 64 * n).
  { induction n as [|n IH]; intros i Hi; cbn [seq mapr].
    - split; [pu|]. intros vs E. injection E as <-. reflexivity.
    - destruct (item_spec i ltac:(lia)) as [-> Lp]. destruct (IH (S i) ltac:(lia)) as [P L].
      destruct (do_zero_poly_mul_partial s (missing_part i) stride) as [p| | |]; cbn [bind];
        try (split; [split; discriminate|discriminate]).
      split; [pu; exact P|]. intros vs E. apply bind_inv in E as (ys & E1 & E). apply Ok_inj in E. subst vs.
      cbn [flat_map fst]. rewrite app_length, app_length, repeat_length, (L ys E1).
      specialize (Lp p eq_refl). lia. }
  apply H. lia.
Qed.

Lemma runs_zp_partials {V} t next_pow : 64 * count <= next_pow ->
  @runs_as V _ (zp_partials_par t s missing stride count next_pow)
    (zp_partials s missing stride count (repeat f0 next_pow)).
Proof.
  intros Hn.
  set (fin := fun vs : list (list K * nat * nat) =>
    Ok (flat_map (fun x => fst (fst x)) vs ++ repeat (@f0 K) (next_pow - 64 * count),
        map (fun x => snd (fst x)) vs, map snd vs)).
  assert (E : zp_partials s missing stride count (repeat f0 next_pow) = let* vs := mapr item (seq 0 count) in fin vs).
  { unfold zp_partials. replace next_pow with (64 * count + (next_pow - 64 * count)) at 1 by lia.
    unfold for_range. rewrite Nat.sub_0_r.
    pose proof (zp_for count 0 [] [] [] (next_pow - 64 * count) ltac:(lia) eq_refl) as Z.
    cbn [app] in Z. rewrite !Nat.mul_0_r in Z. cbv zeta in Z |- *. rewrite Z.
    destruct (mapr item (seq 0 count)) as [vs| | |]; reflexivity. }
  rewrite E. destruct mapr_item_pure as [P L].
  pose proof (imp_collect item t 0 count) as HI.
  split; [|split].
  - cbn. split; [apply HI|]. intros; exact I.
  - cbn. intros; exact I.
  - intros m. unfold zp_partials_par. cbn [run].
    rewrite (imp_whole count _ _ _ HI) by apply repeat_length.
    destruct (mapr item (seq 0 count)) as [vs| | |]; cbn [bind]; try reflexivity; try (destruct P; contradiction).
    cbv beta zeta. rewrite somes_map, (L vs eq_refl). reflexivity.
Qed.
End Partials.

(** ** The reduction tree *)
Lemma nf_pad_poly (p : list K) n : pad_poly p n <> NoFuel.
Proof. unfold pad_poly. nf. Qed.

Lemma runs_reduce {V} s dom (ps : list (list K)) :
  @runs_as V _ (reduce_partials_par s dom ps) (reduce_partials s dom ps).
Proof.
  unfold reduce_partials_par, reduce_partials. destruct (negb (is_pow2 dom)); [now apply runs_ret|].
  rb. destruct (dom <? a + 1); [now apply runs_ret|]. rb.
  apply runs_bind; [|intros ?; rb; apply runs_lift].
  apply runs_forr. intros i st. rb. apply runs_lift.
Qed.

Lemma nf_reduce s dom (ps : list (list K)) : reduce_partials s dom ps <> NoFuel.
Proof. unfold reduce_partials. nf; first [apply nf_pad_poly|apply nf_fft_fr]. Qed.

Lemma runs_zp_group {V} (s : fft_settings K) dom ceil count size i st :
  @runs_as V _ (zp_group_par s dom ceil count size i st) (zp_group s dom ceil count size i st).
Proof.
  destruct st as [[work lens] offsets]. unfold zp_group_par, zp_group. cbv zeta. rb.
  destruct a2 as [offs pv]. destruct (1 <? Nat.min 4 a0).
  - apply runs_bind; [apply runs_reduce|]. intros red. apply runs_lift.
  - apply runs_lift.
Qed.

Lemma runs_zp_level {V} (s : fft_settings K) dom ceil st :
  @runs_as V _ (zp_level_par s dom ceil st) (zp_level s dom ceil st).
Proof.
  destruct st as [count [[work lens] offsets]]. unfold zp_level_par, zp_level. cbv zeta. rb.
  apply runs_bind; [apply runs_forr; intros; apply runs_zp_group|]. intros wlo. now apply runs_ret.
Qed.

Lemma next_pow2_ge n r : next_pow2 n = Ok r -> n <= r.
Proof.
  unfold next_pow2. intros E. apply bind_inv in E as (v & E1 & E). injection E as <-.
  assert (H : (N.of_nat n <= v)%N); [|lia].
  revert E1. generalize (N.of_nat n) as x. intros x. unfold next_power_of_two.
  destruct (N.eqb_spec x 0); [discriminate|].
  assert (LO : forall a b, (a <= N.lor a b)%N).
  { intros a b. apply N.ldiff_le. apply N.bits_inj_iff. intros i.
    rewrite N.ldiff_spec, N.lor_spec, N.bits_0. destruct (N.testbit a i), (N.testbit b i); reflexivity. }
  cbv zeta.
  set (v1 := N.lor (x - 1) _). set (v2 := N.lor v1 _). set (v3 := N.lor v2 _). set (v4 := N.lor v3 _).
  set (v5 := N.lor v4 _). set (v6 := N.lor v5 _).
  assert (x - 1 <= v1)%N by apply LO. assert (v1 <= v2)%N by apply LO. assert (v2 <= v3)%N by apply LO.
  assert (v3 <= v4)%N by apply LO. assert (v4 <= v5)%N by apply LO. assert (v5 <= v6)%N by apply LO.
  clearbody v6 v5 v4 v3 v2 v1.
  destruct (_ <=? _)%N; [discriminate|]. intros E. apply Ok_inj in E.
  destruct (N.eqb_spec (v6 + 1) 0); lia.
Qed.

Lemma nf_next_pow2 n : next_pow2 n <> NoFuel.
Proof. unfold next_pow2, next_power_of_two. nf. Qed.

Lemma runs_zp_tree {V} t (s : fft_settings K) dom ceil stride missing next_pow :
  0 < length missing ->
  let count := 1 + (length missing - 1) / 63 in
  next_pow2 (count * 64) = Ok next_pow ->
  @runs_as V _ (zp_tree_par t s dom ceil count stride next_pow missing) (zp_tree s dom ceil count stride missing).
Proof.
  intros Hm count Hn. unfold zp_tree_par, zp_tree. rewrite Hn. cbn [bind].
  apply next_pow2_ge in Hn.
  apply runs_bind; [apply runs_zp_partials; [trivial|fold count; lia]|]. intros [[work lens] offs].
  rb. apply runs_bind; [apply runs_whiler; intros; apply runs_zp_level|].
  intros [c [[w l] o]]. now apply runs_ret.
Qed.

Theorem runs_zero_poly {V} t (s : fft_settings K) dom missing :
  @runs_as V _ (zero_poly_via_multiplication_par t s dom missing) (zero_poly_via_multiplication s dom missing).
Proof.
  unfold zero_poly_via_multiplication_par, zero_poly_via_multiplication.
  destruct (Nat.eqb_spec (length missing) 0) as [E|E]; [now apply runs_ret|].
  destruct (dom <=? length missing); [now apply runs_ret|].
  destruct (max_width s <? dom); [now apply runs_ret|].
  destruct (negb (is_pow2 dom)); [now apply runs_ret|]. cbv zeta.
  set (count := 1 + (length missing - 1) / 63).
  destruct (next_pow2 (count * 64)) as [np| | |] eqn:Hn.
  2-4: split; [exact I|split; [exact I|reflexivity]].
  cbn [lift bindr bindp bind].
  apply runs_bind.
  - destruct (length missing <=? 63); [apply runs_lift|]. apply runs_zp_tree; [lia|exact Hn].
  - intros zp. rb. now apply runs_ret.
Qed.

(** the loop bound of the reduction is never reached *)
Lemma nf_zp_views (work : list K) lens size i start num offs : zp_views work lens size i start num offs <> NoFuel.
Proof. unfold zp_views. nf. Qed.

Lemma nf_zp_group (s : fft_settings K) dom ceil count size i st : zp_group s dom ceil count size i st <> NoFuel.
Proof.
  destruct st as [[work lens] offs]. unfold zp_group. cbv zeta.
  nf; first [apply nf_zp_views|apply nf_reduce|apply nf_pad_poly].
Qed.

Lemma nf_zp_level (s : fft_settings K) dom ceil st : zp_level s dom ceil st <> NoFuel.
Proof.
  destruct st as [count [[work lens] offs]]. unfold zp_level. cbv zeta.
  nf; first [apply nf_next_pow2|apply nf_zp_group].
Qed.

Lemma nf_do_zero (s : fft_settings K) idxs stride : do_zero_poly_mul_partial s idxs stride <> NoFuel.
Proof.
  destruct idxs as [|x l]; [discriminate|]. apply (do_zero_shape s (x :: l) stride). discriminate.
Qed.

Lemma nf_zp_tree (s : fft_settings K) dom ceil count stride missing :
  zp_tree s dom ceil count stride missing <> NoFuel.
Proof.
  unfold zp_tree. apply nf_bind; [apply nf_next_pow2|]. intros wl _. apply nf_bind.
  { unfold zp_partials. apply nf_bind; [|intros [[[[? ?] ?] ?] ?] _; discriminate].
    apply nf_for. intros i [[[[? ?] ?] ?] ?]. cbv zeta. nf; first [apply nf_do_zero|apply nf_pad_poly]. }
  intros [[work lens] offs] _. nf.
  - apply (nf_while fst).
    + intros st. apply nf_zp_level.
    + intros [c [[w l] o]] st' Hc E. cbn [fst] in Hc |- *. apply Nat.ltb_lt in Hc.
      unfold zp_level in E. apply bind_inv in E as (l0 & _ & E). apply bind_inv in E as (sz & _ & E).
      apply bind_inv in E as (wlo & _ & E). apply Ok_inj in E. subst st'. cbn [fst].
      pose proof (Nat.div_lt (c - 1) 4 ltac:(lia) ltac:(lia)). lia.
    + cbn [fst]. lia.
Qed.

Lemma nf_zero_poly (s : fft_settings K) dom missing : zero_poly_via_multiplication s dom missing <> NoFuel.
Proof.
  unfold zero_poly_via_multiplication. cbv zeta.
  nf; first [apply nf_next_pow2|apply nf_do_zero|apply nf_zp_tree|apply nf_pad_poly|apply nf_fft_fr].
Qed.

(** ** Recovery *)
Lemma imp_scale_poly tl off len len_p :
  implements off len (@scale_poly_par K tl off len len_p) (fun p => scale_poly tl p len_p).
Proof.
  unfold scale_poly_par, scale_poly. apply imp_const. intros factors _. apply imp_for.
  intros i. split; [|split].
  - repeat first [ apply race_free_bindp; [|intros ?] | apply race_free_rd_at | apply race_free_wr_at | apply race_free_liftc ].
  - repeat first [ apply within_bindp; [|intros ?] | apply within_rd_at | apply within_wr_at | apply within_liftc ].
  - intros pre l post <- <-.
    rewrite run_rd_at. destruct (idx l i) as [x| | |]; cbn [bind]; try reflexivity.
    rewrite run_liftc. destruct (idx factors i) as [f| | |]; cbn [bind]; try reflexivity.
    rewrite wr_last. destruct (upd l i _) as [l2| | |] eqn:E2; try reflexivity.
    split; [apply (upd_length _ _ _ _ E2)|reflexivity].
Qed.

Lemma pure_scale_poly tl (p : list K) len_p : pure (scale_poly tl p len_p).
Proof. unfold scale_poly, factor_table, apply_factors. pu. Qed.

Lemma scale_poly_length tl (p : list K) len_p p' : scale_poly tl p len_p = Ok p' -> length p' = length p.
Proof.
  unfold scale_poly. intros E. apply bind_inv in E as (f & _ & E). unfold apply_factors in E.
  eapply upd_for_length; [|exact E]. intros i x y H. repeat (apply bind_inv in H as (? & ? & H)).
  now apply upd_length in H.
Qed.

Theorem runs_recover_core {V} tl (s : fft_settings K) n scale evals zp :
  @runs_as V _ (recover_core_par tl s n scale evals zp) (recover_core tl s n evals zp).
Proof.
  unfold recover_core_par, recover_core. cbv zeta.
  apply runs_bind_c; [apply runs_ufft|apply nf_fft_fr|]. intros pz.
  set (np := length pz). set (lz := length zp).
  match goal with |- context [Fork _ _ ?k] => set (rest := k) end.
  set (g := fun ev1 ev2 : list K =>
    let* evr := for_range 0 n (fun i l =>
        let* a := idx ev1 i in
        let* b := idx ev2 i in
        let* q := unwrap (fr_div a b) in
        upd l i q) ev1 in
    let* scaled := unwrap (fft_fr s evr true) in
    let* poly := unscale_poly tl scaled n in
    unwrap (fft_fr s poly false)).
  assert (HR : forall x y, runs_as (rest x y) (g x y)).
  { intros x y. unfold rest, g. rb.
    apply runs_bind_c; [apply runs_ufft|apply nf_fft_fr|]. intros sc. rb.
    match goal with |- runs_as _ (unwrap ?r) =>
      replace (unwrap r) with (let* d := unwrap r in Ok d) by (destruct r; reflexivity) end.
    apply runs_bind_c; [apply runs_ufft|apply nf_fft_fr|]. intros d. now apply runs_ret. }
  set (p := if 1024 <? scale then _ else _).
  assert (HP : implements 0 (np + lz) p (fun l =>
     let* lo := scale_poly tl (firstn np l) n in let* hi := scale_poly tl (skipn np l) lz in Ok (lo ++ hi))).
  { unfold p. pose proof (imp_scale_poly tl 0 np n) as H1.
    pose proof (imp_scale_poly tl np lz lz) as H2.
    destruct (1024 <? scale).
    - apply (imp_join 0 (np + lz) np _ _ (fun q => scale_poly tl q n) (fun q => scale_poly tl q lz)); [lia|exact H1|].
      replace (np + lz - np) with lz by lia. exact H2.
    - apply (imp_halves 0 (np + lz) np _ _ (fun q => scale_poly tl q n) (fun q => scale_poly tl q lz)); [lia|exact H1|].
      replace (np + lz - np) with lz by lia. exact H2. }
  clearbody p.
  set (k := fun (mem : list K) (_ : unit) => if 1024 <? scale then _ else _).
  set (gk := fun mem => let* ev1 := unwrap (fft_fr s (firstn np mem) false) in
                        let* ev2 := unwrap (fft_fr s (skipn np mem) false) in g ev1 ev2).
  assert (HK : forall mem, runs_as (k mem tt) (gk mem)).
  { intros mem. unfold k, gk. destruct (1024 <? scale).
    - apply runs_fork_c; try apply runs_ufft; try apply nf_fft_fr. exact HR.
    - apply runs_bind_c; [apply runs_ufft|apply nf_fft_fr|]. intros x.
      apply runs_bind_c; [apply runs_ufft|apply nf_fft_fr|]. intros y. apply HR. }
  assert (EQ : runs_as (Own (pz ++ zp) p k) (let* mem := (let* lo := scale_poly tl (firstn np (pz ++ zp)) n in
      let* hi := scale_poly tl (skipn np (pz ++ zp)) lz in Ok (lo ++ hi)) in gk mem)).
  { refine (runs_own (pz ++ zp) p k (fun l => let* lo := scale_poly tl (firstn np l) n in
      let* hi := scale_poly tl (skipn np l) lz in Ok (lo ++ hi)) gk _ _ HK).
    - rewrite app_length. exact HP.
    - pu; apply pure_scale_poly. }
  unfold np in EQ. rewrite firstn_app, firstn_all, Nat.sub_diag, skipn_app, skipn_all, Nat.sub_diag in EQ.
  cbn [firstn skipn app] in EQ. rewrite app_nil_r, bind_assoc in EQ.
  destruct (scale_poly tl pz n) as [lo| | |] eqn:E1; cbn [bind] in EQ |- *; try exact EQ.
  rewrite bind_assoc in EQ.
  destruct (scale_poly tl zp lz) as [hi| | |] eqn:E2; cbn [bind] in EQ |- *; try exact EQ.
  unfold gk in EQ. apply scale_poly_length in E1. fold np in E1. rewrite <- E1 in EQ.
  rewrite firstn_app, firstn_all, Nat.sub_diag, skipn_app, skipn_all, Nat.sub_diag in EQ.
  cbn [firstn skipn app] in EQ. rewrite app_nil_r in EQ. exact EQ.
Qed.

Theorem runs_recover_null {V} t null tl (s : fft_settings K) samples n :
  @runs_as V _ (recover_null_par t null tl s samples n) (recover_null null tl s samples n).
Proof.
  unfold recover_null_par, recover_null. destruct (negb (is_pow2 n)); [now apply runs_ret|]. cbv zeta.
  apply runs_bind_c; [apply runs_unwrapc, runs_zero_poly|apply nf_zero_poly|]. intros [ze zp].
  rb. apply runs_bind; [apply runs_recover_core|]. intros d. rb. now apply runs_ret.
Qed.

Theorem runs_recover_opt {V} t tl (s : fft_settings K) samples :
  @runs_as V _ (recover_opt_par t tl s samples) (recover_opt tl s samples).
Proof.
  unfold recover_opt_par, recover_opt. cbv zeta. destruct (negb (is_pow2 (length samples))); [now apply runs_ret|].
  apply runs_bind_c; [apply runs_unwrapc, runs_zero_poly|apply nf_zero_poly|]. intros [ze zp].
  rb. apply runs_bind; [apply runs_recover_core|]. intros d. rb. now apply runs_ret.
Qed.
End Proofs.

(** a task in which both sides of a join write the same cell has two results *)
Definition racy : proc nat (res nat) :=
  Fork (Wr 0 1 (Ret tt)) (Wr 0 2 (Ret tt)) (fun _ _ => Rd 0 (fun v => Ret (Ok v))).

Lemma racy_not_deterministic r : ~ always_returns racy [0] r.
Proof.
  intros [_ H].
  assert (H1 : returned (@Ret nat _ (Ok 2)) = Some r \/ exists p'' m'', step (@Ret nat (res nat) (Ok 2)) [2] p'' m'').
  { apply H. unfold racy.
    eapply steps_step; [left; eexists; split; [cbn; split; reflexivity|reflexivity]|].
    eapply steps_step; [right; left; eexists; split; [cbn; split; reflexivity|reflexivity]|].
    eapply steps_step; [right; right; left; do 2 eexists; repeat split|].
    eapply steps_step; [cbn; split; reflexivity|]. apply steps_refl. }
  assert (H2 : returned (@Ret nat _ (Ok 1)) = Some r \/ exists p'' m'', step (@Ret nat (res nat) (Ok 1)) [1] p'' m'').
  { apply H. unfold racy.
    eapply steps_step; [right; left; eexists; split; [cbn; split; reflexivity|reflexivity]|].
    eapply steps_step; [left; eexists; split; [cbn; split; reflexivity|reflexivity]|].
    eapply steps_step; [right; right; left; do 2 eexists; repeat split|].
    eapply steps_step; [cbn; split; reflexivity|]. apply steps_refl. }
  destruct H1 as [H1|(? & ? & [])]. destruct H2 as [H2|(? & ? & [])]. cbn in H1, H2. congruence.
Qed.

Lemma finished_bindp {V A B} (p : proc V A) (f : A -> proc V B) : finished p = false -> finished (bindp p f) = false.
Proof. destruct p; cbn; intros H; first [discriminate|reflexivity]. Qed.

Lemma fft_fr_fast_par_moves {K : fld} : forall fuel off len (data roots : list K) stride rs,
  len < fuel -> 0 < len -> data <> [] -> finished (fft_fr_fast_par fuel off len data stride roots rs) = false.
Proof.
  induction fuel as [|fuel IH]; intros off len data roots stride rs L P D; [lia|].
  cbn [fft_fr_fast_par]. destruct (Nat.ltb_spec 0 (len / 2)) as [H|H].
  - apply finished_bindp. destruct (256 <? len / 2); [reflexivity|]. apply finished_bindp. apply IH; auto.
    pose proof (Nat.div_lt len 2). lia.
  - destruct data as [|d data]; [contradiction|]. cbn [idx nth_error liftc bindp]. unfold wr_at.
    destruct (Nat.ltb_spec 0 len); [reflexivity|lia].
Qed.

Lemma fork_both_move {K : fld} (data roots : list K) m n rs : 512 < length data -> n = length data -> Nat.even n = true ->
  exists (p q : proc _ unit) k, fft_fr_fast_par (S n) 0 n data 1 roots rs = Fork p q k
  /\ (exists p' m', step p m p' m') /\ (exists q' m', step q m q' m').
Proof.
  intros Hd Hn Ev. cbn [fft_fr_fast_par].
  apply Nat.even_spec in Ev. destruct Ev as [h Eh].
  assert (Hh : n / 2 = h) by (subst n; rewrite Eh, Nat.mul_comm; apply Nat.div_mul; discriminate). rewrite Hh.
  destruct (Nat.ltb_spec 0 h); [|lia]. destruct (Nat.ltb_spec 256 h); [|lia].
  do 3 eexists. split; [reflexivity|]. split; apply progress.
  - apply fft_fr_fast_par_moves; [lia|lia|]. destruct data; [cbn in Hd; lia|discriminate].
  - unfold slice_from. destruct (Nat.leb_spec 1 (length data)); [|lia]. cbn [liftc bindp].
    apply fft_fr_fast_par_moves; [lia|lia|]. intros E. apply (f_equal (@length _)) in E. rewrite skipn_length in E. cbn in E. lia.
Qed.
