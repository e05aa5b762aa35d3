(** * Proof_Scalars: programs over the scalar trait *)
From Coq Require Import List Bool ZArith Lia.
From Verif Require Import Base Fld Tables Zr Model_Scalar Spec_Scalar Proof_Scalar5 Model_Mcl Model_MclKZG Spec_MclKZG Proof_MclKZGFr Proof_MclFr Model_Ark Model_ArkScalar Spec_ArkScalar Proof_ArkScalar
  Proof_Scalar2 Model_Scalars Spec_Scalars Spec_Cofactor Model_Random Proof_RandomEven.
Import ListNotations.
Local Open Scope Z_scope.

Definition agree {T} (stands : T -> Fr -> Prop) (m : res T) (o : option Fr) : Prop :=
  match o with Some x => exists a, m = Ok a /\ stands a x | None => m = Panic end.
Record impl_ok {T} (stands : T -> Fr -> Prop) (I : fr_impl T) (d : dialect) : Prop := ImplOk {
  io_default : stands (fi_default I) f0; io_zero : stands (fi_zero I) f0; io_one : stands (fi_one I) f1;
  io_from_arr : forall u, words u -> agree stands (fi_from_arr I u) (if integer u <? r then Some (fr_of (integer u)) else d_wide d (integer u));
  io_from_u64 : forall v, 0 <= v < 2 ^ 64 -> agree stands (fi_from_u64 I v) (Some (fr_of v));
  io_to_arr : forall a x, stands a x -> fi_to_arr I a = canonical x;
  io_is_one : forall a x, stands a x -> fi_is_one I a = feqb x f1;
  io_is_zero : forall a x, stands a x -> fi_is_zero I a = feqb x f0;
  io_equals : forall a b x y, stands a x -> stands b y -> fi_equals I a b = feqb x y;
  io_sqr : forall a x, stands a x -> stands (fi_sqr I a) (fmul x x);
  io_mul : forall a b x y, stands a x -> stands b y -> stands (fi_mul I a b) (fmul x y);
  io_add : forall a b x y, stands a x -> stands b y -> stands (fi_add I a b) (fadd x y);
  io_sub : forall a b x y, stands a x -> stands b y -> agree stands (fi_sub I a b) (if d_sub d then Some (fsub x y) else None);
  io_negate : forall a x, stands a x -> stands (fi_negate I a) (fneg x);
  io_eucl : forall a x, stands a x -> agree stands (fi_eucl_inverse I a) (if d_eucl_inverse d then inverse_of d x else None);
  io_inverse : forall a x, stands a x -> agree stands (fi_inverse I a) (if d_inverse d then inverse_of d x else None);
  io_pow : forall a x n, stands a x -> 0 <= n < 2 ^ 64 ->
    agree stands (fi_pow I a n) (if n =? 0 then d_pow_zero d x else Some (fpow x (Z.to_nat n)));
  io_div : forall a b x y, stands a x -> stands b y -> agree stands (fi_div I a b) (if feqb y f0 then d_div_zero d else Some (fdiv x y)) }.

Section Programs.
Context {T : Type} (stands : T -> Fr -> Prop) (I : fr_impl T) (d : dialect) (OK : impl_ok stands I d).
Lemma idx_stands rs xs i : Forall2 stands rs xs -> agree stands (idx rs i) (nth_error xs i).
Proof.
  intros F. revert i. induction F as [|a x rs xs H F IH]; intros [|i]; simpl; try reflexivity.
  - exists a. split; [reflexivity|exact H].
  - exact (IH i).
Qed.
Lemma one_more rs xs a x : Forall2 stands rs xs -> stands a x -> Forall2 stands (rs ++ [a]) (xs ++ [x]).
Proof. intros F H. apply Forall2_app; [exact F|]. constructor; [exact H|constructor]. Qed.
Definition exec_is (m : res (list T * list shown)) (rs : list T) (v : option Fr) (o : option shown) : Prop :=
  match v, o with
  | Some x, _ => exists a, m = Ok (rs ++ [a], []) /\ stands a x
  | None, Some o => m = Ok (rs, [o])
  | None, None => m = Panic
  end.
Lemma then_new m rs v : agree stands m v -> exec_is (let* a := m in new rs a) rs v None.
Proof. destruct v as [x|]; simpl. - intros (a & -> & H). exists a. split; [reflexivity|exact H]. - intros ->. reflexivity. Qed.
Lemma exec_ok rs xs c : typed c -> Forall2 stands rs xs -> exec_is (exec I rs c) rs (value_of d xs c) (shown_of xs c).
Proof.
  intros Ty F. pose proof (fun i => idx_stands rs xs i F) as X.
  destruct c; cbn [exec value_of shown_of]; cbn [typed] in Ty.
  - exists (fi_default I). split; [reflexivity|apply OK].
  - exists (fi_zero I). split; [reflexivity|apply OK].
  - exists (fi_one I). split; [reflexivity|apply OK].
  - apply then_new. apply (io_from_arr _ _ _ OK). exact Ty.
  - apply then_new. apply (io_from_u64 _ _ _ OK). exact Ty.
  - specialize (X i). destruct (nth_error xs i) as [x|]; cbn [agree] in X; [destruct X as (a & -> & H)|rewrite X; exact eq_refl].
    eexists. split; [reflexivity|]. apply (io_sqr _ _ _ OK). exact H.
  - pose proof (X i) as Xi. pose proof (X j) as Xj.
    destruct (nth_error xs i) as [x|]; cbn [agree] in Xi; [destruct Xi as (a & -> & H)|rewrite Xi; exact eq_refl].
    destruct (nth_error xs j) as [y|]; cbn [agree] in Xj; [destruct Xj as (b & E & H')|rewrite Xj; exact eq_refl].
    rewrite E. eexists. split; [reflexivity|]. apply (io_mul _ _ _ OK); assumption.
  - pose proof (X i) as Xi. pose proof (X j) as Xj.
    destruct (nth_error xs i) as [x|]; cbn [agree] in Xi; [destruct Xi as (a & -> & H)|rewrite Xi; exact eq_refl].
    destruct (nth_error xs j) as [y|]; cbn [agree] in Xj; [destruct Xj as (b & E & H')|rewrite Xj; exact eq_refl].
    rewrite E. eexists. split; [reflexivity|]. apply (io_add _ _ _ OK); assumption.
  - pose proof (X i) as Xi. pose proof (X j) as Xj.
    destruct (nth_error xs i) as [x|]; cbn [agree] in Xi; [destruct Xi as (a & -> & H)|rewrite Xi; exact eq_refl].
    destruct (nth_error xs j) as [y|]; cbn [agree] in Xj; [destruct Xj as (b & E & H')|rewrite Xj; exact eq_refl].
    rewrite E. apply then_new. apply (io_sub _ _ _ OK); assumption.
  - specialize (X i). destruct (nth_error xs i) as [x|]; cbn [agree] in X; [destruct X as (a & -> & H)|rewrite X; exact eq_refl].
    apply then_new. apply (io_eucl _ _ _ OK). exact H.
  - specialize (X i). destruct (nth_error xs i) as [x|]; cbn [agree] in X; [destruct X as (a & -> & H)|rewrite X; exact eq_refl].
    eexists. split; [reflexivity|]. apply (io_negate _ _ _ OK). exact H.
  - specialize (X i). destruct (nth_error xs i) as [x|]; cbn [agree] in X; [destruct X as (a & -> & H)|rewrite X; exact eq_refl].
    apply then_new. apply (io_inverse _ _ _ OK). exact H.
  - specialize (X i). destruct (nth_error xs i) as [x|]; cbn [agree] in X; [destruct X as (a & -> & H)|rewrite X; exact eq_refl].
    apply then_new. apply (io_pow _ _ _ OK); assumption.
  - pose proof (X i) as Xi. pose proof (X j) as Xj.
    destruct (nth_error xs i) as [x|]; cbn [agree] in Xi; [destruct Xi as (a & -> & H)|rewrite Xi; exact eq_refl].
    destruct (nth_error xs j) as [y|]; cbn [agree] in Xj; [destruct Xj as (b & E & H')|rewrite Xj; exact eq_refl].
    rewrite E. apply then_new. apply (io_div _ _ _ OK); assumption.
  - specialize (X i). destruct (nth_error xs i) as [x|]; cbn [agree] in X; [destruct X as (a & -> & H)|rewrite X; exact eq_refl].
    cbn [bind]; unfold show. rewrite (io_to_arr _ _ _ OK a x H). exact eq_refl.
  - specialize (X i). destruct (nth_error xs i) as [x|]; cbn [agree] in X; [destruct X as (a & -> & H)|rewrite X; exact eq_refl].
    cbn [bind]; unfold show. rewrite (io_is_one _ _ _ OK a x H). exact eq_refl.
  - specialize (X i). destruct (nth_error xs i) as [x|]; cbn [agree] in X; [destruct X as (a & -> & H)|rewrite X; exact eq_refl].
    cbn [bind]; unfold show. rewrite (io_is_zero _ _ _ OK a x H). exact eq_refl.
  - pose proof (X i) as Xi. pose proof (X j) as Xj.
    destruct (nth_error xs i) as [x|]; cbn [agree] in Xi; [destruct Xi as (a & -> & H)|rewrite Xi; exact eq_refl].
    destruct (nth_error xs j) as [y|]; cbn [agree] in Xj; [destruct Xj as (b & E & H')|rewrite Xj; exact eq_refl].
    rewrite E. cbn [bind]; unfold show. rewrite (io_equals _ _ _ OK a b x y H H'). exact eq_refl.
Qed.
Lemma execs_ok p : forall rs xs, Forall typed p -> Forall2 stands rs xs -> same stands (execs I rs p) (meaning d xs p).
Proof.
  induction p as [|c p IH]; intros rs xs Ty F.
  - exists rs. split; [reflexivity|exact F].
  - inversion_clear Ty as [|? ? Tc Tp]. pose proof (exec_ok rs xs c Tc F) as E. cbn [execs meaning].
    unfold exec_is in E. destruct (value_of d xs c) as [x|].
    + destruct E as (a & -> & H). cbn [bind].
      pose proof (IH (rs ++ [a]) (xs ++ [x]) Tp (one_more _ _ _ _ F H)) as S.
      destruct (meaning d (xs ++ [x]) p) as [[ys os]|]; cbn [same] in S.
      * destruct S as (rs' & -> & S). exists rs'. split; [reflexivity|exact S].
      * rewrite S. exact eq_refl.
    + destruct (shown_of xs c) as [o|]; [|rewrite E; exact eq_refl].
      rewrite E. cbn [bind]. pose proof (IH rs xs Tp F) as S.
      destruct (meaning d xs p) as [[ys os]|]; cbn [same] in S.
      * destruct S as (rs' & -> & S). exists rs'. split; [reflexivity|exact S].
      * rewrite S. exact eq_refl.
Qed.
End Programs.

(** programs that rely on nothing *)
Lemma strict_value d xs c x : value_of strict xs c = Some x -> value_of d xs c = Some x.
Proof.
  destruct c; cbn [value_of strict d_wide d_sub d_inverse d_eucl_inverse d_div_zero d_pow_zero]; auto.
  - destruct (integer u <? r); [auto|discriminate].
  - destruct (nth_error xs i); [|discriminate]. destruct (nth_error xs j); discriminate.
  - destruct (nth_error xs i); discriminate.
  - destruct (nth_error xs i); discriminate.
  - destruct (nth_error xs i); [|discriminate]. destruct (n =? 0); [discriminate|auto].
  - destruct (nth_error xs i); [|discriminate]. destruct (nth_error xs j) as [y|]; [|discriminate]. destruct (feqb y f0); [discriminate|auto].
Qed.
Lemma shown_only d xs c o : shown_of xs c = Some o -> value_of d xs c = None.
Proof. destruct c; cbn [value_of shown_of]; congruence. Qed.
Lemma strict_meaning d p : forall xs out, meaning strict xs p = Some out -> meaning d xs p = Some out.
Proof.
  induction p as [|c p IH]; intros xs out; [auto|]. cbn [meaning].
  destruct (value_of strict xs c) as [x|] eqn:E.
  - rewrite (strict_value d xs c x E). apply IH.
  - destruct (shown_of xs c) as [o|] eqn:S; [|discriminate]. rewrite (shown_only d xs c o S).
    destruct (meaning strict xs p) as [[ys os]|] eqn:M; [|discriminate]. rewrite (IH _ _ M). auto.
Qed.

(** ** words *)
Lemma words_canonical u (x : Fr) : words u -> integer u = val x -> u = canonical x.
Proof.
  intros [L R] E. destruct u as [|a [|b [|c [|e [|]]]]]; try discriminate L.
  assert (Ra : 0 <= a < 2 ^ 64) by (apply R; simpl; auto). assert (Rb : 0 <= b < 2 ^ 64) by (apply R; simpl; auto).
  assert (Rc : 0 <= c < 2 ^ 64) by (apply R; simpl; auto). assert (Re : 0 <= e < 2 ^ 64) by (apply R; simpl; auto).
  unfold canonical. rewrite <- E. unfold integer. cbn [nth]. clear E R L x.
  replace (a + 2 ^ 64 * b + 2 ^ 128 * c + 2 ^ 192 * e) with (a + (b + (c + e * 2 ^ 64) * 2 ^ 64) * 2 ^ 64) by ring.
  change (2 ^ 128) with (2 ^ 64 * 2 ^ 64). change (2 ^ 192) with (2 ^ 64 * 2 ^ 64 * 2 ^ 64).
  assert (P : 0 < 2 ^ 64) by reflexivity. assert (N : 2 ^ 64 <> 0) by discriminate.
  rewrite <- !Z.div_div by lia. rewrite !Z.div_add by exact N.
  rewrite (Z.div_small a) by exact Ra. rewrite Z.add_0_l. rewrite !Z.div_add by exact N. rewrite (Z.div_small b) by exact Rb.
  rewrite Z.add_0_l. rewrite !Z.div_add by exact N. rewrite (Z.div_small c) by exact Rc. rewrite Z.add_0_l.
  rewrite !Z.mod_add by exact N. rewrite !Z.mod_small by assumption. reflexivity.
Qed.
Lemma small_words v : 0 <= v < 2 ^ 64 -> words [v; 0; 0; 0] /\ integer [v; 0; 0; 0] = v.
Proof.
  intros H. split; [|unfold integer; cbn [nth]; ring]. split; [reflexivity|].
  intros a [<-|[<-|[<-|[<-|[]]]]]; [exact H|split; reflexivity || discriminate..].
Qed.
Lemma words_list_zero : represents (Scalar 0 0 0 0) (f0 : Fr).
Proof. vm_compute. repeat split; congruence. Qed.
Lemma words_split u : words u -> exists a b c e, u = [a; b; c; e] /\ limbs (Scalar a b c e) (integer u).
Proof.
  intros [L R]. destruct u as [|a [|b [|c [|e [|]]]]]; try discriminate L. exists a, b, c, e. split; [reflexivity|].
  unfold limbs. split; [apply R; simpl; auto|]. split; [apply R; simpl; auto|]. split; [apply R; simpl; auto|]. split; [apply R; simpl; auto|].
  unfold integer. cbn [nth limbs_val]. change (2 ^ 128) with (2 ^ 64 * 2 ^ 64). change (2 ^ 192) with (2 ^ 64 * 2 ^ 64 * 2 ^ 64). ring.
Qed.
Lemma fr_wide (d : dialect) u : d_wide d = reduced -> (if integer u <? r then Some (fr_of (integer u)) else d_wide d (integer u)) = Some (fr_of (integer u)).
Proof. intros E. rewrite E. destruct (integer u <? r); reflexivity. Qed.
Lemma val_one : val (f1 : Fr) = 1. Proof. reflexivity. Qed.
Lemma val_nil : val (f0 : Fr) = 0. Proof. reflexivity. Qed.
Lemma feqb_val (x y : Fr) : feqb x y = (val x =? val y).
Proof.
  destruct (feqb x y) eqn:E.
  - apply feqb_spec in E. rewrite E. symmetry. apply Z.eqb_refl.
  - apply feqb_false in E. symmetry. apply Z.eqb_neq. intros H. apply E. apply val_inj. exact H.
Qed.
Lemma words_eqb u v : words u -> words v ->
  ((nth 0 u 0 =? nth 0 v 0) && (nth 1 u 0 =? nth 1 v 0) && (nth 2 u 0 =? nth 2 v 0) && (nth 3 u 0 =? nth 3 v 0)) = (integer u =? integer v).
Proof.
  intros Wu Wv. destruct (integer u =? integer v) eqn:E.
  - apply Z.eqb_eq in E. assert (H : u = v). { apply big_inj; try assumption. rewrite <- !integer_big by assumption. exact E. }
    subst v. rewrite !Z.eqb_refl. reflexivity.
  - apply Z.eqb_neq in E. apply not_true_iff_false. intros H. apply E.
    repeat (apply andb_true_iff in H; destruct H as [H ?]). rewrite !Z.eqb_eq in *.
    unfold integer. congruence.
Qed.

(** ** the crates *)
Section Blst.
Context (B : blst_lib) (OK : blst_lib_ok B).
Lemma blst_from_u64_ok v : 0 <= v < 2 ^ 64 -> represents (blst_from_u64 B v) (fr_of v).
Proof. intros H. destruct (small_words v H) as [W E]. pose proof (bok_from _ OK _ W) as R. rewrite E in R. exact R. Qed.
Lemma blst_const v l : 0 <= v < 2 ^ 64 -> l = [v; 0; 0; 0] -> forall a (x : Fr), represents a x ->
  (let val := bl_uint64_from B a in (nth 0 val 0 =? nth 0 l 0) && (nth 1 val 0 =? nth 1 l 0) && (nth 2 val 0 =? nth 2 l 0) && (nth 3 val 0 =? nth 3 l 0)) = (val x =? v).
Proof.
  intros V -> a x H. destruct (bok_to _ OK a x H) as [W E]. destruct (small_words v V) as [W' E'].
  cbv zeta. rewrite words_eqb by assumption. rewrite E, E'. reflexivity.
Qed.
Lemma shr_half n : 0 <= n < 2 ^ 64 -> shr n 1 = n / 2.
Proof. intros H. unfold shr. rewrite Z.shiftr_div_pow2 by lia. reflexivity. Qed.
Lemma blst_loop fuel : forall n temp out (t o : Fr), 0 <= n < 2 ^ Z.of_nat fuel -> (fuel <= 64)%nat -> (0 < fuel)%nat -> represents temp t -> represents out o ->
  exists a, blst_pow_loop B fuel n temp out = Ok a /\ represents a (fmul o (fpow t (Z.to_nat n))).
Proof.
  induction fuel as [|f IH]; intros n temp out t o N F P T O; [lia|]. cbn [blst_pow_loop].
  assert (N64 : 0 <= n < 2 ^ 64). { split; [lia|]. apply (Z.lt_le_trans _ _ _ (proj2 N)). apply Z.pow_le_mono_r; lia. }
  assert (L : Z.land n 1 = n mod 2) by (change 1 with (Z.ones 1); rewrite Z.land_ones by lia; reflexivity).
  rewrite shr_half by exact N64. rewrite L.
  pose proof (Z.div_mod n 2 ltac:(lia)) as D. pose proof (Z.mod_pos_bound n 2 ltac:(lia)) as M.
  assert (O' : represents (if n mod 2 =? 1 then bl_mul B out temp else out) (fmul o (fpow t (Z.to_nat (n mod 2))))).
  { destruct (n mod 2 =? 1) eqn:E.
    - apply Z.eqb_eq in E. rewrite E. change (Z.to_nat 1) with 1%nat. rewrite fpow_1. apply (bok_mul _ OK); assumption.
    - apply Z.eqb_neq in E. replace (n mod 2) with 0 by lia. change (Z.to_nat 0) with 0%nat. rewrite fpow_0.
      replace (fmul o f1) with o by ring. exact O. }
  assert (Q0 : 0 <= n / 2) by (apply Z.div_pos; lia).
  assert (S : fpow t (Z.to_nat n) = fmul (fpow t (Z.to_nat (n mod 2))) (fpow (fmul t t) (Z.to_nat (n / 2)))).
  { replace (Z.to_nat n) with (Z.to_nat (n mod 2) + (2 * Z.to_nat (n / 2)))%nat by lia. rewrite fpow_add, fpow_mul.
    f_equal. f_equal. cbn [fpow]. ring. }
  destruct (n / 2 =? 0) eqn:E.
  - apply Z.eqb_eq in E. eexists. split; [reflexivity|]. rewrite S, E. change (Z.to_nat 0) with 0%nat. rewrite fpow_0.
    replace (fmul o (fmul (fpow t (Z.to_nat (n mod 2))) f1)) with (fmul o (fpow t (Z.to_nat (n mod 2)))) by ring. exact O'.
  - apply Z.eqb_neq in E. rewrite Nat2Z.inj_succ, Z.pow_succ_r in N by lia.
    destruct f as [|f]; [simpl in N; lia|].
    destruct (IH (n / 2) (bl_sqr B temp) _ (fmul t t) _ ltac:(split; [lia|apply Z.div_lt_upper_bound; lia]) ltac:(lia) ltac:(lia) (bok_sqr _ OK _ _ T) O') as (a & Ea & Ra).
    exists a. split; [exact Ea|]. rewrite S.
    replace (fmul o (fmul (fpow t (Z.to_nat (n mod 2))) (fpow (fmul t t) (Z.to_nat (n / 2))))) with (fmul (fmul o (fpow t (Z.to_nat (n mod 2)))) (fpow (fmul t t) (Z.to_nat (n / 2)))) by ring.
    exact Ra.
Qed.
End Blst.

Lemma blst_ok B : blst_lib_ok B -> impl_ok represents (blst_fr B) blst_dialect.
Proof.
  intros OK. constructor; cbn [blst_fr fi_default fi_zero fi_one fi_from_arr fi_from_u64 fi_to_arr fi_is_one fi_is_zero fi_sqr fi_mul fi_add fi_sub fi_eucl_inverse fi_negate fi_inverse fi_pow fi_div fi_equals].
  - exact words_list_zero.
  - exact (blst_from_u64_ok B OK 0 ltac:(split; reflexivity || discriminate)).
  - exact (blst_from_u64_ok B OK 1 ltac:(split; reflexivity || discriminate)).
  - intros u W. rewrite fr_wide by reflexivity. eexists. split; [reflexivity|]. exact (bok_from _ OK u W).
  - intros v V. eexists. split; [reflexivity|]. exact (blst_from_u64_ok B OK v V).
  - intros a x H. destruct (bok_to _ OK a x H) as [W E]. exact (words_canonical _ _ W E).
  - intros a x H. rewrite feqb_val, val_one. exact (blst_const B OK 1 _ ltac:(split; reflexivity || discriminate) eq_refl a x H).
  - intros a x H. rewrite feqb_val, val_nil. exact (blst_const B OK 0 _ ltac:(split; reflexivity || discriminate) eq_refl a x H).
  - intros a b x y H H'. rewrite feqb_val. destruct (bok_to _ OK a x H) as [W E]. destruct (bok_to _ OK b y H') as [W' E'].
    unfold blst_equals. cbv zeta. rewrite words_eqb by assumption. rewrite E, E'. reflexivity.
  - exact (bok_sqr _ OK).
  - exact (bok_mul _ OK).
  - exact (bok_add _ OK).
  - intros a b x y H H'. eexists. split; [reflexivity|]. exact (bok_sub _ OK a b x y H H').
  - exact (bok_cneg _ OK).
  - intros a x H. unfold inverse_of. cbn [d_eucl_inverse d_inverse_zero blst_dialect].
    replace (if feqb x f0 then Some f0 else Some (finv x)) with (Some (finv x)).
    + eexists. split; [reflexivity|]. exact (proj2 (bok_inv _ OK a x H)).
    + destruct (feqb x f0) eqn:E; [|reflexivity]. apply feqb_spec in E. rewrite E, finv0. reflexivity.
  - intros a x H. unfold inverse_of. cbn [d_inverse d_inverse_zero blst_dialect].
    replace (if feqb x f0 then Some f0 else Some (finv x)) with (Some (finv x)).
    + eexists. split; [reflexivity|]. exact (proj1 (bok_inv _ OK a x H)).
    + destruct (feqb x f0) eqn:E; [|reflexivity]. apply feqb_spec in E. rewrite E, finv0. reflexivity.
  - intros a x n H N. cbn [d_pow_zero blst_dialect].
    replace (if n =? 0 then Some f1 else Some (fpow x (Z.to_nat n))) with (Some (fpow x (Z.to_nat n))).
    + destruct (blst_loop B OK 64 n a (blst_one B) x f1 N (le_n _) ltac:(lia) H (blst_from_u64_ok B OK 1 ltac:(split; reflexivity || discriminate))) as (s & E & S).
      exists s. split; [exact E|]. replace (fmul f1 (fpow x (Z.to_nat n))) with (fpow x (Z.to_nat n)) in S by ring. exact S.
    + destruct (n =? 0) eqn:E; [|reflexivity]. apply Z.eqb_eq in E. rewrite E. change (Z.to_nat 0) with 0%nat. rewrite fpow_0. reflexivity.
  - intros a b x y H H'. cbn [d_div_zero blst_dialect].
    replace (if feqb y f0 then Some f0 else Some (fdiv x y)) with (Some (fdiv x y)).
    + eexists. split; [reflexivity|]. exact (bok_mul _ OK _ _ _ _ H (proj2 (bok_inv _ OK b y H'))).
    + destruct (feqb y f0) eqn:E; [|reflexivity]. apply feqb_spec in E. rewrite E. unfold fdiv. rewrite finv0. f_equal. ring.
Qed.
Lemma ckzg_ok C : ckzg_fr_lib_ok C -> impl_ok represents (ckzg_fr C) ckzg_dialect.
Proof.
  intros OK. constructor; cbn [ckzg_fr fi_default fi_zero fi_one fi_from_arr fi_from_u64 fi_to_arr fi_is_one fi_is_zero fi_sqr fi_mul fi_add fi_sub fi_eucl_inverse fi_negate fi_inverse fi_pow fi_div fi_equals].
  - exact words_list_zero.
  - exact (cok_one _ OK 0 ltac:(split; reflexivity || discriminate)).
  - exact (cok_one _ OK 1 ltac:(split; reflexivity || discriminate)).
  - intros u W. rewrite fr_wide by reflexivity. eexists. split; [reflexivity|]. exact (cok_from _ OK u W).
  - intros v V. eexists. split; [reflexivity|]. exact (cok_one _ OK v V).
  - intros a x H. destruct (cok_to _ OK a x H) as [W E]. exact (words_canonical _ _ W E).
  - intros a x H. exact (proj1 (cok_tests _ OK a a x x H H)).
  - intros a x H. exact (proj1 (proj2 (cok_tests _ OK a a x x H H))).
  - intros a b x y H H'. exact (proj2 (proj2 (cok_tests _ OK a b x y H H'))).
  - exact (cok_sqr _ OK).
  - exact (cok_mul _ OK).
  - exact (cok_add _ OK).
  - intros a b x y H H'. exact eq_refl.
  - exact (cok_neg _ OK).
  - intros a x H. exact eq_refl.
  - intros a x H. exact eq_refl.
  - intros a x n H N. cbn [d_pow_zero ckzg_dialect].
    replace (if n =? 0 then Some f1 else Some (fpow x (Z.to_nat n))) with (Some (fpow x (Z.to_nat n))).
    + eexists. split; [reflexivity|]. exact (cok_pow _ OK a x n H N).
    + destruct (n =? 0) eqn:E; [|reflexivity]. apply Z.eqb_eq in E. rewrite E. change (Z.to_nat 0) with 0%nat. rewrite fpow_0. reflexivity.
  - intros a b x y H H'. cbn [d_div_zero ckzg_dialect].
    replace (if feqb y f0 then Some f0 else Some (fdiv x y)) with (Some (fdiv x y)).
    + eexists. split; [reflexivity|]. exact (cok_div _ OK _ _ _ _ H H').
    + destruct (feqb y f0) eqn:E; [|reflexivity]. apply feqb_spec in E. rewrite E. unfold fdiv. rewrite finv0. f_equal. ring.
Qed.
Lemma ct_eq_feqb a b (x y : Fr) : represents a x -> represents b y -> ct_eq a b = feqb x y.
Proof.
  intros A B. pose proof (C41_operations_proof a b x y A B) as O. destruct O as (_ & _ & _ & _ & _ & _ & _ & _ & O).
  destruct (feqb x y) eqn:E.
  - apply feqb_spec in E. apply O. exact E.
  - apply feqb_false in E. apply not_true_iff_false. intros H. apply E. apply O. exact H.
Qed.
Lemma zk_ok : impl_ok represents zk_fr zk_dialect.
Proof.
  assert (O : forall a b x y, represents a x -> represents b y -> represents (add a b) (fadd x y) /\ represents (sub a b) (fsub x y) /\ represents (mul a b) (fmul x y) /\
    represents (neg a) (fneg x) /\ represents (double a) (fadd x x) /\ represents (square a) (fmul x x) /\
    represents zero f0 /\ represents one f1 /\ (ct_eq a b = true <-> x = y)) by exact C41_operations_proof.
  pose proof (O _ _ _ _ words_list_zero words_list_zero) as (_ & _ & _ & _ & _ & _ & Z0 & Z1 & _).
  constructor; cbn [zk_fr fi_default fi_zero fi_one fi_from_arr fi_from_u64 fi_to_arr fi_is_one fi_is_zero fi_sqr fi_mul fi_add fi_sub fi_eucl_inverse fi_negate fi_inverse fi_pow fi_div fi_equals].
  - exact Z0.
  - exact Z0.
  - exact Z1.
  - intros u W. rewrite fr_wide by reflexivity. destruct (words_split u W) as (a & b & c & e & E & L). rewrite E at 1. eexists. split; [reflexivity|].
    exact (proj1 (C42_words_proof a b c e _ L)).
  - intros v V. eexists. split; [reflexivity|]. destruct (words_split [v; 0; 0; 0] (proj1 (small_words v V))) as (a & b & c & e & E & L).
    injection E as <- <- <- <-. exact (proj2 (C42_words_proof v 0 0 0 _ L)).
  - intros a x H. destruct (C42_limbs_proof a x H) as (l0 & l1 & l2 & l3 & E & L). rewrite E. apply words_canonical.
    + destruct L as (A0 & A1 & A2 & A3 & _). split; [reflexivity|]. intros z [<-|[<-|[<-|[<-|[]]]]]; assumption.
    + destruct L as (_ & _ & _ & _ & ->). unfold integer. cbn [nth limbs_val].
      change (2 ^ 128) with (2 ^ 64 * 2 ^ 64). change (2 ^ 192) with (2 ^ 64 * 2 ^ 64 * 2 ^ 64). ring.
  - intros a x H. exact (ct_eq_feqb a one x f1 H Z1).
  - intros a x H. exact (ct_eq_feqb a zero x f0 H Z0).
  - exact ct_eq_feqb.
  - intros a x H. exact (proj1 (proj2 (proj2 (proj2 (proj2 (proj2 (O a a x x H H))))))).
  - intros a b x y H H'. exact (proj1 (proj2 (proj2 (O a b x y H H')))).
  - intros a b x y H H'. exact (proj1 (O a b x y H H')).
  - intros a b x y H H'. eexists. split; [reflexivity|]. exact (proj1 (proj2 (O a b x y H H'))).
  - intros a x H. exact (proj1 (proj2 (proj2 (proj2 (O a a x x H H))))).
  - intros a x H. destruct (C43_invert_proof a x H) as [N S]. unfold inverse_of. cbn [d_eucl_inverse d_inverse_zero zk_dialect]. destruct (feqb x f0) eqn:E.
    + apply feqb_spec in E. exact (proj2 (N E)).
    + apply feqb_false in E. destruct (S E) as (t & _ & T & R & _). exists t. split; [exact T|exact R].
  - intros a x H. destruct (C43_invert_proof a x H) as [N S]. unfold inverse_of. cbn [d_inverse d_inverse_zero zk_dialect]. destruct (feqb x f0) eqn:E.
    + apply feqb_spec in E. exact (proj2 (N E)).
    + apply feqb_false in E. destruct (S E) as (t & _ & T & R & _). exists t. split; [exact T|exact R].
  - intros a x n H N. cbn [d_pow_zero zk_dialect].
    replace (if n =? 0 then Some f1 else Some (fpow x (Z.to_nat n))) with (Some (fpow x (Z.to_nat n))).
    + exact (C04_zk_proof a x n H N).
    + destruct (n =? 0) eqn:E; [|reflexivity]. apply Z.eqb_eq in E. rewrite E. change (Z.to_nat 0) with 0%nat. rewrite fpow_0. reflexivity.
  - intros a b x y H H'. cbn [d_div_zero zk_dialect]. destruct (C43_div_proof a b x y H H') as (t & T & A & D). destruct (feqb y f0) eqn:E.
    + apply feqb_spec in E. exists t. split; [exact T|exact (D E)].
    + apply feqb_false in E. exists t. split; [exact T|exact (A E)].
Qed.
Lemma stored_zero : stored fs_default (f0 : Fr).
Proof. split; [|reflexivity]. split; [reflexivity|]. intros a [<-|[<-|[<-|[<-|[]]]]]; split; reflexivity || discriminate. Qed.
Lemma fs_equals_feqb a b (x y : Fr) : stored a x -> stored b y -> fs_equals a b = feqb x y.
Proof.
  intros A B. destruct (C82_equals_proof a b x y A B) as (O & _). destruct (feqb x y) eqn:E.
  - apply feqb_spec in E. apply O. exact E.
  - apply feqb_false in E. apply not_true_iff_false. intros H. apply E. apply O. exact H.
Qed.
Lemma ark_ok : impl_ok stored ark_fr ark_dialect.
Proof.
  constructor; cbn [ark_fr fi_default fi_zero fi_one fi_from_arr fi_from_u64 fi_to_arr fi_is_one fi_is_zero fi_sqr fi_mul fi_add fi_sub fi_eucl_inverse fi_negate fi_inverse fi_pow fi_div fi_equals].
  - exact stored_zero.
  - exact (store_ok (fr_of 0)).
  - exact (store_ok (fr_of 1)).
  - intros u W. destruct (C82_words_proof u W) as [S L]. destruct (integer u <? r) eqn:E.
    + apply Z.ltb_lt in E. destruct (S E) as (x & X & V & _). eexists. split; [reflexivity|].
      replace (fr_of (integer u)) with x; [exact X|]. rewrite <- V. symmetry. exact (to_Fr_val x).
    + apply Z.ltb_ge in E. destruct (L E) as (Q & _). rewrite Q. eexists. split; [reflexivity|]. exact stored_zero.
  - intros v V. eexists. split; [reflexivity|]. exact (store_ok (fr_of v)).
  - intros a x H. destruct (C82_roundtrip_proof a x H) as (W & E & _). exact (words_canonical _ _ W E).
  - intros a x H. exact (fs_equals_feqb _ _ _ _ H (store_ok (fr_of 1))).
  - intros a x H. exact (fs_equals_feqb _ _ _ _ H (store_ok (fr_of 0))).
  - exact fs_equals_feqb.
  - intros a x H. unfold ark_op1. rewrite (read_stored a x H). apply store_ok.
  - intros a b x y H H'. unfold ark_op2. rewrite (read_stored a x H), (read_stored b y H'). apply store_ok.
  - intros a b x y H H'. unfold ark_op2. rewrite (read_stored a x H), (read_stored b y H'). apply store_ok.
  - intros a b x y H H'. unfold ark_op2. rewrite (read_stored a x H), (read_stored b y H'). eexists. split; [reflexivity|apply store_ok].
  - intros a x H. unfold ark_op1. rewrite (read_stored a x H). apply store_ok.
  - intros a x H. exact eq_refl.
  - intros a x H. rewrite (read_stored a x H). unfold inverse_of, ark_inverse. cbn [d_inverse d_inverse_zero ark_dialect]. destruct (feqb x f0).
    + exact eq_refl.
    + eexists. split; [reflexivity|apply store_ok].
  - intros a x n H N. cbn [d_pow_zero ark_dialect].
    replace (if n =? 0 then Some f1 else Some (fpow x (Z.to_nat n))) with (Some (fpow x (Z.to_nat n))).
    + unfold ark_op1. rewrite (read_stored a x H). eexists. split; [reflexivity|apply store_ok].
    + destruct (n =? 0) eqn:E; [|reflexivity]. apply Z.eqb_eq in E. rewrite E. change (Z.to_nat 0) with 0%nat. rewrite fpow_0. reflexivity.
  - intros a b x y H H'. rewrite (read_stored a x H), (read_stored b y H'). unfold ark_fr_div, lib_fdiv, ark_inverse. cbn [d_div_zero ark_dialect]. destruct (feqb y f0).
    + exact eq_refl.
    + eexists. split; [reflexivity|apply store_ok].
Qed.
Lemma mcl_ok : impl_ok eq mcl_fr mcl_dialect.
Proof.
  assert (V : forall u, words u -> words_value u = integer u) by (intros u W; rewrite integer_big by exact W; reflexivity).
  constructor; cbn [mcl_fr fi_default fi_zero fi_one fi_from_arr fi_from_u64 fi_to_arr fi_is_one fi_is_zero fi_sqr fi_mul fi_add fi_sub fi_eucl_inverse fi_negate fi_inverse fi_pow fi_div fi_equals].
  - exact eq_refl.
  - exact eq_refl.
  - apply val_inj. vm_compute. reflexivity.
  - intros u W. destruct (C62_words_proof u (proj1 W) (proj2 W)) as [S L]. rewrite (V u W) in S, L. destruct (integer u <? r) eqn:E.
    + apply Z.ltb_lt in E. destruct (S E) as (x & X & Vx & _). exists x. split; [exact X|]. rewrite <- Vx. symmetry. exact (to_Fr_val x).
    + apply Z.ltb_ge in E. exact (L E).
  - intros v Hv. destruct (C62_from_u64_proof v Hv) as (x & X & Vx). exists x. split; [exact X|]. rewrite <- Vx. symmetry. exact (to_Fr_val x).
  - intros a x ->. destruct (C62_roundtrip_proof x) as (_ & L & W & E). apply words_canonical; [split; assumption|].
    rewrite <- E. symmetry. apply V. split; assumption.
  - intros a x ->. reflexivity.
  - intros a x ->. reflexivity.
  - intros a b x y -> ->. reflexivity.
  - intros a x ->. reflexivity.
  - intros a b x y -> ->. reflexivity.
  - intros a b x y -> ->. reflexivity.
  - intros a b x y -> ->. eexists. split; reflexivity.
  - intros a x ->. reflexivity.
  - intros a x H. exact eq_refl.
  - intros a x ->. unfold inverse_of. cbn [d_inverse d_inverse_zero mcl_dialect].
    replace (if feqb x f0 then Some f0 else Some (finv x)) with (Some (finv x)).
    + eexists. split; reflexivity.
    + destruct (feqb x f0) eqn:E; [|reflexivity]. apply feqb_spec in E. rewrite E, finv0. reflexivity.
  - intros a x n -> N. cbn [d_pow_zero mcl_dialect]. destruct (n =? 0) eqn:E.
    + apply Z.eqb_eq in E. rewrite E. exists x. split; reflexivity.
    + apply Z.eqb_neq in E. exists (fpow x (Z.to_nat n)). split; [|reflexivity]. apply C55_proof. lia.
  - intros a b x y -> ->. cbn [d_div_zero mcl_dialect].
    replace (if feqb y f0 then Some f0 else Some (fdiv x y)) with (Some (fdiv x y)).
    + eexists. split; reflexivity.
    + destruct (feqb y f0) eqn:E; [|reflexivity]. apply feqb_spec in E. rewrite E. unfold fdiv. rewrite finv0. f_equal. ring.
Qed.

(** ** the theorems *)
Lemma blst_programs B p : blst_lib_ok B -> Forall typed p -> same represents (execs (blst_fr B) [] p) (meaning blst_dialect [] p).
Proof. intros OK Ty. exact (execs_ok _ _ _ (blst_ok B OK) p [] [] Ty (Forall2_nil _)). Qed.
Lemma ckzg_programs C p : ckzg_fr_lib_ok C -> Forall typed p -> same represents (execs (ckzg_fr C) [] p) (meaning ckzg_dialect [] p).
Proof. intros OK Ty. exact (execs_ok _ _ _ (ckzg_ok C OK) p [] [] Ty (Forall2_nil _)). Qed.
Lemma zk_programs p : Forall typed p -> same represents (execs zk_fr [] p) (meaning zk_dialect [] p).
Proof. intros Ty. exact (execs_ok _ _ _ zk_ok p [] [] Ty (Forall2_nil _)). Qed.
Lemma ark_programs p : Forall typed p -> same stored (execs ark_fr [] p) (meaning ark_dialect [] p).
Proof. intros Ty. exact (execs_ok _ _ _ ark_ok p [] [] Ty (Forall2_nil _)). Qed.
Lemma mcl_programs p : Forall typed p -> same eq (execs mcl_fr [] p) (meaning mcl_dialect [] p).
Proof. intros Ty. exact (execs_ok _ _ _ mcl_ok p [] [] Ty (Forall2_nil _)). Qed.

Lemma same_shows {T} (st : T -> Fr -> Prop) I p xs os : same st (execs I [] p) (Some (xs, os)) -> shows I p os.
Proof. intros (rs & E & _). exists rs. exact E. Qed.
Lemma portable_programs B C p xs os : blst_lib_ok B -> ckzg_fr_lib_ok C -> Forall typed p -> meaning strict [] p = Some (xs, os) ->
  shows (blst_fr B) p os /\ shows (ckzg_fr C) p os /\ shows zk_fr p os /\ shows ark_fr p os /\ shows mcl_fr p os.
Proof.
  intros OB OC Ty M.
  pose proof (blst_programs B p OB Ty) as H1. pose proof (ckzg_programs C p OC Ty) as H2. pose proof (zk_programs p Ty) as H3.
  pose proof (ark_programs p Ty) as H4. pose proof (mcl_programs p Ty) as H5.
  pose proof (fun d => strict_meaning d _ _ _ M) as N. rewrite N in H1, H2, H3, H4, H5.
  split; [exact (same_shows _ _ _ _ _ H1)|]. split; [exact (same_shows _ _ _ _ _ H2)|]. split; [exact (same_shows _ _ _ _ _ H3)|].
  split; [exact (same_shows _ _ _ _ _ H4)|exact (same_shows _ _ _ _ _ H5)].
Qed.

Ltac types H := repeat (apply Forall_cons; [cbn [typed]; first [exact I | exact H | split; [lia|reflexivity] | lia]|]); exact (Forall_nil _).
Lemma wide_words B C u : blst_lib_ok B -> ckzg_fr_lib_ok C -> words u -> r <= integer u ->
  let p := [SFromArr u; SShow 0] in
  shows (blst_fr B) p [ShWords (canonical (fr_of (integer u)))] /\ shows (ckzg_fr C) p [ShWords (canonical (fr_of (integer u)))] /\
  shows zk_fr p [ShWords (canonical (fr_of (integer u)))] /\ shows ark_fr p [ShWords [0; 0; 0; 0]] /\ execs mcl_fr [] p = Panic.
Proof.
  intros OB OC W L p. assert (Ty : Forall typed p) by (unfold p; types W). apply Z.ltb_ge in L.
  assert (M : forall d, meaning d [] p = match d_wide d (integer u) with Some x => Some ([x], [ShWords (canonical x)]) | None => None end).
  { intros d. unfold p. cbn [meaning value_of]. rewrite L. destruct (d_wide d (integer u)) as [x|]; reflexivity. }
  pose proof (blst_programs B p OB Ty) as H1. pose proof (ckzg_programs C p OC Ty) as H2. pose proof (zk_programs p Ty) as H3.
  pose proof (ark_programs p Ty) as H4. pose proof (mcl_programs p Ty) as H5. rewrite M in H1, H2, H3, H4, H5.
  split; [exact (same_shows _ _ _ _ _ H1)|]. split; [exact (same_shows _ _ _ _ _ H2)|]. split; [exact (same_shows _ _ _ _ _ H3)|].
  split; [exact (same_shows _ _ _ _ _ H4)|exact H5].
Qed.
Lemma show_u64 v : 0 <= v < 2 ^ 64 -> canonical (fr_of v) = [v; 0; 0; 0].
Proof.
  intros V. symmetry. destruct (small_words v V) as [W E]. apply words_canonical; [exact W|]. rewrite E, val_fr_of.
  symmetry. apply Z.mod_small. split; [lia|]. apply (Z.lt_trans _ (2 ^ 64)); [lia|reflexivity].
Qed.
Lemma canonical_0 : canonical f0 = [0; 0; 0; 0]. Proof. reflexivity. Qed.
Lemma canonical_1 : canonical f1 = [1; 0; 0; 0]. Proof. reflexivity. Qed.
Lemma subtraction B C v : blst_lib_ok B -> ckzg_fr_lib_ok C -> 0 <= v < 2 ^ 64 ->
  let p := [SFromU64 v; SSub 0 0; SShow 1] in
  shows (blst_fr B) p [ShWords [0; 0; 0; 0]] /\ shows zk_fr p [ShWords [0; 0; 0; 0]] /\ shows ark_fr p [ShWords [0; 0; 0; 0]] /\ shows mcl_fr p [ShWords [0; 0; 0; 0]] /\
  execs (ckzg_fr C) [] p = Panic.
Proof.
  intros OB OC V p. assert (Ty : Forall typed p) by (unfold p; types V).
  assert (M : forall d, meaning d [] p = if d_sub d then Some ([fr_of v; fsub (fr_of v) (fr_of v)], [ShWords (canonical (fsub (fr_of v) (fr_of v)))]) else None).
  { intros d. unfold p. cbn [meaning value_of nth_error app]. destruct (d_sub d); reflexivity. }
  replace (fsub (fr_of v) (fr_of v)) with (f0 : Fr) in M by ring. rewrite canonical_0 in M.
  pose proof (blst_programs B p OB Ty) as H1. pose proof (ckzg_programs C p OC Ty) as H2. pose proof (zk_programs p Ty) as H3.
  pose proof (ark_programs p Ty) as H4. pose proof (mcl_programs p Ty) as H5. rewrite M in H1, H2, H3, H4, H5.
  split; [exact (same_shows _ _ _ _ _ H1)|]. split; [exact (same_shows _ _ _ _ _ H3)|]. split; [exact (same_shows _ _ _ _ _ H4)|].
  split; [exact (same_shows _ _ _ _ _ H5)|exact H2].
Qed.
Lemma inverses B C v : blst_lib_ok B -> ckzg_fr_lib_ok C -> 0 < v < 2 ^ 64 ->
  let p := [SFromU64 v; SInverse 0; SMul 0 1; SShow 2] in
  shows (blst_fr B) p [ShWords [1; 0; 0; 0]] /\ shows zk_fr p [ShWords [1; 0; 0; 0]] /\ shows ark_fr p [ShWords [1; 0; 0; 0]] /\ shows mcl_fr p [ShWords [1; 0; 0; 0]] /\
  execs (ckzg_fr C) [] p = Panic.
Proof.
  intros OB OC V p. assert (Ty : Forall typed p) by (unfold p; types I).
  assert (N : fr_of v <> f0). { intros E. pose proof (f_equal val E) as X. rewrite val_fr_of, val_nil, Z.mod_small in X; [lia|]. split; [lia|].
    apply (Z.lt_trans _ (2 ^ 64)); [lia|reflexivity]. }
  assert (M : forall d, meaning d [] p = if d_inverse d then Some ([fr_of v; finv (fr_of v); fmul (fr_of v) (finv (fr_of v))], [ShWords (canonical (fmul (fr_of v) (finv (fr_of v))))]) else None).
  { intros d. unfold p. cbn [meaning value_of nth_error app]. unfold inverse_of. rewrite (proj2 (feqb_false _ _) N). destruct (d_inverse d); reflexivity. }
  rewrite (finv_r _ N), canonical_1 in M.
  pose proof (blst_programs B p OB Ty) as H1. pose proof (ckzg_programs C p OC Ty) as H2. pose proof (zk_programs p Ty) as H3.
  pose proof (ark_programs p Ty) as H4. pose proof (mcl_programs p Ty) as H5. rewrite M in H1, H2, H3, H4, H5.
  split; [exact (same_shows _ _ _ _ _ H1)|]. split; [exact (same_shows _ _ _ _ _ H3)|]. split; [exact (same_shows _ _ _ _ _ H4)|].
  split; [exact (same_shows _ _ _ _ _ H5)|exact H2].
Qed.
Lemma eucl_inverses B C v : blst_lib_ok B -> ckzg_fr_lib_ok C -> 0 < v < 2 ^ 64 ->
  let p := [SFromU64 v; SEuclInverse 0; SMul 0 1; SShow 2] in
  shows (blst_fr B) p [ShWords [1; 0; 0; 0]] /\ shows zk_fr p [ShWords [1; 0; 0; 0]] /\
  execs ark_fr [] p = Panic /\ execs mcl_fr [] p = Panic /\ execs (ckzg_fr C) [] p = Panic.
Proof.
  intros OB OC V p. assert (Ty : Forall typed p) by (unfold p; types I).
  assert (N : fr_of v <> f0). { intros E. pose proof (f_equal val E) as X. rewrite val_fr_of, val_nil, Z.mod_small in X; [lia|]. split; [lia|].
    apply (Z.lt_trans _ (2 ^ 64)); [lia|reflexivity]. }
  assert (M : forall d, meaning d [] p = if d_eucl_inverse d then Some ([fr_of v; finv (fr_of v); fmul (fr_of v) (finv (fr_of v))], [ShWords (canonical (fmul (fr_of v) (finv (fr_of v))))]) else None).
  { intros d. unfold p. cbn [meaning value_of nth_error app]. unfold inverse_of. rewrite (proj2 (feqb_false _ _) N). destruct (d_eucl_inverse d); reflexivity. }
  rewrite (finv_r _ N), canonical_1 in M.
  pose proof (blst_programs B p OB Ty) as H1. pose proof (ckzg_programs C p OC Ty) as H2. pose proof (zk_programs p Ty) as H3.
  pose proof (ark_programs p Ty) as H4. pose proof (mcl_programs p Ty) as H5. rewrite M in H1, H2, H3, H4, H5.
  split; [exact (same_shows _ _ _ _ _ H1)|]. split; [exact (same_shows _ _ _ _ _ H3)|]. split; [exact H4|]. split; [exact H5|exact H2].
Qed.
Lemma zero_inverse B C : blst_lib_ok B -> ckzg_fr_lib_ok C ->
  let p := [SZero; SInverse 0; SShow 1] in let q := [SOne; SZero; SDiv 0 1; SShow 2] in
  (shows (blst_fr B) p [ShWords [0; 0; 0; 0]] /\ shows mcl_fr p [ShWords [0; 0; 0; 0]] /\ execs zk_fr [] p = Panic /\ execs ark_fr [] p = Panic) /\
  (shows (blst_fr B) q [ShWords [0; 0; 0; 0]] /\ shows (ckzg_fr C) q [ShWords [0; 0; 0; 0]] /\ shows zk_fr q [ShWords [0; 0; 0; 0]] /\ shows mcl_fr q [ShWords [0; 0; 0; 0]] /\
   execs ark_fr [] q = Panic).
Proof.
  intros OB OC p q. assert (Ty : Forall typed p) by (unfold p; types I). assert (Tq : Forall typed q) by (unfold q; types I).
  assert (M : forall d, meaning d [] p = if d_inverse d then match d_inverse_zero d with Some x => Some ([f0; x], [ShWords (canonical x)]) | None => None end else None).
  { intros d. unfold p. cbn [meaning value_of nth_error app]. unfold inverse_of. rewrite feqb_refl. destruct (d_inverse d); [|reflexivity].
    destruct (d_inverse_zero d); reflexivity. }
  assert (N : forall d, meaning d [] q = match d_div_zero d with Some x => Some ([f1; f0; x], [ShWords (canonical x)]) | None => None end).
  { intros d. unfold q. cbn [meaning value_of nth_error app]. rewrite feqb_refl. destruct (d_div_zero d); reflexivity. }
  split.
  - pose proof (blst_programs B p OB Ty) as H1. pose proof (zk_programs p Ty) as H3.
    pose proof (ark_programs p Ty) as H4. pose proof (mcl_programs p Ty) as H5. rewrite M in H1, H3, H4, H5.
    split; [exact (same_shows _ _ _ _ _ H1)|]. split; [exact (same_shows _ _ _ _ _ H5)|]. split; [exact H3|exact H4].
  - pose proof (blst_programs B q OB Tq) as H1. pose proof (ckzg_programs C q OC Tq) as H2. pose proof (zk_programs q Tq) as H3.
    pose proof (ark_programs q Tq) as H4. pose proof (mcl_programs q Tq) as H5. rewrite N in H1, H2, H3, H4, H5.
    split; [exact (same_shows _ _ _ _ _ H1)|]. split; [exact (same_shows _ _ _ _ _ H2)|]. split; [exact (same_shows _ _ _ _ _ H3)|].
    split; [exact (same_shows _ _ _ _ _ H5)|exact H4].
Qed.
Lemma zero_power B C v : blst_lib_ok B -> ckzg_fr_lib_ok C -> 0 <= v < 2 ^ 64 ->
  let p := [SFromU64 v; SPow 0 0; SShow 1] in
  shows (blst_fr B) p [ShWords [1; 0; 0; 0]] /\ shows (ckzg_fr C) p [ShWords [1; 0; 0; 0]] /\ shows zk_fr p [ShWords [1; 0; 0; 0]] /\ shows ark_fr p [ShWords [1; 0; 0; 0]] /\
  shows mcl_fr p [ShWords [v; 0; 0; 0]].
Proof.
  intros OB OC V p. assert (Ty : Forall typed p) by (unfold p; types I).
  assert (M : forall d, meaning d [] p = match d_pow_zero d (fr_of v) with Some x => Some ([fr_of v; x], [ShWords (canonical x)]) | None => None end).
  { intros d. unfold p. cbn [meaning value_of nth_error app]. rewrite Z.eqb_refl. destruct (d_pow_zero d (fr_of v)); reflexivity. }
  pose proof (blst_programs B p OB Ty) as H1. pose proof (ckzg_programs C p OC Ty) as H2. pose proof (zk_programs p Ty) as H3.
  pose proof (ark_programs p Ty) as H4. pose proof (mcl_programs p Ty) as H5. rewrite M in H1, H2, H3, H4, H5.
  cbn [d_pow_zero mcl_dialect] in H5. rewrite (show_u64 v V) in H5.
  split; [exact (same_shows _ _ _ _ _ H1)|]. split; [exact (same_shows _ _ _ _ _ H2)|]. split; [exact (same_shows _ _ _ _ _ H3)|].
  split; [exact (same_shows _ _ _ _ _ H4)|exact (same_shows _ _ _ _ _ H5)].
Qed.

(** ** null and random values *)
Lemma max_words : words [2 ^ 64 - 1; 2 ^ 64 - 1; 2 ^ 64 - 1; 2 ^ 64 - 1] /\ integer [2 ^ 64 - 1; 2 ^ 64 - 1; 2 ^ 64 - 1; 2 ^ 64 - 1] = 2 ^ 256 - 1.
Proof. split; [split; [reflexivity|]; intros a [<-|[<-|[<-|[<-|[]]]]]; split; reflexivity || discriminate|reflexivity]. Qed.
Lemma null_blst B a (x : Fr) : blst_lib_ok B -> represents a x -> (blst_is_null B a = true <-> val x = (2 ^ 256 - 1) mod r).
Proof.
  intros OK H. pose proof (bok_from _ OK _ (proj1 max_words)) as N. rewrite (proj2 max_words) in N.
  pose proof (io_equals _ _ _ (blst_ok B OK) _ _ _ _ H N) as E. cbn [fi_equals blst_fr] in E.
  unfold blst_is_null, blst_null, blst_from_arr. rewrite E, feqb_val, val_fr_of. apply Z.eqb_eq.
Qed.
Lemma null_blst_value B : blst_lib_ok B -> blst_is_null B (blst_from_arr B (canonical (fr_of (2 ^ 256 - 1)))) = true.
Proof.
  intros OK. refine (proj2 (null_blst B _ (fr_of (2 ^ 256 - 1)) OK _) (val_fr_of _)).
  assert (W : words (canonical (fr_of (2 ^ 256 - 1))) /\ integer (canonical (fr_of (2 ^ 256 - 1))) = val (fr_of (2 ^ 256 - 1))).
  { split; [|vm_compute; reflexivity]. split; [reflexivity|]. intros a. assert (E : canonical (fr_of (2 ^ 256 - 1)) = [8589934589; 6378425256633387010; 11064306276430008309; 1739710354780652911]) by (vm_compute; reflexivity).
    rewrite E. intros [<-|[<-|[<-|[<-|[]]]]]; split; reflexivity || discriminate. }
  pose proof (bok_from _ OK _ (proj1 W)) as R. rewrite (proj2 W) in R. rewrite (to_Fr_val (fr_of (2 ^ 256 - 1)) : fr_of (val (fr_of (2 ^ 256 - 1))) = _) in R. exact R.
Qed.
Lemma null_ckzg (x : Fr) : ~ represents ckzg_null x.
Proof.
  unfold represents, ckzg_null, limbs. intros (_ & _ & _ & _ & E).
  pose proof (Z.mod_pos_bound (val x * 2 ^ 256) r ltac:(reflexivity)) as [_ U]. rewrite E in U. revert U. vm_compute. discriminate.
Qed.
Lemma words_even (D : list Z -> scalar) (x : Fr) : (forall u, words u -> represents (D u) (fr_of (integer u))) ->
  counted (if val x <? 2 ^ 256 - 2 * r then 3 else 2) (fun u => words u /\ represents (D u) x).
Proof.
  intros HD.
  assert (Dec : forall i, 0 <= i < 2 ^ 256 -> words (big_words i) /\ integer (big_words i) = i).
  { intros i I. destruct (big_words_ok i I) as [W E]. split; [exact W|]. rewrite integer_big by exact W. exact E. }
  pose proof (even words integer big_words (2 ^ 256) r r_pos
    (fun u H => eq_ind_r (fun z => 0 <= z < 2 ^ 256) (big_range u H) (integer_big u H))
    (fun a b A B E => big_inj a b A B (eq_trans (eq_sym (integer_big a A)) (eq_trans E (integer_big b B)))) Dec (val x) (val_range x)) as C.
  assert (E1 : 2 ^ 256 mod r = 2 ^ 256 - 2 * r) by (vm_compute; reflexivity). assert (E2 : 2 ^ 256 / r = 2) by (vm_compute; reflexivity).
  rewrite E1, E2 in C. revert C. apply (counted_via _ _ _ (fun l => l)); intros u [W H]; (split; [|reflexivity]).
  - split; [exact W|]. pose proof (HD u W) as R. assert (E : fr_of (integer u) = x) by (apply val_inj; rewrite val_fr_of; exact H).
    rewrite <- E. exact R.
  - split; [exact W|]. rewrite <- val_fr_of. exact (represents_fun _ _ _ (HD u W) H).
Qed.
Lemma rand_even B C (x : Fr) : blst_lib_ok B -> ckzg_fr_lib_ok C ->
  counted (if val x <? 2 ^ 256 - 2 * r then 3 else 2) (fun u => words u /\ represents (blst_rand B u) x) /\
  counted (if val x <? 2 ^ 256 - 2 * r then 3 else 2) (fun u => words u /\ represents (ckzg_rand C u) x).
Proof. intros OB OC. split; apply words_even; [exact (bok_from _ OB)|exact (cok_from _ OC)]. Qed.

(** ** libraries that compute in the field exist: zkcrypto's arithmetic *)
Definition ex_from (u : list Z) : scalar := match u with [a; b; c; e] => from_raw a b c e | _ => zero end.
Definition ex_inv (a : scalar) : scalar := match invert a with Some x => x | None => zero end.
Definition ex_blst : blst_lib := BlstLib ex_from to_u64_arr square mul add sub ex_inv (fun a _ => neg a) ex_inv.
Definition ex_pow (a : scalar) (n : Z) : scalar := match zk_pow a n with Ok s => s | _ => zero end.
Definition ex_ckzg : ckzg_fr_lib := CkzgFrLib ex_from from_u64 to_u64_arr is_one is_zero ct_eq square mul add neg ex_pow (fun a b => mul a (ex_inv b)).
Lemma ex_from_ok u : words u -> represents (ex_from u) (fr_of (integer u)).
Proof. intros W. destruct (words_split u W) as (a & b & c & e & E & L). rewrite E at 1. exact (proj1 (C42_words_proof a b c e _ L)). Qed.
Lemma ex_to_ok a (x : Fr) : represents a x -> words (to_u64_arr a) /\ integer (to_u64_arr a) = val x.
Proof.
  intros H. destruct (C42_limbs_proof a x H) as (l0 & l1 & l2 & l3 & E & L). rewrite E. split.
  - destruct L as (A0 & A1 & A2 & A3 & _). split; [reflexivity|]. intros z [<-|[<-|[<-|[<-|[]]]]]; assumption.
  - destruct L as (_ & _ & _ & _ & ->). unfold integer. cbn [nth limbs_val].
    change (2 ^ 128) with (2 ^ 64 * 2 ^ 64). change (2 ^ 192) with (2 ^ 64 * 2 ^ 64 * 2 ^ 64). ring.
Qed.
Lemma ex_inv_ok a (x : Fr) : represents a x -> represents (ex_inv a) (finv x).
Proof.
  intros H. destruct (C43_invert_proof a x H) as [N S]. unfold ex_inv. destruct (feqb x f0) eqn:E.
  - apply feqb_spec in E. rewrite (proj1 (N E)), E, finv0. exact (io_zero _ _ _ zk_ok).
  - apply feqb_false in E. destruct (S E) as (t & -> & _ & R & _). exact R.
Qed.
Lemma agree_ok {T} (st : T -> Fr -> Prop) a x : agree st (Ok a) (Some x) -> st a x.
Proof. intros (b & E & R). injection E as <-. exact R. Qed.
Lemma ex_libs : blst_lib_ok ex_blst /\ ckzg_fr_lib_ok ex_ckzg.
Proof.
  pose proof zk_ok as O. split; constructor.
  - exact ex_from_ok.
  - exact ex_to_ok.
  - exact (io_sqr _ _ _ O).
  - exact (io_mul _ _ _ O).
  - exact (io_add _ _ _ O).
  - intros a b x y H H'. refine (agree_ok represents (sub a b) (fsub x y) _). exact (io_sub _ _ _ O a b x y H H').
  - exact (io_negate _ _ _ O).
  - intros a x H. split; exact (ex_inv_ok a x H).
  - exact ex_from_ok.
  - intros v V. refine (agree_ok represents (from_u64 v) (fr_of v) _). exact (io_from_u64 _ _ _ O v V).
  - exact ex_to_ok.
  - intros a b x y H H'. split; [exact (io_is_one _ _ _ O a x H)|]. split; [exact (io_is_zero _ _ _ O a x H)|exact (io_equals _ _ _ O a b x y H H')].
  - exact (io_sqr _ _ _ O).
  - exact (io_mul _ _ _ O).
  - exact (io_add _ _ _ O).
  - exact (io_negate _ _ _ O).
  - intros a x n H N. destruct (C04_zk_proof a x n H N) as (s & E & R). unfold cf_pow, ex_ckzg, ex_pow. rewrite E. exact R.
  - intros a b x y H H'. exact (io_mul _ _ _ O _ _ _ _ H (ex_inv_ok b y H')).
Qed.
(** 5 as words and as a number, (5 + 5) * 5 / 5 - by a negation - is 5 *)
Definition ex_program : list stmt :=
  [SFromArr [5; 0; 0; 0]; SFromU64 5; SEquals 0 1; SAdd 0 1; SMul 2 1; SDiv 3 0; SNegate 1; SAdd 4 5; SShow 6; SPow 6 3; SShow 7; SIsZero 5; SSqr 1; SShow 8].
Lemma ex_program_ok : Forall typed ex_program /\
  exists xs, meaning strict [] ex_program = Some (xs, [ShBool true; ShWords [5; 0; 0; 0]; ShWords [125; 0; 0; 0]; ShBool false; ShWords [25; 0; 0; 0]]).
Proof.
  split.
  - repeat (constructor; [first [exact I | cbn; lia | exact (proj1 (small_words 5 ltac:(lia)))]|]). constructor.
  - assert (A : option_map snd (meaning strict [] ex_program) = Some [ShBool true; ShWords [5; 0; 0; 0]; ShWords [125; 0; 0; 0]; ShBool false; ShWords [25; 0; 0; 0]]) by (vm_compute; reflexivity).
    destruct (meaning strict [] ex_program) as [[xs os]|]; [|discriminate A]. exists xs. injection A as ->. reflexivity.
Qed.
Lemma rand_case : 0 < 2 ^ 256 - 2 * r < r - 1 /\ words [2 ^ 64 - 1; 2 ^ 64 - 1; 2 ^ 64 - 1; 2 ^ 64 - 1] /\
  r <= integer [2 ^ 64 - 1; 2 ^ 64 - 1; 2 ^ 64 - 1; 2 ^ 64 - 1] /\ canonical (fr_of 7) = [7; 0; 0; 0].
Proof.
  split; [split; reflexivity|]. split; [exact (proj1 max_words)|]. split; [rewrite (proj2 max_words); vm_compute; discriminate|reflexivity].
Qed.
