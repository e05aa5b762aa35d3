(** * Proof_ZkFKRel: transforms and batch proofs on words against those on group elements *)
From Coq Require Import List Arith Bool ZArith NArith Lia.
From Verif Require Import Base Fld Zr Loops Model_Scalar Model_Fp Model_Curve Model_G1 Model_Utils Model_FFT Model_KZG Model_FK20 Model_Zk Model_ZkMsm Model_ZkZero Model_ZkFK20 Model_ZkWords Model_ZkWordsFK Proof_Rel Proof_Utils.
Import ListNotations.

(** related, or a panic where one is allowed *)
Definition orp {A B} (may : Prop) (R : A -> B -> Prop) (x : res A) (y : res B) : Prop := (may /\ x = Panic) \/ rrel R x y.
Section Orp.
Variable may : Prop.
Lemma orp_rrel {A B} (R : A -> B -> Prop) x y : rrel R x y -> orp may R x y. Proof. right. assumption. Qed.
Lemma orp_bind {A B A' B'} (R : A -> B -> Prop) (S : A' -> B' -> Prop) x y k k' :
  orp may R x y -> (forall a b, R a b -> orp may S (k a) (k' b)) -> orp may S (bind x k) (bind y k').
Proof.
  intros [[M E]|H] K; [left; split; [exact M|rewrite E; reflexivity]|].
  destruct x, y; cbn [rrel bind] in *; try contradiction; auto; right; exact I.
Qed.
Lemma orp_bind_r {A B A' B'} (R : A -> B -> Prop) (S : A' -> B' -> Prop) x y k k' :
  rrel R x y -> (forall a b, R a b -> orp may S (k a) (k' b)) -> orp may S (bind x k) (bind y k').
Proof. intros H. apply orp_bind. right. exact H. Qed.
Lemma orp_same {A A' B'} (S : A' -> B' -> Prop) (x : res A) k k' :
  (forall a, x = Ok a -> orp may S (k a) (k' a)) -> orp may S (bind x k) (bind x k').
Proof. intros H. destruct x; cbn [bind]; auto; right; exact I. Qed.
Lemma orp_unwrap {A B} (R : A -> B -> Prop) x y : orp may R x y -> orp may R (unwrap x) (unwrap y).
Proof. intros [[M E]|H]; [left; split; [exact M|rewrite E; reflexivity]|right; apply unwrap_rel; exact H]. Qed.
Lemma orp_for {S T} (RS : S -> T -> Prop) body body' n :
  forall i, (forall j s t, i <= j < i + n -> RS s t -> orp may RS (body j s) (body' j t)) ->
  forall s t, RS s t -> orp may RS (for_ n i body s) (for_ n i body' t).
Proof.
  induction n as [|n IH]; intros i HB s t HS; cbn [for_]; [right; exact HS|].
  eapply orp_bind; [apply HB; [lia|exact HS]|]. apply IH. intros j s' t' Hj. apply HB. lia.
Qed.
Lemma orp_for_range {S T} (RS : S -> T -> Prop) body body' a b :
  (forall j s t, a <= j < b -> RS s t -> orp may RS (body j s) (body' j t)) ->
  forall s t, RS s t -> orp may RS (for_range a b body s) (for_range a b body' t).
Proof. intros HB. unfold for_range. apply orp_for. intros j s t Hj. apply HB. lia. Qed.
Lemma orp_map {A B} (R : A -> B -> Prop) (f : A -> res A) (g : B -> B) (l : list A) (l' : list B) : Forall2 R l l' ->
  (forall a b, R a b -> orp may R (f a) (Ok (g b))) -> forall (o : list A) (o' : list B), Forall2 R o o' ->
  orp may (Forall2 R) (for_each l (fun a out => let* v := f a in Ok (out ++ [v])) o) (Ok (o' ++ map g l')).
Proof.
  intros H HF. induction H as [|a b l l' H _ IH]; intros o o' HO; cbn [for_each map].
  - right. cbn [rrel]. rewrite app_nil_r. exact HO.
  - destruct (HF a b H) as [[M E]|E]; [left; split; [exact M|rewrite E; reflexivity]|].
    destruct (f a) as [v| | |]; cbn [rrel] in E; try contradiction. cbn [bind].
    replace (o' ++ g b :: map g l') with ((o' ++ [g b]) ++ map g l') by (rewrite <- app_assoc; reflexivity).
    apply IH. apply Forall2_app; [exact HO|constructor; [exact E|constructor]].
Qed.
End Orp.

(** a loop whose steps succeed or panic and one of whose steps panics *)
Lemma for_panics {S} (P : S -> Prop) (body : nat -> S -> res S) n : forall a i s,
  (forall j s, a <= j < a + n -> P s -> body j s = Panic \/ exists t, body j s = Ok t /\ P t) ->
  (forall s, P s -> body i s = Panic) -> a <= i < a + n -> P s -> for_ n a body s = Panic.
Proof.
  induction n as [|n IH]; intros a i s HB HI Ha HS; [lia|]. cbn [for_].
  destruct (Nat.eq_dec a i) as [->|N]; [rewrite HI by exact HS; reflexivity|].
  destruct (HB a s ltac:(lia) HS) as [E|(t & E & HT)]; rewrite E; cbn [bind]; [reflexivity|]. apply (IH _ i); auto; [|lia]. intros j s' Hj. apply HB. lia.
Qed.

Lemma for_len {S} (len : S -> nat) d (body : nat -> S -> res S) n : (forall j e a, body j e = Ok a -> len a = d + len e) ->
  forall i e a, for_ n i body e = Ok a -> len a = n * d + len e.
Proof.
  intros HB. induction n as [|n IH]; intros i e a E; cbn [for_] in E; [injection E as <-; reflexivity|].
  destruct (body i e) as [e'| | |] eqn:E1; cbn [bind] in E; try discriminate. apply IH in E. apply HB in E1. lia.
Qed.
Lemma for_range_len {S} (len : S -> nat) d (body : nat -> S -> res S) a b e o : (forall j e a, body j e = Ok a -> len a = d + len e) ->
  for_range a b body e = Ok o -> len o = (b - a) * d + len e.
Proof. intros HB. apply for_len. exact HB. Qed.
Lemma rrel_and {A B} (R : A -> B -> Prop) (Q : A -> Prop) x y : rrel R x y -> (forall a, x = Ok a -> Q a) -> rrel (fun a b => R a b /\ Q a) x y.
Proof. intros H HQ. destruct x, y; cbn [rrel] in *; auto. Qed.
Lemma orp_and {A B} may (R : A -> B -> Prop) (Q : A -> Prop) x y : orp may R x y -> (forall a, x = Ok a -> Q a) -> orp may (fun a b => R a b /\ Q a) x y.
Proof. intros [H|H] HQ; [left; exact H|right; apply rrel_and; assumption]. Qed.
Lemma idx_some {A} (l : list A) i c : idx l i = Ok c -> nth_error l i = Some c.
Proof. unfold idx. destruct (nth_error l i); intros E; [injection E as ->; reflexivity|discriminate]. Qed.
Lemma usub_some a b c : usub a b = Ok c -> b <= a /\ c = a - b.
Proof. unfold usub. destruct (Nat.leb_spec b a); intros E; [injection E as ->; auto|discriminate]. Qed.
Lemma bind_ok {A B} (x : res A) (k : A -> res B) b : bind x k = Ok b -> exists a, x = Ok a /\ k a = Ok b.
Proof. destruct x; cbn [bind]; intros H; try discriminate. eauto. Qed.
Lemma for_each_len {A} (f : A -> res A) l : forall e o, for_each l (fun a out => let* v := f a in Ok (out ++ [v])) e = Ok o -> length o = length e + length l.
Proof.
  induction l as [|a l IH]; intros e o E; cbn [for_each length] in E |- *; [injection E as <-; lia|].
  apply bind_ok in E as (e' & E1 & E). apply bind_ok in E1 as (v & _ & E1). injection E1 as <-. apply IH in E. rewrite app_length in E. cbn [length] in E. lia.
Qed.
Lemma upd_len {A} (l : list A) i a o : upd l i a = Ok o -> length o = length l.
Proof.
  unfold upd. destruct (i <? length l); intros E; [|discriminate]. injection E as <-. revert i. induction l as [|x l IH]; intros [|i]; cbn [set length]; auto.
Qed.

Section Rel.
Context {M : gmod Fr} (R : g1_projective -> M -> Prop) (checked : bool) (may : Prop) (ok : Fr -> Prop).
Hypothesis R0 : R zkw_g1_identity g0.
Hypothesis Radd : forall a b a' b', R a a' -> R b b' -> R (zkw_g1_add_or_dbl a b) (gadd a' b').
Hypothesis Rsub : forall a b a' b', R a a' -> R b b' -> R (zkw_g1_sub a b) (gsub a' b').
Hypothesis Rmul : forall a a' c, R a a' -> ok c -> orp may R (zkw_g1_mul checked a (fr_limbs c)) (Ok (smul c a')).

Lemma mul_bind {A B} (S : A -> B -> Prop) a a' c k k' : R a a' -> ok c ->
  (forall v v', R v v' -> orp may S (k v) (k' v')) -> orp may S (bind (zkw_g1_mul checked a (fr_limbs c)) k) (k' (smul c a')).
Proof. intros H HO K. exact (orp_bind may R S _ (Ok (smul c a')) k k' (Rmul a a' c H HO) K). Qed.

Lemma fast_rel fuel : forall ret ret' data data' stride roots rs, Forall2 R ret ret' -> Forall2 R data data' ->
  (forall i c, 2 * i < length ret -> nth_error roots (i * rs) = Some c -> ok c) ->
  orp may (Forall2 R) (zkw_fft_g1_fast_ checked fuel ret data stride roots rs) (fft_g1_fast_ fuel ret' data' stride roots rs).
Proof.
  induction fuel as [|fuel IH]; intros ret ret' data data' stride roots rs HR HD HO; [right; exact I|].
  cbn [zkw_fft_g1_fast_ fft_g1_fast_]. rewrite <- (Forall2_length _ _ _ HR). set (sp := length ret / 2).
  assert (D := Nat.div_mod (length ret) 2 ltac:(lia)). assert (DB := Nat.mod_upper_bound (length ret) 2 ltac:(lia)). fold sp in D.
  destruct (Nat.ltb_spec 0 sp) as [L|L].
  - eapply orp_bind; [apply IH; [apply firstn_rel; exact HR|exact HD|]|].
    { intros i c Hi E. rewrite firstn_length in Hi. apply (HO (2 * i)); [lia|]. rewrite <- E. f_equal. lia. }
    intros lo lo' HL. eapply orp_bind_r; [apply slice_from_rel; exact HD|]. intros d d' Hd.
    eapply orp_bind; [apply IH; [apply skipn_rel; exact HR|exact Hd|]|].
    { intros i c Hi E. rewrite skipn_length in Hi. apply (HO (2 * i)); [lia|]. rewrite <- E. f_equal. lia. }
    intros hi hi' HH. apply orp_for_range; [|apply Forall2_app; assumption].
    intros j s t Hj HS. eapply orp_bind_r; [apply (idx_rel R); exact HS|]. intros y y' Ry.
    apply orp_same. intros c E.
    assert (OC : ok c). { apply (HO j); [lia|]. apply idx_some; exact E. }
    cbv zeta. apply (mul_bind (Forall2 R) y y' c _ (fun v => let* x := idx t j in let* ret0 := upd t (j + sp) (gsub x v) in let* x0 := idx ret0 j in upd ret0 j (gadd x0 v)) Ry OC).
    intros v v' Rv. apply orp_rrel. eapply bind_rel; [apply (idx_rel R); exact HS|]. intros x x' Rx.
    eapply bind_rel; [apply upd_rel; [exact HS|apply Rsub; eassumption]|]. intros u u' Hu.
    eapply bind_rel; [apply (idx_rel R); exact Hu|]. intros x2 x2' Rx2. apply upd_rel; [exact Hu|apply Radd; assumption].
  - apply orp_rrel. eapply bind_rel; [apply (idx_rel R); exact HD|]. intros x x' Rx. apply upd_rel; assumption.
Qed.

Lemma scale_rel c l l' : ok c -> Forall2 R l l' ->
  orp may (Forall2 R) (for_each l (fun a out => let* v := zkw_g1_mul checked a (fr_limbs c) in Ok (out ++ [v])) []) (Ok (map (fun f => smul c f) l')).
Proof.
  intros OC H.
  assert (HF : forall a b, R a b -> orp may R (zkw_g1_mul checked a (fr_limbs c)) (Ok (smul c b))) by (intros a b HA; exact (Rmul a b c HA OC)).
  exact (orp_map may R (fun a => zkw_g1_mul checked a (fr_limbs c)) (fun f => smul c f) l l' H HF [] [] (Forall2_nil _)).
Qed.
(** the roots that a transform of length n multiplies by *)
Definition roots_ok (fs : fft_settings Fr) (n : nat) (inverse : bool) : Prop :=
  (forall i c, 2 * i < n -> nth_error (if inverse then reverse_roots fs else expanded_roots fs) (i * (max_width fs / n)) = Some c -> ok c) /\
  (inverse = true -> forall c, zkf_inverse (fnat n : Fr) = Ok c -> ok c).
Lemma fft_rel fs data data' inverse : Forall2 R data data' -> roots_ok fs (length data) inverse ->
  orp may (Forall2 R) (zkw_fft_g1 checked fs data inverse) (zk_fft_g1 fs data' inverse).
Proof.
  intros HD [HO HI]. unfold zkw_fft_g1, zk_fft_g1. rewrite <- (Forall2_length _ _ _ HD).
  destruct (max_width fs <? length data); [right; exact I|]. destruct (negb (zk_is_pow2 (length data))); [right; exact I|].
  set (roots := if inverse then reverse_roots fs else expanded_roots fs) in *. eapply orp_bind.
  - unfold zkw_fft_g1_fast, fft_g1_fast. rewrite !repeat_length. apply fast_rel; [apply repeat_rel; exact R0|exact HD|].
    rewrite repeat_length. exact HO.
  - intros ret ret' HR. destruct inverse; [|right; exact HR]. apply orp_same. intros c E.
    pose proof (HI eq_refl c E) as OC.
    pose proof (scale_rel c _ _ OC (firstn_rel R (length data) _ _ HR)) as O.
    refine (orp_bind may (Forall2 R) (Forall2 R) _ _ _ (fun f => Ok (f ++ skipn (length data) ret')) O _).
    intros a b HA. right. apply Forall2_app; [exact HA|apply skipn_rel; exact HR].
Qed.
Lemma slow_rel ret ret' data data' stride roots rs : Forall2 R ret ret' -> Forall2 R data data' ->
  (forall c, nth_error roots 0 = Some c -> ok c) ->
  (forall i j c, i < length data -> 1 <= j < length data -> nth_error roots ((i * j) mod length data * rs) = Some c -> ok c) ->
  orp may (Forall2 R) (zkw_fft_g1_slow checked ret data stride roots rs) (fft_g1_slow ret' data' stride roots rs).
Proof.
  intros HR HD H0 HO. unfold zkw_fft_g1_slow, fft_g1_slow. rewrite <- (Forall2_length _ _ _ HD).
  apply orp_for_range; [|exact HR]. intros i s t Hi HS.
  eapply orp_bind_r; [apply (idx_rel R); exact HD|]. intros d d' Rd. apply orp_same. intros c E.
  assert (OC : ok c). { apply H0. apply idx_some; exact E. }
  apply (mul_bind (Forall2 R) d d' c _ (fun v => let* ret0 := upd t i v in for_range 1 (length data) (fun j ret1 => let* d0 := idx data' (j * stride) in
      let* r := idx roots (((i * j) mod length data) * rs) in let v0 := smul r d0 in let* x := idx ret1 i in upd ret1 i (gadd x v0)) ret0) Rd OC).
  intros v v' Rv. eapply orp_bind_r; [apply upd_rel; eassumption|]. intros u u' Hu.
  apply orp_for_range; [|exact Hu]. clear E c OC. intros j s1 t1 Hj HS1.
  eapply orp_bind_r; [apply (idx_rel R); exact HD|]. intros d1 d1' Rd1. apply orp_same. intros c E.
  assert (OC : ok c). { apply (HO i j); [lia|lia|]. apply idx_some; exact E. }
  cbv zeta. apply (mul_bind (Forall2 R) d1 d1' c _ (fun v0 => let* x := idx t1 i in upd t1 i (gadd x v0)) Rd1 OC).
  intros w w' Rw. apply orp_rrel. eapply bind_rel; [apply (idx_rel R); exact HS1|]. intros x x' Rx. apply upd_rel; [exact HS1|apply Radd; assumption].
Qed.

(** ** batch proofs *)
Lemma push_rel x x' : Forall2 R x x' -> forall e e', Forall2 R e e' ->
  rrel (Forall2 R) (for_each x (fun x_i e => Ok (e ++ [x_i])) e) (for_each x' (fun x_i e => Ok (e ++ [x_i])) e').
Proof.
  intros H. apply (for_each_rel R (Forall2 R)); [exact H|]. intros a b s t Ra Rs. apply Forall2_app; auto.
Qed.
Lemma part1_rel x x' fs : Forall2 R x x' -> roots_ok fs (length x * 2) false ->
  orp may (Forall2 R) (zkw_toeplitz_part_1 checked x fs) (zk_toeplitz_part_1 x' fs).
Proof.
  intros H HO. unfold zkw_toeplitz_part_1, zk_toeplitz_part_1. rewrite <- (Forall2_length _ _ _ H).
  assert (P1 : forall (y e : list g1_projective), for_each y (fun x_i e => Ok (e ++ [x_i])) e = Ok (e ++ y)).
  { induction y as [|a y IH]; intros e; cbn [for_each bind]; [now rewrite app_nil_r|]. rewrite IH, <- app_assoc. reflexivity. }
  assert (P2 : forall n i (e : list g1_projective), for_ n i (fun _ e => Ok (e ++ [zkw_g1_identity])) e = Ok (e ++ repeat zkw_g1_identity n)).
  { induction n as [|n IH]; intros i e; cbn [for_ bind repeat]; [now rewrite app_nil_r|]. rewrite IH, <- app_assoc. reflexivity. }
  eapply (orp_bind_r may (fun a b => Forall2 R a b /\ a = x)).
  { pose proof (push_rel _ _ H [] [] (Forall2_nil _)) as Q. rewrite P1 in *. cbn [app] in *.
    destruct (for_each x' _ []); cbn [rrel] in *; try contradiction. auto. }
  intros a b [Ha ->]. eapply (orp_bind_r may (fun a b => Forall2 R a b /\ length a = length x * 2)).
  { assert (Q : rrel (Forall2 R) (for_range (length x) (length x * 2) (fun _ e => Ok (e ++ [zkw_g1_identity])) x) (for_range (length x) (length x * 2) (fun _ e => Ok (e ++ [g0])) b)).
    { apply for_range_rel; [|exact Ha]. intros j s t _ HS. apply Forall2_app; auto. }
    unfold for_range in *. rewrite P2 in *. destruct (for_ _ _ _ b); cbn [rrel] in *; try contradiction. split; [exact Q|].
    rewrite app_length, repeat_length. lia. }
  intros c d [Hc Lc]. apply orp_unwrap, fft_rel; [exact Hc|rewrite Lc; exact HO].
Qed.
(** the transform of the coefficients gives multipliers that are allowed *)
Definition coeffs_ok (fs : fft_settings Fr) (tc : list Fr) : Prop := forall cs c, zk_fft_fr fs tc false = Ok cs -> In c cs -> ok c.
Lemma part2_rel tc x x' fs : Forall2 R x x' -> coeffs_ok fs tc ->
  orp may (Forall2 R) (zkw_toeplitz_part_2 checked tc x fs) (zk_toeplitz_part_2 tc x' fs).
Proof.
  intros H HO. unfold zkw_toeplitz_part_2, zk_toeplitz_part_2. apply orp_same. intros cs E.
  assert (OC : forall c, In c cs -> ok c).
  { intros c. apply (HO cs c). destruct (zk_fft_fr fs tc false); cbn [unwrap] in E; try discriminate. exact E. }
  apply orp_for_range; [|constructor]. intros j s t _ HS. eapply orp_bind_r; [apply (idx_rel R); exact H|]. intros y y' Ry.
  apply orp_same. intros c Ec. apply (mul_bind (Forall2 R) y y' c _ (fun v => Ok (t ++ [v])) Ry).
  - apply OC. apply idx_some in Ec. eapply nth_error_In. exact Ec.
  - intros v v' Rv. right. apply Forall2_app; auto.
Qed.
Lemma clear_rel l l' n n2 : Forall2 R l l' -> rrel (Forall2 R) (zkw_clear_range l n n2) (clear_range l' n n2).
Proof.
  intros H. unfold zkw_clear_range, clear_range. rewrite (Forall2_length _ _ _ H). destruct (_ && _); cbn [rrel]; [|exact I].
  apply Forall2_app; [apply firstn_rel; exact H|]. apply Forall2_app; [apply repeat_rel; exact R0|apply skipn_rel; exact H].
Qed.
Lemma part3_rel h h' fs : Forall2 R h h' -> roots_ok fs (length h) true ->
  orp may (Forall2 R) (zkw_toeplitz_part_3 checked h fs) (zk_toeplitz_part_3 h' fs).
Proof.
  intros H HO. unfold zkw_toeplitz_part_3, zk_toeplitz_part_3. rewrite <- (Forall2_length _ _ _ H).
  eapply orp_bind; [apply orp_unwrap, fft_rel; eassumption|]. intros a b Ha. apply orp_rrel, clear_rel. exact Ha.
Qed.
Lemma reverse_rel l l' : Forall2 R l l' -> rrel (Forall2 R) (zk_reverse_bit_order l) (zk_reverse_bit_order l').
Proof.
  intros H. unfold zk_reverse_bit_order, reverse_bit_order. rewrite <- (Forall2_length _ _ _ H).
  apply (bind_rel eq); [apply rrel_of; reflexivity|]. intros la ? <-. apply for_range_rel; [|exact H].
  intros j s t _ HS. apply (bind_rel eq); [apply rrel_of; reflexivity|]. intros q ? <-. cbv zeta.
  destruct (j <? N.to_nat q); [|exact HS]. eapply bind_rel; [apply (idx_rel R); exact HS|]. intros a b Ra.
  eapply bind_rel; [apply (idx_rel R); exact HS|]. intros c d Rc. eapply bind_rel; [apply upd_rel; eassumption|]. intros u v Hu.
  apply upd_rel; assumption.
Qed.
End Rel.

Lemma while_rel {S T} (RS : S -> T -> Prop) cond cond' body body' : (forall s t, RS s t -> cond s = cond' t) ->
  (forall s t, RS s t -> rrel RS (body s) (body' t)) -> forall fuel s t, RS s t -> rrel RS (while_ fuel cond body s) (while_ fuel cond' body' t).
Proof.
  intros HC HB. induction fuel as [|fuel IH]; intros s t HS; [exact I|]. cbn [while_]. rewrite (HC s t HS). destruct (cond' t); [|exact HS].
  eapply bind_rel; [apply HB; exact HS|]. exact IH.
Qed.

Section FK.
Context {P : pairing Fr} (R : g1_projective -> PG1 P -> Prop) (checked : bool) (may : Prop) (ok : Fr -> Prop).
Hypothesis R0 : R zkw_g1_identity g0.
Hypothesis Radd : forall a b a' b', R a a' -> R b b' -> R (zkw_g1_add_or_dbl a b) (gadd a' b').
Hypothesis Rsub : forall a b a' b', R a a' -> R b b' -> R (zkw_g1_sub a b) (gsub a' b').
Hypothesis Rmul : forall a a' c, R a a' -> ok c -> orp may R (zkw_g1_mul checked a (fr_limbs c)) (Ok (smul c a')).
(** settings with the same tables and related points *)
Definition ksr (ks : zkw_settings) (KS : kzg_settings P) : Prop := zkw_fs ks = kzg_fs KS /\ Forall2 R (zkw_secret_g1 ks) (secret_g1 KS).
Definition sgr (fk : zkw_single) (FK : fk20_single P) : Prop := ksr (zkws_kzg fk) (fks_kzg FK) /\ Forall2 R (zkws_x_ext_fft fk) (fks_x_ext_fft FK).
Definition mlr (fk : zkw_multi) (FK : fk20_multi P) : Prop :=
  ksr (zkwm_kzg fk) (fkm_kzg FK) /\ zkwm_chunk_len fk = fkm_chunk_len FK /\ Forall2 (Forall2 R) (zkwm_files fk) (fkm_files FK).

Lemma single_new_rel ks KS n : ksr ks KS -> (2 <= n -> is_pow2 n = true -> roots_ok ok (kzg_fs KS) n false) ->
  orp may sgr (zkw_fk20_single_new checked ks n) (zk_fk20_single_new KS n).
Proof.
  intros HK HO. pose proof HK as [HF H1]. unfold zkw_fk20_single_new, zk_fk20_single_new. rewrite HF. cbv zeta.
  destruct (max_width (kzg_fs KS) <? n); [right; exact I|]. destruct (is_pow2 n) eqn:P2; cbn [negb]; [|right; exact I].
  destruct (Nat.ltb_spec n 2) as [|L2]; [right; exact I|]. apply orp_same. intros la E.
  eapply (orp_bind_r may (fun a b => Forall2 R a b /\ length a = la)).
  { apply rrel_and.
    - apply for_range_rel; [|constructor]. intros j s t _ HS. apply (bind_rel eq); [apply rrel_of; reflexivity|]. intros u ? <-.
      apply (bind_rel eq); [apply rrel_of; reflexivity|]. intros u2 ? <-. eapply bind_rel; [apply (idx_rel R); exact H1|]. intros v v' Rv. apply Forall2_app; auto.
    - intros a Ea. apply (for_range_len (@length _) 1) in Ea; [cbn [length] in Ea; lia|]. intros j e o Eo.
      apply bind_ok in Eo as (u & _ & Eo). apply bind_ok in Eo as (u2 & _ & Eo). apply bind_ok in Eo as (v & _ & Eo). injection Eo as <-. rewrite app_length. cbn [length]. lia. }
  intros x x' [Hx Lx]. eapply orp_bind.
  - apply (@part1_rel _ R checked may ok R0 Radd Rsub Rmul); auto; [apply Forall2_app; auto|].
    assert (EN : length (x ++ [zkw_g1_identity]) * 2 = n).
    { rewrite app_length, Lx. cbn [length]. apply usub_some in E as [E1 ->].
      assert (n mod 2 = 0); [|pose proof (Nat.div_mod n 2 ltac:(lia)); lia].
      destruct (proj1 (is_pow2_spec n) P2) as (m & ->). destruct m; [cbn in L2; lia|]. rewrite Nat.pow_succ_r', Nat.mul_comm. apply Nat.mod_mul. lia. }
    rewrite EN. apply HO; auto.
  - intros a b Ha. right. split; [exact HK|exact Ha].
Qed.

(** [n2] is the number of proofs times the length of a chunk *)
Definition da_ok (fs : fft_settings Fr) (n : nat) : Prop := roots_ok ok fs n false /\ roots_ok ok fs n true.
Lemma part2_len tc x fs h : zkw_toeplitz_part_2 checked tc x fs = Ok h -> length h = length tc.
Proof.
  unfold zkw_toeplitz_part_2. intros E. apply bind_ok in E as (cs & _ & E). apply (for_range_len (@length _) 1) in E; [cbn [length] in E; lia|].
  intros j e o Eo. apply bind_ok in Eo as (u & _ & Eo). apply bind_ok in Eo as (u2 & _ & Eo). apply bind_ok in Eo as (v & _ & Eo). injection Eo as <-. rewrite app_length. cbn [length]. lia.
Qed.
Lemma fast_len fuel : forall ret data stride roots rs o, zkw_fft_g1_fast_ checked fuel ret data stride roots rs = Ok o -> length o = length ret.
Proof.
  induction fuel as [|fuel IH]; intros ret data stride roots rs o E; [discriminate|]. cbn [zkw_fft_g1_fast_] in E.
  set (sp := length ret / 2) in E. assert (D := Nat.div_mod (length ret) 2 ltac:(lia)). fold sp in D.
  destruct (0 <? sp).
  - apply bind_ok in E as (lo & E1 & E). apply bind_ok in E as (d & _ & E). apply bind_ok in E as (hi & E2 & E). apply IH in E1. apply IH in E2.
    apply (for_range_len (@length _) 0) in E.
    + rewrite app_length, E1, E2, firstn_length, skipn_length in E. lia.
    + intros j e a Ea. apply bind_ok in Ea as (y & _ & Ea). apply bind_ok in Ea as (c & _ & Ea). apply bind_ok in Ea as (v & _ & Ea). apply bind_ok in Ea as (z & _ & Ea).
      apply bind_ok in Ea as (u & Eu & Ea). apply bind_ok in Ea as (z2 & _ & Ea). apply upd_len in Ea. apply upd_len in Eu. lia.
  - apply bind_ok in E as (d & _ & E). apply upd_len in E. exact E.
Qed.
Lemma fft_len fs data inverse o : zkw_fft_g1 checked fs data inverse = Ok o -> length o = length data.
Proof.
  unfold zkw_fft_g1. destruct (_ <? _); [discriminate|]. destruct (negb _); [discriminate|]. intros E. apply bind_ok in E as (ret & E1 & E).
  apply fast_len in E1. rewrite repeat_length in E1. destruct inverse; [|injection E as <-; exact E1].
  apply bind_ok in E as (c & _ & E). apply bind_ok in E as (fr & E2 & E). injection E as <-.
  pose proof (for_each_len (fun f => zkw_g1_mul checked f (fr_limbs c)) _ _ _ E2) as E3. rewrite app_length, E3, firstn_length, skipn_length. cbn [length]. lia.
Qed.
Lemma clear_len l a b o : zkw_clear_range l a b = Ok o -> length o = length l.
Proof.
  unfold zkw_clear_range. destruct (Nat.leb_spec a b), (Nat.leb_spec b (length l)); cbn [andb]; intros E; try discriminate. injection E as <-.
  rewrite !app_length, firstn_length, repeat_length, skipn_length. lia.
Qed.
Lemma part3_len h fs o : zkw_toeplitz_part_3 checked h fs = Ok o -> length o = length h.
Proof.
  unfold zkw_toeplitz_part_3. intros E. apply bind_ok in E as (a & E1 & E). apply clear_len in E.
  destruct (zkw_fft_g1 checked fs h true) eqn:F; cbn [unwrap] in E1; try discriminate. injection E1 as <-. apply fft_len in F. lia.
Qed.

Lemma single_da_opt_rel fk FK p : sgr fk FK ->
  (forall tc, zk_toeplitz_coeffs_step p = Ok tc -> coeffs_ok ok (kzg_fs (fks_kzg FK)) tc /\ da_ok (kzg_fs (fks_kzg FK)) (length tc)) ->
  orp may (Forall2 R) (zkw_fk20_single_da_opt checked fk p) (zk_fk20_single_da_opt FK p).
Proof.
  intros [[HF _] HX] HO. unfold zkw_fk20_single_da_opt, zk_fk20_single_da_opt. rewrite HF. cbv zeta.
  destruct (_ <? _); [right; exact I|]. destruct (negb _); [right; exact I|]. apply orp_same. intros tc E. destruct (HO tc E) as (CO & RF & RT).
  eapply orp_bind; [apply (orp_and may (Forall2 R) (fun h => length h = length tc)); [apply (@part2_rel _ R checked may ok Rmul); auto|apply part2_len]|].
  intros h h' [Hh Lh]. eapply orp_bind; [apply (orp_and may (Forall2 R) (fun g => length g = length h)); [apply (@part3_rel _ R checked may ok R0 Radd Rsub Rmul); auto; rewrite Lh; exact RT|apply part3_len]|].
  intros g g' [Hg Lg]. apply orp_unwrap, (@fft_rel _ R checked may ok R0 Radd Rsub Rmul); auto. rewrite Lg, Lh. exact RF.
Qed.
Lemma single_da_rel fk FK p : sgr fk FK ->
  (forall tc, zk_toeplitz_coeffs_step p = Ok tc -> coeffs_ok ok (kzg_fs (fks_kzg FK)) tc /\ da_ok (kzg_fs (fks_kzg FK)) (length tc)) ->
  orp may (Forall2 R) (zkw_fk20_single_da checked fk p) (zk_fk20_single_da FK p).
Proof.
  intros H HO. pose proof H as [[HF _] _]. unfold zkw_fk20_single_da, zk_fk20_single_da. rewrite HF. cbv zeta.
  destruct (_ <? _); [right; exact I|]. destruct (negb _); [right; exact I|].
  eapply orp_bind; [apply orp_unwrap, single_da_opt_rel; eassumption|]. intros a b Ha. apply orp_rrel, reverse_rel. exact Ha.
Qed.

(** ** cosets *)
Lemma multi_new_rel ks KS n c : ksr ks KS -> (1 <= n / 2 / c -> roots_ok ok (kzg_fs KS) (n / 2 / c * 2) false) ->
  orp may mlr (zkw_fk20_multi_new checked ks n c) (zk_fk20_multi_new KS n c).
Proof.
  intros HK HO. pose proof HK as [HF H1]. unfold zkw_fk20_multi_new, zk_fk20_multi_new. rewrite HF. cbv zeta.
  destruct (max_width (kzg_fs KS) <? n); [right; exact I|]. destruct (negb (is_pow2 n)); [right; exact I|].
  destruct (n <? 2); [right; exact I|]. destruct (Nat.ltb_spec (n / 2) c) as [|LC]; [right; exact I|]. destruct (is_pow2 c) eqn:PC; cbn [negb]; [|right; exact I].
  assert (C0 : 0 < c). { destruct (proj1 (is_pow2_spec c) PC) as (b & ->). pose proof (Nat.pow_nonzero 2 b). lia. }
  assert (K1 : 1 <= n / 2 / c) by (apply Nat.div_le_lower_bound; lia). set (k := n / 2 / c) in *.
  eapply (orp_bind may (Forall2 (Forall2 R))).
  - apply orp_for_range; [|constructor]. intros off files files' _ HFi.
    eapply (orp_bind_r may (fun a b => (fst a = fst b /\ Forall2 R (snd a) (snd b)) /\ length (snd a) + 1 = k)).
    { apply rrel_and.
      - apply (while_rel (fun a b => fst a = fst b /\ Forall2 R (snd a) (snd b))).
        + intros [[i j] x] [[i' j'] x'] [E _]. cbn [fst] in E. injection E as -> ->. reflexivity.
        + intros [[i j] x] [[i' j'] x'] [E Hx]. cbn [fst snd] in *. injection E as -> ->.
          eapply bind_rel; [apply (idx_rel R); exact H1|]. intros v v' Rv. split; cbn [fst snd]; [reflexivity|]. apply Forall2_app; auto.
        + split; [reflexivity|constructor].
      - intros a. assert (G : forall fuel i j (x : list g1_projective) a, length x = i -> i < k ->
          while_ fuel (fun st : nat * nat * list g1_projective => let '(i, _, _) := st in i + 1 <? k)
          (fun st => let '(i, j, x) := st in
             let* v := idx (zkw_secret_g1 ks) j in
             Ok (i + 1, (if c <=? j then j - c else 0), x ++ [v])) (i, j, x) = Ok a -> length (snd a) + 1 = k).
        { clear. induction fuel as [|fuel IH]; intros i j x a Lx Li E; cbn [while_] in E; [discriminate|].
          destruct (Nat.ltb_spec (i + 1) k); [|injection E as <-; cbn [snd]; lia].
          apply bind_ok in E as (st & E1 & E). apply bind_ok in E1 as (v & _ & E1). injection E1 as <-.
          apply IH in E; [exact E|rewrite app_length; cbn [length]; lia|lia]. }
        apply G; cbn [length]; lia. }
    intros [[i j] x] [[i' j'] x'] [[_ Hx] Lx]. cbn [fst snd] in *.
    eapply orp_bind; [apply (@part1_rel _ R checked may ok R0 Radd Rsub Rmul); auto; [apply Forall2_app; auto|]|].
    { rewrite app_length. cbn [length]. rewrite Lx. apply HO. exact K1. }
    intros f f' Hf. right. apply Forall2_app; auto.
  - intros fl fl' Hfl. right. split; [exact HK|]. split; [reflexivity|exact Hfl].
Qed.
Lemma multi_da_opt_rel fk FK p : mlr fk FK ->
  (forall i tc, i < fkm_chunk_len FK -> zk_toeplitz_coeffs_stride i (fkm_chunk_len FK) p = Ok tc -> coeffs_ok ok (kzg_fs (fkm_kzg FK)) tc) ->
  (0 < fkm_chunk_len FK -> da_ok (kzg_fs (fkm_kzg FK)) (length p * 2 / 2 / fkm_chunk_len FK * 2)) ->
  orp may (Forall2 R) (zkw_fk20_multi_da_opt checked fk p) (zk_fk20_multi_da_opt FK p).
Proof.
  intros ([HF _] & HC & HX) HT HD. unfold zkw_fk20_multi_da_opt, zk_fk20_multi_da_opt. rewrite HF, HC. cbv zeta.
  set (c := fkm_chunk_len FK) in *. destruct (_ <? _); [right; exact I|]. destruct (negb _); [right; exact I|].
  destruct (Nat.eqb_spec c 0) as [|NC]; [right; exact I|]. cbn [bind]. destruct HD as [RF RT]; [lia|]. set (k := length p * 2 / 2 / c) in *.
  eapply (orp_bind may (fun a b => Forall2 R a b /\ length a = k * 2)).
  - apply orp_and.
    + apply orp_for_range; [|apply repeat_rel; exact R0]. intros i h h' Hi Hh. apply orp_same. intros tc E.
      eapply orp_bind_r; [apply (idx_rel (Forall2 R)); exact HX|]. intros f f' Hf.
      eapply orp_bind; [apply (@part2_rel _ R checked may ok Rmul); auto; apply (HT i); [lia|exact E]|]. intros g g' Hg.
      apply orp_rrel, for_range_rel; [|exact Hh]. intros j u u' _ Hu.
      eapply bind_rel; [apply (idx_rel R); exact Hu|]. intros a a' Ra. eapply bind_rel; [apply (idx_rel R); exact Hg|]. intros b b' Rb.
      apply upd_rel; [exact Hu|apply Radd; assumption].
    + intros a E. apply (for_range_len (@length _) 0) in E; [rewrite repeat_length in E; lia|]. intros j e o Eo.
      apply bind_ok in Eo as (tc & _ & Eo). apply bind_ok in Eo as (f & _ & Eo). apply bind_ok in Eo as (hf & _ & Eo).
      apply (for_range_len (@length _) 0) in Eo; [lia|]. clear. intros j e o Eo. apply bind_ok in Eo as (x & _ & Eo). apply bind_ok in Eo as (y & _ & Eo).
      apply upd_len in Eo. exact Eo.
  - intros h h' [Hh Lh]. eapply orp_bind; [apply (orp_and may (Forall2 R) (fun g => length g = length h)); [apply (@part3_rel _ R checked may ok R0 Radd Rsub Rmul); auto; rewrite Lh; exact RT|apply part3_len]|].
    intros g g' [Hg Lg]. eapply (orp_bind_r may (fun a b => Forall2 R a b /\ length a = length g)); [apply rrel_and; [apply clear_rel; auto|intros a; apply clear_len]|].
    intros e e' [He Le]. apply orp_unwrap, (@fft_rel _ R checked may ok R0 Radd Rsub Rmul); auto. rewrite Le, Lg, Lh. exact RF.
Qed.
Lemma multi_da_rel fk FK p : mlr fk FK ->
  (forall i tc, i < fkm_chunk_len FK -> zk_toeplitz_coeffs_stride i (fkm_chunk_len FK) p = Ok tc -> coeffs_ok ok (kzg_fs (fkm_kzg FK)) tc) ->
  (0 < fkm_chunk_len FK -> da_ok (kzg_fs (fkm_kzg FK)) (length p * 2 / 2 / fkm_chunk_len FK * 2)) ->
  orp may (Forall2 R) (zkw_fk20_multi_da checked fk p) (zk_fk20_multi_da FK p).
Proof.
  intros H HT HD. pose proof H as ([HF _] & _). unfold zkw_fk20_multi_da, zk_fk20_multi_da. rewrite HF. cbv zeta.
  destruct (_ <? _); [right; exact I|]. destruct (negb _); [right; exact I|].
  eapply orp_bind; [apply orp_unwrap, multi_da_opt_rel; eassumption|]. intros a b Ha. apply orp_rrel, reverse_rel. exact Ha.
Qed.
End FK.
