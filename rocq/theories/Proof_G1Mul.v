(** * Proof_G1Mul: the scalar multiplication of g1.rs *)
From Coq Require Import ZArith List Bool Lia.
From Verif Require Import Base Fld Zr Zp Spec_Scalar Model_Scalar Proof_Scalar Proof_Scalar2 Spec_Curve Model_Fp Model_Curve Model_G1
  Proof_FpRep Proof_FpTop Spec_CurveCode Proof_Curve Proof_CurveCode Proof_CurveMul Proof_Endo Proof_G1Base Proof_GLV Proof_Recode.
Import ListNotations.
Local Open Scope Z_scope.

Notation pstands := (proj_stands (F:=fp_ops) b4 frep).
Notation astands := (aff_stands (F:=fp_ops) b4 frep).

(** ** the endomorphism *)
Definition beta : Fp := fp_of 0x1a0111ea397fe699ec02408663d4de85aa0d857d89759ad4897d29650fb85f9b409427eb4f49fffd8bfd00000000aaac.
Lemma beta_rep : frep g1_BETA beta.
Proof. apply stands_for_frep. apply stands_for_lit. vm_compute. repeat split; congruence. Qed.
Lemma beta_root : fadd (fadd (fmul beta beta) beta) f1 = f0.
Proof.
  unfold beta. rewrite <- Fp_of_1, <- fp_of_mul, <- !fp_of_add, <- Fp_of_0. apply fp_of_eq. vm_compute. reflexivity.
Qed.
Lemma Fp_three : (fadd (fadd f1 f1) f1 : Fp) <> f0.
Proof. rewrite <- Fp_of_1, <- !fp_of_add, <- Fp_of_0. apply fp_of_neq. vm_compute. reflexivity. Qed.
Notation phi := (endo beta).

Lemma aff_endo_ok t P : astands t P -> astands (aff_endo t) (phi P).
Proof.
  destruct t as [x y i]. intros (X & Y & RX & RY & C & S). unfold aff_endo.
  exists (fmul X beta), Y. split; [apply frep_mul; [exact RX|apply beta_rep]|]. split; [exact RY|].
  split; [apply endo_on_curve; [exact beta_root|exact C]|].
  destruct i.
  - destruct S as (-> & NY & ->). split; [apply zero_scale|]. split; [exact NY|reflexivity].
  - rewrite S. cbn [endo]. f_equal. apply scale_comm.
Qed.

(** ** the table *)
Definition G1_ADD := proj_add_ok fp_ops_ok Fp_two Fp_NoTwo.
Definition G1_DBL := proj_double_ok fp_ops_ok Fp_two Fp_NoTwo.
Definition G1_MIX := proj_add_mixed_ok fp_ops_ok Fp_two Fp_NoTwo.
Definition G1_SUBM := proj_sub_mixed_ok fp_ops_ok Fp_two Fp_NoTwo.
Definition G1_ZADD := pt_zmul_add (b:=b4) Fp_two Fp_NoTwo.
Definition G1_ZADDR := pt_zmul_add_r (b:=b4) Fp_two Fp_NoTwo.
Definition G1_ZMUL := pt_zmul_mul (b:=b4) Fp_two Fp_NoTwo.
Definition G1_ZOPP := pt_zmul_opp (b:=b4) Fp_two Fp_NoTwo.
Definition G1_ZON := zmul_on_curve (b:=b4) Fp_two Fp_NoTwo.
Definition G1_ONE := pt_zmul_1 (b:=b4).

Lemma Forall2_len {A B} (R : A -> B -> Prop) l m : Forall2 R l m -> length l = length m.
Proof. induction 1; cbn; congruence. Qed.
Definition odd_points (P : point Fp) : list (point Fp) := map (fun i => point_zmul i P) [1; 3; 5; 7; 9; 11; 13; 15].
Lemma odd_multiples_ok P d : on_curve b4 P -> pstands d (point_zmul 2 P) -> forall n p m, pstands p (point_zmul m P) ->
  Forall2 pstands (odd_multiples n p d) (map (fun i => point_zmul (m + 2 * Z.of_nat i) P) (seq 1 n)).
Proof.
  intros C D. induction n as [|n IH]; intros p m H; [constructor|].
  assert (A : pstands (proj_add p d) (point_zmul (m + 2) P)) by (rewrite G1_ZADD by exact C; apply G1_ADD; assumption).
  cbn [odd_multiples seq map]. constructor; [exact A|].
  specialize (IH _ _ A). rewrite <- seq_shift, map_map.
  erewrite map_ext; [exact IH|]. intros i. cbv beta. f_equal. lia.
Qed.
Lemma odd_multiples_length n : forall p d, length (odd_multiples n p d) = n.
Proof. induction n; intros; [reflexivity|]. cbn. now rewrite IHn. Qed.
Lemma precompute_ok p P t0 : pstands p P -> astands t0 P ->
  exists table, g1_precompute p t0 = Ok table /\ Forall2 astands table (odd_points P).
Proof.
  intros H T. unfold g1_precompute. pose proof (proj_stands_on_curve _ _ H) as C.
  assert (H1 : pstands p (point_zmul 1 P)) by (rewrite G1_ONE by exact C; exact H).
  assert (D : pstands (proj_double p) (point_zmul 2 P)).
  { change 2 with (1 + 1). rewrite G1_ZADD by exact C. apply G1_DBL. exact H1. }
  pose proof (odd_multiples_ok P _ C D 7 p 1 H1) as O.
  destruct (batch_normalize_ok fp_ops_ok (odd_multiples 7 p (proj_double p)) _ O) as [(out & E & S) _].
  rewrite odd_multiples_length in E. rewrite E. cbn [bind]. exists (t0 :: out). split; [reflexivity|].
  unfold odd_points. constructor; [rewrite G1_ONE by exact C; exact T|]. exact S.
Qed.

(** ** reading the table *)
Definition lp_bit (index j : Z) : bool :=
  let eq := Z.lxor j index in
  let bit4 := Z.lor (Z.land eq 15) (Z.shiftr eq 4) in
  let bit2 := Z.lor (Z.land bit4 3) (Z.shiftr bit4 2) in
  let bit1 := Z.lor (Z.land bit2 1) (Z.shiftr bit2 1) in
  negb (bit1 =? 1).
Lemma lp_bit_ok index j : 0 <= index < 128 -> 0 <= j < 8 -> lp_bit index j = (index =? j).
Proof.
  intros I J.
  assert (H : forallb (fun i => forallb (fun j => eqb (lp_bit i j) (i =? j)) (range 0 8)) (range 0 128) = true) by (vm_compute; reflexivity).
  pose proof (check_range _ _ _ H index I) as G. cbv beta in G. pose proof (check_range _ _ _ G j J) as F.
  now apply eqb_prop in F.
Qed.
Lemma linear_pass_ok index table : 0 <= index < 128 -> length table = 8%nat ->
  linear_pass index table = nth (Z.to_nat index) table aff_identity.
Proof.
  intros I L. destruct table as [|e0 [|e1 [|e2 [|e3 [|e4 [|e5 [|e6 [|e7 [|e8 t]]]]]]]]]; try discriminate L.
  unfold linear_pass. cbn [fold_left fst].
  change (Z.lxor 0 index) with (Z.lxor 0 index).
  repeat match goal with |- context [select ?a ?b (negb (Z.lor (Z.land (Z.lor (Z.land (Z.lor (Z.land (Z.lxor ?j index) 15) (Z.shiftr (Z.lxor ?j index) 4)) 3) ?x) 1) ?y =? 1))] =>
    change (select a b _) with (select a b (lp_bit index j)) end.
  rewrite !lp_bit_ok by lia.
  assert (C : index = 0 \/ index = 1 \/ index = 2 \/ index = 3 \/ index = 4 \/ index = 5 \/ index = 6 \/ index = 7 \/ 8 <= index) by lia.
  destruct C as [-> | [-> | [-> | [-> | [-> | [-> | [-> | [-> | C]]]]]]]]; try reflexivity.
  rewrite !(proj2 (Z.eqb_neq _ _)) by lia. cbn [select]. rewrite nth_overflow by (cbn [length]; lia). reflexivity.
Qed.

Definition sgn (s : Z) : Z := if s =? 0 then 1 else -1.
(** the multiple that a digit adds: digits outside the table add nothing *)
Definition ent (d : Z) : Z := if Z.abs d <? 16 then d else 0.
Lemma digit_bits d : -127 <= d <= 127 ->
  Z.shiftr d 7 = (if d <? 0 then -1 else 0) /\
  Z.lxor d (Z.shiftr d 7) - Z.shiftr d 7 = Z.abs d /\ as_u8 (Z.shiftr (Z.abs d) 1) = Z.abs d / 2.
Proof.
  intros D.
  assert (H : forallb (fun d => (Z.shiftr d 7 =? (if d <? 0 then -1 else 0)) &&
    (Z.lxor d (Z.shiftr d 7) - Z.shiftr d 7 =? Z.abs d) && (as_u8 (Z.shiftr (Z.abs d) 1) =? Z.abs d / 2)) (range (-127) 255) = true)
    by (vm_compute; reflexivity).
  pose proof (check_range _ _ _ H d ltac:(lia)) as G. cbv beta in G. rewrite !andb_true_iff, !Z.eqb_eq in G. tauto.
Qed.
Lemma digit_entry_ok checked table P s d : on_curve b4 P -> Forall2 astands table (odd_points P) -> s = 0 \/ s = -1 ->
  Z.odd d = true -> -127 <= d <= 127 ->
  exists t, digit_entry checked table s d = Ok t /\ astands t (point_zmul (sgn s * ent d) P).
Proof.
  intros C T S O D. destruct (digit_bits d D) as (B1 & B2 & B3). unfold digit_entry. cbv zeta.
  rewrite i8_sub_ok by lia. cbn [bind]. rewrite B2, B3.
  pose proof (Forall2_len _ _ _ T) as L. cbn in L.
  assert (IR : 0 <= Z.abs d / 2 < 128) by (split; [apply Z.div_pos; lia|apply Z.div_lt_upper_bound; lia]).
  rewrite linear_pass_ok by assumption.
  eexists. split; [reflexivity|].
  assert (E : astands (nth (Z.to_nat (Z.abs d / 2)) table aff_identity) (point_zmul (Z.abs (ent d)) P)).
  { assert (A0 : astands aff_identity Infinity) by apply (aff_identity_ok fp_ops_ok).
    assert (OA : Z.odd (Z.abs d) = true) by (destruct (Z.abs_eq_or_opp d) as [-> | ->]; [exact O|rewrite Z.odd_opp; exact O]).
    pose proof (Z.div2_odd (Z.abs d)) as D2. rewrite OA, Z.div2_div in D2. cbn [Z.b2z] in D2.
    unfold ent. destruct (Z.ltb_spec (Z.abs d) 16) as [LT|GE].
    - set (i := Z.abs d / 2) in *. rewrite D2.
      assert (Q : i = 0 \/ i = 1 \/ i = 2 \/ i = 3 \/ i = 4 \/ i = 5 \/ i = 6 \/ i = 7) by lia.
      unfold odd_points in T. cbn [map] in T.
      destruct table as [|e0 [|e1 [|e2 [|e3 [|e4 [|e5 [|e6 [|e7 [|e8 t]]]]]]]]]; try discriminate L.
      repeat match goal with H : Forall2 _ (_ :: _) (_ :: _) |- _ => inversion H; subst; clear H end.
      destruct Q as [-> | [-> | [-> | [-> | [-> | [-> | [-> | ->]]]]]]]; assumption.
    - rewrite nth_overflow by lia. exact A0. }
  assert (N : astands (aff_neg (nth (Z.to_nat (Z.abs d / 2)) table aff_identity)) (point_zmul (- Z.abs (ent d)) P)).
  { rewrite G1_ZOPP by exact C. apply (aff_neg_ok fp_ops_ok). exact E. }
  rewrite B1.
  assert (EA : ent d = if d <? 0 then - Z.abs (ent d) else Z.abs (ent d)).
  { unfold ent. destruct (Z.abs d <? 16); destruct (Z.ltb_spec d 0); lia. }
  rewrite EA. unfold sgn.
  destruct S as [-> | ->], (d <? 0); cbn -[Z.mul Z.abs ent aff_neg nth point_zmul Z.to_nat Z.div];
    change (as_u8 (-0) =? 1) with false; change (as_u8 1 =? 1) with true; cbn [select].
  - replace (1 * - Z.abs (ent d)) with (- Z.abs (ent d)) by lia. exact N.
  - replace (1 * Z.abs (ent d)) with (Z.abs (ent d)) by lia. exact E.
  - replace (-1 * - Z.abs (ent d)) with (Z.abs (ent d)) by lia. exact E.
  - replace (-1 * Z.abs (ent d)) with (- Z.abs (ent d)) by lia. exact N.
Qed.

(** ** the main loop *)
Section Loop.
Context (checked : bool) (table : list g1_affine) (P : point Fp) (s1 s2 : Z).
Hypothesis C : on_curve b4 P.
Hypothesis T : Forall2 astands table (odd_points P).
Hypothesis S1 : s1 = 0 \/ s1 = -1.
Hypothesis S2 : s2 = 0 \/ s2 = -1.

Definition comb (n1 n2 : Z) : point Fp := point_add (point_zmul n1 P) (point_zmul n2 (phi P)).
Let CP : on_curve b4 (phi P) := endo_on_curve beta beta_root P C.

Lemma comb_on n1 n2 : on_curve b4 (comb n1 n2).
Proof. apply (point_add_on_curve b4 Fp_two Fp_NoTwo); apply G1_ZON; assumption. Qed.
Lemma comb_add a c a' c' : point_add (comb a c) (comb a' c') = comb (a + a') (c + c').
Proof.
  unfold comb. rewrite !G1_ZADD by assumption.
  pose proof (G1_ZON a P C) as D1. pose proof (G1_ZON a' P C) as D2.
  pose proof (G1_ZON c _ CP) as D3. pose proof (G1_ZON c' _ CP) as D4.
  pose proof (point_add_assoc b4 Fp_two Fp_NoTwo) as AS. pose proof (point_add_comm b4 Fp_two Fp_NoTwo) as CM.
  pose proof (point_add_on_curve b4 Fp_two Fp_NoTwo) as ON.
  rewrite <- (AS _ _ _ D1 D3 (ON _ _ D2 D4)). rewrite (AS _ _ _ D3 D2 D4). rewrite (CM _ _ D3 D2).
  rewrite <- (AS _ _ _ D2 D3 D4). rewrite (AS _ _ _ D1 D2 (ON _ _ D3 D4)). reflexivity.
Qed.
Lemma comb_P n : comb n 0 = point_zmul n P.
Proof. unfold comb. change (point_zmul 0 (phi P)) with (Infinity : point Fp). apply point_add_0_r. Qed.
Lemma comb_phi n : comb 0 n = point_zmul n (phi P).
Proof. unfold comb. change (point_zmul 0 P) with (Infinity : point Fp). apply point_add_0_l. Qed.

Definition row_ok (d : Z * Z) : Prop :=
  (Z.odd (fst d) = true /\ -127 <= fst d <= 127) /\ (Z.odd (snd d) = true /\ -127 <= snd d <= 127).
Lemma multiply_round_ok acc n1 n2 d1 d2 : pstands acc (comb n1 n2) -> row_ok (d1, d2) ->
  exists acc', multiply_round checked table s1 s2 acc d1 d2 = Ok acc' /\
    pstands acc' (comb (16 * n1 + sgn s1 * ent d1) (16 * n2 + sgn s2 * ent d2)).
Proof.
  intros H [[O1 R1] [O2 R2]]. cbn [fst snd] in *.
  assert (DB : forall q a c, pstands q (comb a c) -> pstands (proj_double q) (comb (2 * a) (2 * c))).
  { intros q a c Q. apply G1_DBL in Q. rewrite comb_add in Q.
    replace (2 * a) with (a + a) by ring. replace (2 * c) with (c + c) by ring. exact Q. }
  apply DB, DB, DB, DB in H. unfold multiply_round. cbv zeta.
  destruct (digit_entry_ok checked table P s1 d1 C T S1 O1 R1) as (t1 & -> & T1). cbn [bind].
  destruct (digit_entry_ok checked table P s2 d2 C T S2 O2 R2) as (t2 & -> & T2). cbn [bind].
  eexists. split; [reflexivity|].
  rewrite <- comb_P in T1. apply aff_endo_ok in T2. rewrite <- endo_zmul in T2 by exact beta_root. rewrite <- comb_phi in T2.
  pose proof (G1_MIX _ _ _ _ (G1_MIX _ _ _ _ H T1) T2) as F. rewrite !comb_add in F.
  replace (16 * n1 + sgn s1 * ent d1) with (2 * (2 * (2 * (2 * n1))) + sgn s1 * ent d1 + 0) by ring.
  replace (16 * n2 + sgn s2 * ent d2) with (2 * (2 * (2 * (2 * n2))) + 0 + sgn s2 * ent d2) by ring. exact F.
Qed.
Lemma multiply_loop_app ds d1 d2 : forall acc, multiply_loop checked table s1 s2 (ds ++ [(d1, d2)]) acc
  = let* acc := multiply_loop checked table s1 s2 ds acc in multiply_round checked table s1 s2 acc d1 d2.
Proof.
  induction ds as [|[e1 e2] ds IH]; intros acc.
  - cbn [app multiply_loop bind]. destruct (multiply_round checked table s1 s2 acc d1 d2); reflexivity.
  - cbn [app multiply_loop]. destruct (multiply_round checked table s1 s2 acc e1 e2); cbn [bind]; [apply IH|reflexivity..].
Qed.
Lemma multiply_loop_ok ds acc : pstands acc (comb 0 0) -> Forall row_ok ds ->
  exists acc', multiply_loop checked table s1 s2 (rev ds) acc = Ok acc' /\
    pstands acc' (comb (sgn s1 * dsum (map ent (map fst ds))) (sgn s2 * dsum (map ent (map snd ds)))).
Proof.
  intros H. induction 1 as [|[d1 d2] ds R F IH].
  - exists acc. split; [reflexivity|]. cbn [map dsum]. rewrite !Z.mul_0_r. exact H.
  - destruct IH as (a & E & S). cbn [rev]. rewrite multiply_loop_app, E. cbn [bind].
    destruct (multiply_round_ok _ _ _ d1 d2 S R) as (a' & E' & S'). exists a'. split; [exact E'|].
    cbn [map dsum fst snd].
    replace (sgn s1 * (ent d1 + 16 * dsum (map ent (map fst ds))))
      with (16 * (sgn s1 * dsum (map ent (map fst ds))) + sgn s1 * ent d1) by ring.
    replace (sgn s2 * (ent d2 + 16 * dsum (map ent (map snd ds))))
      with (16 * (sgn s2 * dsum (map ent (map snd ds))) + sgn s2 * ent d2) by ring. exact S'.
Qed.
End Loop.

(** ** the whole multiplication *)
(** what the recoding of N adds up to: the last digit may fall outside the table *)
Definition recoded (N : Z) : Z :=
  let last := 2 * (N / 2 ^ 129) + 1 in N - 16 ^ 32 * last + 16 ^ 32 * ent (as_i8 (last mod 256)).
Lemma recoded_small N : 0 <= N < 2 ^ 132 -> recoded N = N.
Proof.
  intros H. unfold recoded. cbv zeta.
  assert (Q : 0 <= N / 2 ^ 129 < 8).
  { split; [apply Z.div_pos; [lia|reflexivity]|]. apply Z.div_lt_upper_bound; [reflexivity|]. change (2 ^ 129 * 8) with (2 ^ 132). lia. }
  set (q := N / 2 ^ 129) in *. rewrite Z.mod_small by lia. unfold as_i8, ent.
  destruct (Z.ltb_spec (2 * q + 1) 128); [|lia]. destruct (Z.ltb_spec (Z.abs (2 * q + 1)) 16); [|lia]. ring.
Qed.
(** the last digit fits i8 arithmetic *)
Lemma as_i8_odd m : let d := as_i8 ((2 * m + 1) mod 256) in Z.odd d = true /\ -127 <= d <= 127.
Proof.
  cbv zeta. set (x := (2 * m + 1) mod 256).
  assert (E : exists q, x = 2 * q + 1).
  { exists (m - 128 * ((2 * m + 1) / 256)). unfold x. rewrite Z.mod_eq by lia. ring. }
  pose proof (Z.mod_pos_bound (2 * m + 1) 256 ltac:(lia)) as B. fold x in B. destruct E as [q E].
  assert (O : Z.odd x = true) by (rewrite E, Z.add_comm, Z.odd_add_mul_2; reflexivity).
  unfold as_i8. destruct (Z.ltb_spec x 128); [split; [exact O|lia]|].
  split; [|lia]. replace (x - 256) with (x + 2 * (-128)) by ring. now rewrite Z.odd_add_mul_2.
Qed.

Lemma recode_digits checked sc N : is_bytes 32 sc -> bytes_val sc = N -> Z.odd N = true ->
  exists ds, regular_recoding checked sc = Ok ds /\ length ds = 33%nat /\
    Forall (fun d => Z.odd d = true /\ -127 <= d <= 127) ds /\ dsum (map ent ds) = recoded N.
Proof.
  intros B V O. destruct (regular_recoding_ok checked sc N B V O) as (ds & E & L & F & S). cbv zeta in *.
  set (last := 2 * (N / 2 ^ 129) + 1) in *.
  exists (ds ++ [as_i8 (last mod 256)]). split; [exact E|]. split; [rewrite app_length, L; reflexivity|]. split.
  - apply Forall_app. split.
    + eapply Forall_impl; [|exact F]. intros d [X Y]. split; [exact X|lia].
    + constructor; [|constructor]. apply as_i8_odd.
  - rewrite map_app, dsum_app, map_length, L.
    assert (M : map ent ds = ds).
    { clear -F. induction F as [|d ds [_ D] F IH]; [reflexivity|]. cbn. rewrite IH. f_equal. unfold ent.
      destruct (Z.ltb_spec (Z.abs d) 16); lia. }
    rewrite M. cbn [map dsum]. unfold recoded. cbv zeta. fold last. change (Z.of_nat 32) with 32. lia.
Qed.

(** making the low byte odd *)
Lemma make_odd k : is_bytes 32 k -> exists a, idx k 0 = Ok a /\ 
  is_bytes 32 (set k 0 (Z.lor a 1)) /\ Z.odd (bytes_val (set k 0 (Z.lor a 1))) = true /\
  bytes_val (set k 0 (Z.lor a 1)) = bytes_val k + (1 - Z.land a 1) /\ (Z.land a 1 = 0 \/ Z.land a 1 = 1).
Proof.
  intros [L F]. destruct k as [|a t]; [discriminate|]. exists a. split; [reflexivity|]. cbn [set].
  assert (A : 0 <= a < 256) by (now inversion F). assert (T : Forall (fun b => 0 <= b < 256) t) by (now inversion F).
  assert (H : forallb (fun a => (0 <=? Z.lor a 1) && (Z.lor a 1 <? 256) && Z.odd (Z.lor a 1) && (Z.lor a 1 =? a + (1 - Z.land a 1)) &&
    ((Z.land a 1 =? 0) || (Z.land a 1 =? 1))) (range 0 256) = true) by (vm_compute; reflexivity).
  pose proof (check_range _ _ _ H a A) as G. cbv beta in G.
  rewrite !andb_true_iff, orb_true_iff, !Z.eqb_eq, Z.leb_le, Z.ltb_lt in G. destruct G as ((((G1 & G2) & G3) & G4) & G5).
  split; [split; [exact L|constructor; [lia|exact T]]|]. cbn [bytes_val]. split; [|split; [lia|exact G5]].
  replace (256 * bytes_val t) with (2 * (128 * bytes_val t)) by ring. now rewrite Z.odd_add_mul_2.
Qed.

(** the number whose multiple is computed for a half N *)
Definition half_mul (N : Z) : Z := if Z.even N then recoded (N + 1) - 1 else recoded N.
Lemma half_mul_small N : 0 <= N < 2 ^ 131 -> half_mul N = N.
Proof.
  intros H. assert (2 ^ 131 + 1 < 2 ^ 132) by reflexivity.
  unfold half_mul. destruct (Z.even N); rewrite recoded_small by lia; ring.
Qed.
Lemma half_fix N bit N' : Z.odd N' = true -> N' = N + (1 - bit) -> bit = 0 \/ bit = 1 ->
  half_mul N = recoded N' - (1 - bit) /\ (1 - bit =? 1) = Z.even N.
Proof.
  intros O E [-> | ->]; unfold half_mul.
  - assert (EV : Z.even N = true).
    { rewrite <- Z.negb_odd. replace N' with (Z.succ N) in O by lia. rewrite Z.odd_succ in O. rewrite Z.negb_odd. exact O. }
    rewrite EV. split; [|reflexivity]. rewrite E. reflexivity.
  - replace N' with N in * by lia. rewrite <- Z.negb_odd, O. split; [cbn [negb]; ring|reflexivity].
Qed.

Theorem g1_multiply_gen checked p P by_ s1 k1 k2 : pstands p P ->
  glv_recoding checked by_ = Ok (s1, k1, 0, k2) -> is_bytes 32 k1 -> is_bytes 32 k2 -> s1 = 0 \/ s1 = -1 ->
  exists q, g1_multiply checked p by_ = Ok q /\
    pstands q (comb P (sgn s1 * half_mul (bytes_val k1)) (half_mul (bytes_val k2))).
Proof.
  intros H G B1 B2 S1. pose proof (proj_stands_on_curve _ _ H) as C.
  pose proof (aff_from_proj_ok fp_ops_ok p P H) as T0.
  unfold g1_multiply. cbv zeta. rewrite G. cbn [bind].
  destruct (precompute_ok p P (aff_from_proj p) H T0) as (table & -> & T). cbn [bind].
  destruct (make_odd k1 B1) as (a1 & -> & M1 & M2 & M3 & M4). cbn [bind].
  destruct (make_odd k2 B2) as (a2 & -> & N1 & N2 & N3 & N4). cbn [bind].
  destruct (recode_digits checked _ _ M1 eq_refl M2) as (ds1 & -> & L1 & F1 & R1). cbn [bind].
  destruct (recode_digits checked _ _ N1 eq_refl N2) as (ds2 & -> & L2 & F2 & R2). cbn [bind].
  assert (R : Forall row_ok (combine ds1 ds2) /\ map fst (combine ds1 ds2) = ds1 /\ map snd (combine ds1 ds2) = ds2).
  { assert (L : length ds1 = length ds2) by congruence. clear -L F1 F2. revert ds2 L F2.
    induction F1 as [|d1 ds1 D1 F1 IH]; intros [|d2 ds2] L F2; try discriminate; [repeat split; constructor|].
    inversion F2; subst. destruct (IH ds2) as (X & Y & Z); [now injection L|assumption|].
    cbn [combine map fst snd]. rewrite Y, Z. split; [constructor; [split; assumption|exact X]|split; reflexivity]. }
  destruct R as (RO & RF & RS).
  assert (Z0 : pstands proj_identity (comb P 0 0)).
  { rewrite comb_P. change (point_zmul 0 P) with (Infinity : point Fp). apply (proj_identity_ok fp_ops_ok). }
  destruct (multiply_loop_ok checked table P s1 0 C T S1 (or_introl eq_refl) _ proj_identity Z0 RO) as (acc & -> & A).
  cbn [bind]. eexists. split; [reflexivity|]. rewrite RF, RS, R1, R2 in A. change (sgn 0) with 1 in A. rewrite Z.mul_1_l in A.
  destruct (half_fix (bytes_val k1) (Z.land a1 1) _ M2 M3 M4) as [-> E1].
  destruct (half_fix (bytes_val k2) (Z.land a2 1) _ N2 N3 N4) as [-> E2].
  set (X1 := recoded (bytes_val (set k1 0 (Z.lor a1 1)))) in *.
  set (X2 := recoded (bytes_val (set k2 0 (Z.lor a2 1)))) in *.
  (* the two corrections *)
  assert (T1 : astands (select (aff_from_proj p) (aff_neg (aff_from_proj p)) (as_u8 (- s1) =? 1)) (comb P (sgn s1) 0)).
  { rewrite comb_P. destruct S1 as [-> | ->].
    - change (as_u8 (- 0) =? 1) with false. change (sgn 0) with 1. rewrite G1_ONE by exact C. exact T0.
    - change (as_u8 (- -1) =? 1) with true. change (sgn (-1)) with (- (1)). rewrite G1_ZOPP, G1_ONE by exact C.
      apply (aff_neg_ok fp_ops_ok). exact T0. }
  assert (A1 : pstands (select acc (proj_sub_mixed acc (select (aff_from_proj p) (aff_neg (aff_from_proj p)) (as_u8 (- s1) =? 1)))
                 (1 - Z.land a1 1 =? 1)) (comb P (sgn s1 * (X1 - (1 - Z.land a1 1))) X2)).
  { destruct M4 as [-> | ->].
    - change (1 - 0 =? 1) with true. cbn [select].
      pose proof (G1_SUBM _ _ _ _ A T1) as Q.
      replace (sgn s1 * (X1 - (1 - 0))) with (sgn s1 * X1 + - sgn s1) by ring.
      replace X2 with (X2 + 0) by ring. rewrite <- comb_add by exact C.
      rewrite (comb_P P (- sgn s1)). rewrite G1_ZOPP by exact C. rewrite <- comb_P. exact Q.
    - change (1 - 1 =? 1) with false. cbn [select].
      replace (sgn s1 * (X1 - (1 - 1))) with (sgn s1 * X1) by ring. exact A. }
  pose proof (endo_on_curve beta beta_root P C) as CP.
  change (as_u8 (- 0) =? 1) with false. cbn [select].
  assert (T2 : astands (aff_endo (aff_from_proj p)) (comb P 0 1)).
  { rewrite comb_phi, G1_ONE by exact CP. apply aff_endo_ok. exact T0. }
  destruct N4 as [-> | ->].
  - change (1 - 0 =? 1) with true. cbn [select].
    pose proof (G1_SUBM _ _ _ _ A1 T2) as Q.
    replace (X2 - (1 - 0)) with (X2 + - (1)) by ring.
    replace (sgn s1 * (X1 - (1 - Z.land a1 1))) with (sgn s1 * (X1 - (1 - Z.land a1 1)) + 0) by ring.
    rewrite <- comb_add by exact C. rewrite (comb_phi P (- (1))). rewrite G1_ZOPP by exact CP. rewrite <- comb_phi. exact Q.
  - change (1 - 1 =? 1) with false. cbn [select]. replace (X2 - (1 - 1)) with X2 by ring. exact A1.
Qed.

(** ** results *)
Theorem g1_multiply_ok checked p P by_ k : pstands p P -> is_bytes 32 by_ -> bytes_val by_ = k -> k < 2 ^ 255 ->
  glv_carry k = false ->
  exists q, g1_multiply checked p by_ = Ok q /\ pstands q (comb P (k - glv_h k * glv_lambda) (glv_h k)).
Proof.
  intros H B V K NC. assert (K0 : 0 <= k) by (rewrite <- V; apply bytes_val_nonneg; apply B).
  destruct (glv_h_bound k (conj K0 K)) as [HB LB].
  pose proof (glv_recoding_ok checked by_ k B V K) as G. unfold glv_h' in G. rewrite NC in G. cbn [andb] in G.
  destruct G as (s1 & k1 & k2 & G & B1 & B2 & V2 & SG); [lia| |].
  { assert (2 * glv_lambda < r) by reflexivity. lia. }
  assert (S1 : s1 = 0 \/ s1 = -1) by tauto.
  destruct (g1_multiply_gen checked p P by_ s1 k1 k2 H G B1 B2 S1) as (q & E & S).
  exists q. split; [exact E|]. rewrite V2 in S.
  assert (2 ^ 129 < 2 ^ 131) by reflexivity. assert (2 * glv_lambda < 2 ^ 131) by reflexivity.
  rewrite (half_mul_small (glv_h k)) in S by lia.
  assert (0 <= bytes_val k1) by (apply bytes_val_nonneg; apply B1).
  assert (0 < glv_lambda) by reflexivity.
  rewrite half_mul_small in S by lia.
  replace (k - glv_h k * glv_lambda) with (sgn s1 * bytes_val k1); [exact S|].
  destruct SG as [(-> & SG) | (-> & SG)]; rewrite <- SG; [change (sgn 0) with 1|change (sgn (-1)) with (-1)]; ring.
Qed.
Lemma glv_carry_h k : 0 <= k -> glv_carry k = true -> W <= glv_h k.
Proof.
  intros K H. unfold glv_carry in H. apply Z.eqb_eq in H. unfold glv_h.
  assert (V : 0 <= k * glv_v) by (apply Z.mul_nonneg_nonneg; [exact K|discriminate]).
  change (2 ^ 256) with (2 ^ 255 * 2). rewrite <- Z.div_div by (try discriminate; reflexivity).
  replace (k * glv_v + 2 ^ 255) with (k * glv_v + 1 * 2 ^ 255) by ring. rewrite Z.div_add by discriminate.
  assert (X : 0 <= k * glv_v / 2 ^ 255) by (apply Z.div_pos; [exact V|reflexivity]).
  pose proof (Z.mod_le (k * glv_v / 2 ^ 255) (2 ^ 65) X ltac:(reflexivity)) as L. rewrite H in L.
  apply Z.div_le_lower_bound; [reflexivity|]. change (2 ^ 65) with (2 * W) in L. lia.
Qed.
Theorem g1_multiply_carry p by_ k : is_bytes 32 by_ -> bytes_val by_ = k -> k <= r ->
  glv_carry k = true -> g1_multiply true p by_ = Panic.
Proof.
  intros B V KR NC. assert (K0 : 0 <= k) by (rewrite <- V; apply bytes_val_nonneg; apply B).
  assert (K : k < 2 ^ 255) by (assert (r < 2 ^ 255) by reflexivity; lia).
  pose proof (glv_carry_h k K0 NC) as HW.
  pose proof (glv_recoding_ok true by_ k B V K) as G. unfold glv_h' in G. rewrite NC in G. cbn [andb] in G.
  unfold g1_multiply. cbv zeta. rewrite G; [reflexivity|lia|].
  destruct (glv_h_bound k (conj K0 K)) as [HB LB].
  assert (E : k - (glv_h k - W) * glv_lambda = k - glv_h k * glv_lambda + W * glv_lambda) by ring.
  rewrite E. assert (2 * glv_lambda + W * glv_lambda < r) by reflexivity. lia.
Qed.
