(** * Proof_Side: the values of the lines of one curve at points of another one, up to a subfield

    [k] is the field of the curve, [K] the field of the values.  [chi] is a multiplicative map that sends the
    units of a subfield ([small]) to 1.  [G A B P] is the image under [chi] of the value at P of Miller's function
    with divisor (A) + (B) - (A + B) - (O). *)
From Coq Require Import ZArith List Bool Ring Field.
From Verif Require Import Base Fld Spec_Curve Proof_Curve Proof_CurveMul Power Spec_Pair Proof_Lines.
Import ListNotations.

Definition pmap {k K : fld} (ex ey : k -> K) (P : point k) : point K :=
  match P with Infinity => Infinity | Affine x y => Affine (ex x) (ey y) end.

Section Side.
Context {k K : fld} (bk : k) (b : K).
Context (H2 : (fadd f1 f1 : k) <> f0) (NoTwo : forall x : k, fadd (fmul (fmul x x) x) bk <> f0).
Context (ex ey em : k -> K).
Hypothesis ey_neg : forall y, ey (fneg y) = fneg (ey y).
Hypothesis ecol : forall m c x1 y1 x2 y2 x3 y3, col bk m c x1 y1 x2 y2 x3 y3 ->
  col b (em m) (ey c) (ex x1) (ey y1) (ex x2) (ey y2) (ex x3) (ey y3).
Context (chi : K -> K) (small : K -> Prop).
Add Field Kside : (fld_field K).
Add Field kside : (fld_field k).
Local Open Scope fld_scope.
Hypothesis chi_mul : forall x y, chi (x * y) = chi x * chi y.
Hypothesis small_mul : forall x y, small x -> small y -> small (x * y).
Hypothesis small_m1 : small (- (1)).
Hypothesis chi_small : forall u, small u -> u <> 0 -> chi u = 1.

Definition adm (P : point K) : Prop :=
  on_curve b P /\ match P with Infinity => True | Affine x y => forall x' y', y' * y' = x' * x' * x' + bk -> small (x - ex x') /\ x - ex x' <> 0 end.
Definition lval (m c : k) (x y : K) : K := y - (em m * x + ey c).
Definition G (A B : point k) (P : point K) : K :=
  match A, B, point_add A B, P with
  | Affine xa ya, Affine xb yb, Affine _ _, Affine x y => let m := slope A B in chi (lval m (ya - m * xa) x y)
  | _, _, _, _ => 1
  end.
Lemma adm_neg P : adm P -> adm (point_neg P).
Proof.
  intros [C A]. split; [exact (point_neg_on_curve b P C)|]. destruct P as [|x y]; [exact I|exact A].
Qed.
Lemma chi_m1 : chi (- (1)) = 1.
Proof. apply chi_small; [exact small_m1|]. intros E. apply (@f1_neq_0 K). transitivity (- - (1 : K)); [ring|]. rewrite E. ring. Qed.
Lemma chi_neg x : chi (- x) = chi x.
Proof. transitivity (chi (- (1) * x)); [f_equal; ring|]. rewrite chi_mul, chi_m1. ring. Qed.
Lemma chi_1 : chi 1 = 1.
Proof. transitivity (chi (- (1) * - (1))); [f_equal; ring|]. rewrite chi_mul, chi_m1. ring. Qed.
Lemma G_inf_l B P : G Infinity B P = 1. Proof. reflexivity. Qed.
Lemma G_inf_r A P : G A Infinity P = 1. Proof. destruct A; reflexivity. Qed.
Lemma G_at_inf A B : G A B Infinity = 1.
Proof. unfold G. destruct A as [|xa ya]; [reflexivity|]. destruct B as [|xb yb]; [reflexivity|]. destruct (point_add _ _); reflexivity. Qed.
Lemma G_opp A B P : point_add A B = Infinity -> G A B P = 1.
Proof. intros E. destruct A as [|xa ya]; [reflexivity|]. destruct B as [|xb yb]; [reflexivity|]. unfold G. rewrite E. reflexivity. Qed.
Lemma G_line m c xa ya xb yb xs ys x y : col bk m c xa ya xb yb xs (- ys) -> ya * ya = xa * xa * xa + bk -> ~ (xa = xb /\ ya = - yb) ->
  point_add (Affine xa ya) (Affine xb yb) = Affine xs ys /\ G (Affine xa ya) (Affine xb yb) (Affine x y) = chi (lval m c x y).
Proof.
  intros L C N. destruct (line_slope bk H2 NoTwo _ _ _ _ _ _ _ _ L C N) as [S E].
  assert (E' : point_add (Affine xa ya) (Affine xb yb) = Affine xs ys) by (rewrite E; f_equal; ring).
  split; [exact E'|]. unfold G. rewrite E', S. cbv zeta. f_equal. f_equal. destruct L as ((Y1 & _) & _). rewrite Y1. ring.
Qed.
Lemma not_opp xa ya xb yb xs ys : @point_add k (Affine xa ya) (Affine xb yb) = Affine xs ys -> ~ (xa = xb /\ ya = - yb).
Proof.
  intros E [-> ->]. cbn [point_add] in E. rewrite !feqb_refl in E. discriminate E.
Qed.
Lemma G_expand xa ya xb yb xs ys : ya * ya = xa * xa * xa + bk -> yb * yb = xb * xb * xb + bk ->
  point_add (Affine xa ya) (Affine xb yb) = Affine xs ys ->
  exists m c, col bk m c xa ya xb yb xs (- ys) /\ forall x y, G (Affine xa ya) (Affine xb yb) (Affine x y) = chi (lval m c x y).
Proof.
  intros CA CB E. pose proof (slope_line bk H2 NoTwo _ _ _ _ _ _ CA CB E) as L. cbv zeta in L.
  eexists. eexists. split; [exact L|]. intros x y. apply (G_line _ _ _ _ _ _ _ _ x y L CA), (not_opp _ _ _ _ _ _ E).
Qed.
Lemma G_sym A B P : on_curve bk A -> on_curve bk B -> G A B P = G B A P.
Proof.
  intros CA CB. pose proof (point_add_comm bk H2 NoTwo A B CA CB) as M.
  destruct (point_add A B) as [|xs ys] eqn:E; [rewrite !G_opp; auto; symmetry; exact M|].
  destruct A as [|xa ya]; [rewrite G_inf_l, G_inf_r; reflexivity|]. destruct B as [|xb yb]; [rewrite G_inf_l, G_inf_r; reflexivity|].
  destruct P as [|x y]; [rewrite !G_at_inf; reflexivity|].
  destruct (G_expand _ _ _ _ _ _ CA CB E) as (m & c & L & V). rewrite V. symmetry.
  apply (G_line _ _ _ _ _ _ xs ys x y (col_swap _ _ _ _ _ _ _ _ _ L) CB). exact (not_opp _ _ _ _ _ _ (eq_sym M)).
Qed.
Lemma norm_val m c xa ya xb yb xs ys x y : col bk m c xa ya xb yb xs ys ->
  ya * ya = xa * xa * xa + bk -> yb * yb = xb * xb * xb + bk -> ys * ys = xs * xs * xs + bk -> adm (Affine x y) ->
  chi (lval m c x y) * chi (lval m c x (- y)) = 1.
Proof.
  intros L CA CB CS [C A]. rewrite <- chi_mul. unfold lval.
  rewrite (line_norm b _ _ _ _ _ _ _ _ x y (ecol _ _ _ _ _ _ _ _ L) C).
  destruct (A _ _ CA) as [SA NA]. destruct (A _ _ CB) as [SB NB]. destruct (A _ _ CS) as [SS NS].
  rewrite chi_neg. apply chi_small.
  - apply small_mul; [apply small_mul|]; assumption.
  - apply fmul_neq_0; [apply fmul_neq_0|]; assumption.
Qed.
Lemma neg_curve (x y c : k) : y * y = x * x * x + c -> - y * - y = x * x * x + c.
Proof. intros <-. ring. Qed.
Lemma G_norm A B P : on_curve bk A -> on_curve bk B -> adm P -> G A B P * G A B (point_neg P) = 1.
Proof.
  intros CA CB AD. pose proof (point_add_on_curve bk H2 NoTwo A B CA CB) as CS.
  destruct (point_add A B) as [|xs ys] eqn:E; [rewrite !G_opp by exact E; ring|].
  destruct A as [|xa ya]; [rewrite !G_inf_l; ring|]. destruct B as [|xb yb]; [rewrite !G_inf_r; ring|].
  destruct P as [|x y]; [cbn [point_neg]; rewrite !G_at_inf; ring|].
  destruct (G_expand _ _ _ _ _ _ CA CB E) as (m & c & L & V). cbn [point_neg]. rewrite !V.
  exact (norm_val _ _ _ _ _ _ _ _ _ _ L CA CB (neg_curve _ _ _ CS) AD).
Qed.
Hypothesis em_neg : forall m, em (- m) = - em m.
Lemma val_neg m c x y : lval (- m) (- c) x y = - lval m c x (- y).
Proof. unfold lval. rewrite em_neg, ey_neg. ring. Qed.
Lemma neg_opp (xa ya xb yb : k) : ~ (xa = xb /\ ya = - yb) -> ~ (xa = xb /\ - ya = - - yb).
Proof. intros N [-> E]. apply N. split; [reflexivity|]. transitivity (- - ya); [ring|]. rewrite E. ring. Qed.
Lemma G_neg A B P : on_curve bk A -> on_curve bk B -> G (point_neg A) (point_neg B) P = G A B (point_neg P).
Proof.
  intros CA CB.
  destruct (point_add A B) as [|xs ys] eqn:E.
  { rewrite !G_opp; [reflexivity|exact E|]. rewrite <- (pt_neg_add (b:=bk) H2 NoTwo A B CA CB), E. reflexivity. }
  destruct A as [|xa ya]; [reflexivity|]. destruct B as [|xb yb]; [cbn [point_neg]; rewrite !G_inf_r; reflexivity|].
  destruct P as [|x y]; [cbn [point_neg]; rewrite !G_at_inf; reflexivity|].
  destruct (G_expand _ _ _ _ _ _ CA CB E) as (m & c & L & V). cbn [point_neg]. rewrite V.
  destruct (G_line _ _ _ _ _ _ xs (- ys) x y (col_neg _ _ _ _ _ _ _ _ _ L) (neg_curve _ _ _ CA) (neg_opp _ _ _ _ (not_opp _ _ _ _ _ _ E))) as [_ ->].
  rewrite val_neg. apply chi_neg.
Qed.
(** the line of -A and A + B is the line of A and B, reflected *)
Lemma G_third A B P : on_curve bk A -> on_curve bk B -> B <> Infinity -> adm P -> G A B P * G (point_neg A) (point_add A B) P = 1.
Proof.
  intros CA CB NB AD. pose proof (point_add_on_curve bk H2 NoTwo A B CA CB) as CS.
  destruct (point_add A B) as [|xs ys] eqn:E; [rewrite G_opp by exact E; rewrite G_inf_r; ring|].
  destruct A as [|xa ya]; [cbn [point_neg]; rewrite !G_inf_l; ring|]. destruct B as [|xb yb]; [destruct (NB eq_refl)|].
  destruct P as [|x y]; [rewrite !G_at_inf; ring|].
  destruct (G_expand _ _ _ _ _ _ CA CB E) as (m & c & L & V). cbn [point_neg]. rewrite V.
  assert (N : ~ (xa = xs /\ - ya = - ys)).
  { intros [F1 F2]. assert (F : Affine xs ys = Affine xa ya) by (f_equal; [auto|]; transitivity (- - ys); [ring|rewrite <- F2; ring]).
    assert (Z : @Affine k xb yb = Infinity); [|discriminate Z].
    apply (pt_cancel (b:=bk) H2 NoTwo (Affine xa ya)); [exact CA|exact CB|exact I|]. rewrite E, F. symmetry. apply point_add_0_r. }
  assert (L' : col bk (- m) (- c) xa (- ya) xs ys xb (- yb)).
  { pose proof (col_neg _ _ _ _ _ _ _ _ _ (col_swap _ _ _ _ _ _ _ _ _ (col_rot _ _ _ _ _ _ _ _ _ (col_rot _ _ _ _ _ _ _ _ _ L)))) as L'.
    assert (Y : - - ys = ys) by ring. rewrite Y in L'. exact L'. }
  destruct (G_line _ _ _ _ _ _ xb yb x y L' (neg_curve _ _ _ CA) N) as [_ ->].
  rewrite val_neg, chi_neg. exact (norm_val _ _ _ _ _ _ _ _ _ _ L CA CB (neg_curve _ _ _ CS) AD).
Qed.
(** three points on a line *)
Lemma G_rotate A B C P : on_curve bk A -> on_curve bk B -> on_curve bk C -> A <> Infinity -> C <> Infinity ->
  point_add (point_add A B) C = Infinity -> G A B P = G B C P.
Proof.
  intros CA CB CC NA NC Z. pose proof (point_add_on_curve bk H2 NoTwo A B CA CB) as CS.
  assert (EC : C = point_neg (point_add A B)) by exact (pt_neg_unique (b:=bk) H2 NoTwo _ _ CS CC Z).
  destruct (point_add A B) as [|xs ys] eqn:E; [destruct NC; exact EC|].
  destruct A as [|xa ya]; [destruct NA; reflexivity|]. destruct B as [|xb yb]; [rewrite G_inf_l, G_inf_r; reflexivity|].
  destruct P as [|x y]; [rewrite !G_at_inf; reflexivity|].
  destruct (G_expand _ _ _ _ _ _ CA CB E) as (m & c & L & V). rewrite V. subst C. cbn [point_neg]. symmetry.
  apply (G_line _ _ _ _ _ _ xa (- ya) x y).
  - pose proof (col_rot _ _ _ _ _ _ _ _ _ L) as L'. assert (Y : - - ya = ya) by ring. rewrite Y. exact L'.
  - exact CB.
  - intros [F1 F2]. assert (F : Affine xs ys = Affine xb yb) by (f_equal; [auto|]; rewrite F2; ring).
    assert (W : @Affine k xa ya = Infinity); [|discriminate W].
    apply (pt_cancel (b:=bk) H2 NoTwo (Affine xb yb)); [exact CB|exact CA|exact I|].
    rewrite (point_add_comm bk H2 NoTwo _ _ CB CA), E, F. symmetry. apply point_add_0_r.
Qed.
Hypothesis H2K : (1 + 1 : K) <> 0.
Hypothesis ex_inj : forall x x', ex x = ex x' -> x = x'.
Hypothesis ey_nz : forall y, y <> 0 -> ey y <> 0.
Lemma ecol' m c x1 y1 x2 y2 x3 y3 : col bk m c x1 y1 x2 y2 x3 (- y3) ->
  col b (em m) (ey c) (ex x1) (ey y1) (ex x2) (ey y2) (ex x3) (- ey y3).
Proof. intros L. rewrite <- ey_neg. exact (ecol _ _ _ _ _ _ _ _ L). Qed.
Theorem G_cocycle A B C P : on_curve bk A -> on_curve bk B -> on_curve bk C -> adm P ->
  G A B P * G (point_add A B) C P = G B C P * G A (point_add B C) P.
Proof.
  intros CA CB CC AD.
  pose proof (point_add_on_curve bk H2 NoTwo A B CA CB) as CS. pose proof (point_add_on_curve bk H2 NoTwo B C CB CC) as CT.
  pose proof (point_add_assoc bk H2 NoTwo A B C CA CB CC) as AS.
  destruct A as [|xa ya]; [rewrite !G_inf_l, point_add_0_l; ring|].
  destruct C as [|xc yc]; [rewrite !G_inf_r, point_add_0_r; ring|].
  destruct B as [|xb yb]; [rewrite !G_inf_l, !G_inf_r, point_add_0_l, point_add_0_r; ring|].
  destruct P as [|x y]; [rewrite !G_at_inf; ring|].
  set (A := Affine xa ya) in *. set (B := Affine xb yb) in *. set (C := Affine xc yc) in *.
  destruct (point_add A B) as [|xs ys] eqn:ES.
  { (* B = -A *)
    rewrite G_inf_l, (G_opp A B) by exact ES.
    assert (EA : A = point_neg B) by (apply (pt_neg_unique (b:=bk) H2 NoTwo); auto; rewrite (point_add_comm bk H2 NoTwo); auto).
    rewrite EA. rewrite (G_third B C) by (auto; discriminate). ring. }
  destruct (point_add B C) as [|xt yt] eqn:ET.
  { rewrite G_inf_r, (G_opp B C) by exact ET.
    assert (EC : C = point_neg B) by (apply (pt_neg_unique (b:=bk) H2 NoTwo); auto).
    rewrite EC. rewrite <- ES. rewrite (G_sym (point_add A B)) by (auto; rewrite ?ES; auto; apply point_neg_on_curve; auto).
    rewrite (point_add_comm bk H2 NoTwo A B), (G_sym A B) by auto. rewrite (G_third B A) by (auto; discriminate). ring. }
  destruct (point_add (Affine xs ys) C) as [|xr yr] eqn:ER.
  { rewrite (G_opp (Affine xs ys)) by exact ER. rewrite (G_opp A (Affine xt yt)) by exact AS.
    rewrite (G_rotate A B C) by (auto; try discriminate; rewrite ES; exact ER). ring. }
  destruct (fdec xa xc) as [EX|NX].
  { subst xc. assert (Q : yc = ya \/ yc = - ya).
    { assert (F : (yc - ya) * (yc + ya) = 0) by (transitivity (yc * yc - ya * ya); [ring|]; cbn in CA, CC; rewrite CA, CC; ring).
      apply fmul_eq_0 in F. destruct F as [F|F]; [left; apply fsub_eq_0, F|right; transitivity (yc + ya - ya); [ring|]; rewrite F; ring]. }
    destruct Q as [->| ->].
    - assert (EC : C = A) by reflexivity. clearbody C. subst C. rewrite (point_add_comm bk H2 NoTwo B A CB CA), ES in ET. rewrite <- ET.
      rewrite (G_sym B A), (G_sym (Affine xs ys) A) by auto. ring.
    - assert (EC : C = point_neg A) by reflexivity. clearbody C. subst C. assert (NB : B <> Infinity) by discriminate. clearbody A B.
      rewrite (G_sym (Affine xs ys) (point_neg A)) by auto. rewrite <- ES. rewrite (G_third A B) by auto.
      rewrite (G_sym B (point_neg A)) by auto. rewrite (point_add_comm bk H2 NoTwo B (point_neg A)) in ET by auto. rewrite <- ET.
      pose proof (G_third (point_neg A) B (Affine x y) CC CB NB AD) as T. rewrite (pt_neg_neg A) in T. symmetry. exact T. }
  destruct (G_expand _ _ _ _ _ _ CA CB ES) as (m1 & c1 & L1 & V1). destruct (G_expand _ _ _ _ _ _ CS CC ER) as (m2 & c2 & L2 & V2).
  destruct (G_expand _ _ _ _ _ _ CB CC ET) as (m3 & c3 & L3 & V3). destruct (G_expand _ _ _ _ _ _ CA CT AS) as (m4 & c4 & L4 & V4).
  unfold A, B, C. rewrite V1, V2, V3, V4, <- !chi_mul.
  (* at the level of the values *)
  destruct AD as [CP AD].
  destruct (line_cocycle b H2K _ _ _ _ _ _ _ _ _ _ _ _ _ _ _ _ _ _ _ _ _ _ x y
     (ey_nz _ (curve_y bk NoTwo _ _ CB)) (fun E => NX (ex_inj _ _ E)) CP
     (ecol' _ _ _ _ _ _ _ _ L1) (ecol' _ _ _ _ _ _ _ _ L2) (ecol' _ _ _ _ _ _ _ _ L3) (ecol' _ _ _ _ _ _ _ _ L4)) as (q & E1 & E2).
  unfold lval. rewrite E1, E2, !chi_mul. destruct (AD _ _ CS) as [S1 N1]. destruct (AD _ _ CT) as [S2 N2].
  rewrite (chi_small _ S1 N1), (chi_small _ S2 N2). reflexivity.
Qed.
(** the divisor (A) + (B) + (C) + (D) - (A + B + C + D) - 3(O) in two ways *)
Theorem G_four A B C D P : on_curve bk A -> on_curve bk B -> on_curve bk C -> on_curve bk D -> adm P ->
  G A B P * G C D P * G (point_add A B) (point_add C D) P = G A C P * G B D P * G (point_add A C) (point_add B D) P.
Proof.
  intros CA CB CC CD AD. pose proof (point_add_on_curve bk H2 NoTwo) as DA. pose proof (point_add_comm bk H2 NoTwo) as CM. pose proof (point_add_assoc bk H2 NoTwo) as AS.
  assert (L : forall X Y, on_curve bk X -> on_curve bk Y -> G A X P * G Y D P * G (point_add A X) (point_add Y D) P =
     G A X P * G (point_add A X) Y P * G (point_add (point_add A X) Y) D P).
  { intros X Y CX CY. transitivity (G A X P * (G Y D P * G (point_add A X) (point_add Y D) P)); [ring|]. rewrite <- (G_cocycle (point_add A X) Y D P) by auto. ring. }
  rewrite (L B C CB CC), (L C B CC CB). rewrite (G_cocycle A B C P) by auto. rewrite (G_cocycle A C B P) by auto.
  rewrite (G_sym C B) by auto. rewrite (CM C B) by auto. rewrite <- (AS A B C), <- (AS A C B), (CM C B) by auto. ring.
Qed.
End Side.
