(** * Proof_RandomGen: the loop that draws points, for any coordinates *)
From Coq Require Import ZArith List Bool Lia.
From Verif Require Import Base Fld Spec_Curve Model_Curve Spec_CurveCode Proof_Curve Proof_CurveCode Proof_CurveMul Proof_Endo Proof_G1Sub Model_Random Spec_Random.
Import ListNotations.
Local Open Scope Z_scope.

Section Loop.
Context {G : rng} {F : fops} {K : fld} {b : K} {rep : F -> K -> Prop} (OK : fops_ok F K b rep).
Hypothesis H2 : fadd f1 f1 <> (f0 : K).
Hypothesis NoTwo : forall x : K, fadd (fmul (fmul x x) x) b <> f0.
Local Notation St := (rng_state G).
Context (root : K -> K) (clear : point K -> point K) (draw : St -> K * St)
  (mdraw : St -> F * St) (mclear : proj F -> proj F).
Hypothesis sqrt_ok : forall a y, rep a y ->
  match fo_sqrt a with Some s => rep s (root y) /\ fmul (root y) (root y) = y | None => forall z, fmul z z <> y end.
Hypothesis clear_ok : forall q P, proj_stands b rep q P -> proj_stands b rep (mclear q) (clear P).
Hypothesis clear_neg : forall P, on_curve b P -> clear (point_neg P) = point_neg (clear P).
Hypothesis draw_ok : forall s, rep (fst (mdraw s)) (fst (draw s)) /\ snd (mdraw s) = snd (draw s).
Add Field Krand : (fld_field K).
Local Notation round := (random_round (F:=F) mdraw mclear).
Local Notation pick := (picked (K:=K) b root clear draw).

Lemma neg_square (y : K) : fmul (fneg y) (fneg y) = fmul y y.
Proof. ring. Qed.
Lemma round_ok s : let '(x, flip, s1) := drawn_abscissa draw s in
  exists o, round s = (o, s1) /\
  match o with
  | None => forall y, fmul y y = fadd (fmul (fmul x x) x) b -> clear (Affine x y) = Infinity
  | Some q => exists y, fmul y y = fadd (fmul (fmul x x) x) b /\
      y = (if flip then fneg (root (fmul y y)) else root (fmul y y)) /\
      proj_stands b rep q (clear (Affine x y)) /\ clear (Affine x y) <> Infinity
  end.
Proof.
  destruct (drawn_abscissa draw s) as [[x flip] s1] eqn:D. unfold drawn_abscissa in D. unfold random_round.
  destruct (draw_ok s) as [R E]. destruct (mdraw s) as [a t], (draw s) as [x' t']. cbn [fst snd] in R, E. subst t'.
  destruct (next_u32 t) as [w t1]. injection D as -> <- ->.
  assert (EF : negb (w mod 2 =? 0) = Z.odd w) by (rewrite Zmod_odd; destruct (Z.odd w); reflexivity). rewrite EF.
  assert (RR : rep (fo_add (fo_mul (fo_square a) a) fo_B) (fadd (fmul (fmul x x) x) b)).
  { apply (rep_add _ _ _ _ OK); [|apply (rep_B _ _ _ _ OK)]. apply (rep_mul _ _ _ _ OK); [apply (rep_square _ _ _ _ OK)|]; exact R. }
  pose proof (sqrt_ok _ _ RR) as S. set (rhs := fadd (fmul (fmul x x) x) b) in *.
  destruct (fo_sqrt (fo_add (fo_mul (fo_square a) a) fo_B)) as [z|].
  - destruct S as [RZ SQ].
    set (y := if Z.odd w then fneg (root rhs) else root rhs).
    assert (RY : rep (if Z.odd w then fo_neg z else z) y).
    { unfold y. destruct (Z.odd w); [apply (rep_neg _ _ _ _ OK)|]; exact RZ. }
    assert (YY : fmul y y = rhs) by (unfold y; destruct (Z.odd w); [rewrite neg_square|]; exact SQ).
    assert (A : aff_stands b rep (Aff a (if Z.odd w then fo_neg z else z) false) (Affine x y)).
    { exists x, y. split; [exact R|]. split; [exact RY|]. split; [exact YY|reflexivity]. }
    pose proof (clear_ok _ _ (proj_from_aff_ok OK _ _ A)) as P.
    set (q := mclear (proj_from_aff (Aff a (if Z.odd w then fo_neg z else z) false))) in *.
    pose proof (proj_is_identity_ok OK _ _ P) as I. destruct (proj_is_identity q); cbn [negb].
    + exists None. split; [reflexivity|]. intros y' Y'.
      destruct (same_square x y y' rhs YY Y') as [<-| ->].
      * apply I. reflexivity.
      * pose proof (proj1 I eq_refl) as Z. pose proof (clear_neg (Affine x y) YY) as N. cbn [point_neg] in N. rewrite N, Z. reflexivity.
    + exists (Some q). split; [reflexivity|]. exists y. split; [exact YY|]. split; [rewrite YY; reflexivity|]. split; [exact P|].
      intros Z. apply I in Z. discriminate.
  - exists None. split; [reflexivity|]. intros y Y. exfalso. exact (S y Y).
Qed.
Theorem loop_sound fuel : forall s q s', random_loop round fuel s = Ok (q, s') ->
  exists n P, (n <= fuel)%nat /\ pick n s P s' /\ proj_stands b rep q P.
Proof.
  induction fuel as [|fuel IH]; intros s q s' E; cbn [random_loop] in E; [discriminate|].
  pose proof (round_ok s) as R. destruct (drawn_abscissa draw s) as [[x flip] s1] eqn:D. destruct R as (o & E1 & R). rewrite E1 in E.
  destruct o as [q'|].
  - injection E as -> ->. destruct R as (y & YY & YR & P & N). exists 1%nat, (clear (Affine x y)). split; [lia|]. split; [|exact P].
    eapply picked_now; [exact D|exact YY|exact YR|exact N].
  - destruct (IH _ _ _ E) as (n & P & L & PK & ST). exists (S n), P. split; [lia|]. split; [|exact ST].
    eapply picked_skip; [exact D|exact R|exact PK].
Qed.
Theorem loop_complete n s P s' : pick n s P s' -> forall fuel, (n <= fuel)%nat ->
  exists q, random_loop round fuel s = Ok (q, s') /\ proj_stands b rep q P.
Proof.
  induction 1 as [s x flip s' y D YY YR N|s x flip s1 n P s' D SK PK IH]; intros fuel L; (destruct fuel as [|fuel]; [lia|]); cbn [random_loop];
    pose proof (round_ok s) as R; rewrite D in R; destruct R as (o & E1 & R); rewrite E1; destruct o as [q'|].
  - destruct R as (y' & YY' & YR' & P & _). exists q'. split; [reflexivity|]. replace y with y'; [exact P|].
    rewrite YR, YR', YY, YY'. reflexivity.
  - contradiction (N (R y YY)).
  - destruct R as (y & YY & _ & _ & N). contradiction (N (SK y YY)).
  - apply IH. lia.
Qed.
Theorem loop_total fuel : forall s, random_loop round fuel s = NoFuel \/ exists q s', random_loop round fuel s = Ok (q, s').
Proof.
  induction fuel as [|fuel IH]; intros s; cbn [random_loop]; [left; reflexivity|].
  destruct (round s) as [[q|] s1]; [right; exists q, s1; reflexivity|apply IH].
Qed.
Lemma picked_image n s P s' : pick n s P s' -> P <> Infinity /\ exists P0, on_curve b P0 /\ P = clear P0.
Proof.
  induction 1 as [s x flip s' y D YY YR N|s x flip s1 n P s' D SK PK IH]; [|exact IH].
  split; [exact N|]. exists (Affine x y). split; [exact YY|reflexivity].
Qed.
Lemma picked_pos n s P s' : pick n s P s' -> (1 <= n)%nat.
Proof. destruct 1; lia. Qed.
Lemma picked_second n s P s' x flip s1 : drawn_abscissa draw s = (x, flip, s1) ->
  (forall y, fmul y y = fadd (fmul (fmul x x) x) b -> clear (Affine x y) = Infinity) -> pick n s P s' -> (2 <= n)%nat.
Proof.
  intros D SK PK. destruct PK as [s x1 flip1 s' y D1 YY YR N|s x1 flip1 s2 n P s' D1 SK1 PK].
  - rewrite D in D1. injection D1 as <- <- <-. contradiction (N (SK y YY)).
  - apply picked_pos in PK. lia.
Qed.
End Loop.
