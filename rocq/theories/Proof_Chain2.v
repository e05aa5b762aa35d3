(** * Proof_Chain2: multiples of concrete points of the curve over the quadratic extension

    As Proof_Chain.v, with coordinates that are pairs of integers. *)
From Coq Require Import ZArith List Bool Lia.
From Verif Require Import Base Fld Fastmul Zp Spec_Curve Proof_FpRep Proof_Curve Proof_CurveMul Proof_G1Base Proof_Chain Spec_G2 Proof_G2Base Tower Ext.
Import ListNotations.
Local Open Scope Z_scope.

Definition lit2 (a b : Z) : Fp2 := Quad (fp_of a) (fp_of b).
Section Alg.
Context {K : fld}.
Add Field Kch2 : (fld_field K).
Local Open Scope fld_scope.
Lemma re_part (a b c d : K) : a * c - b * d = a * c + - (1) * (b * d). Proof. ring. Qed.
Lemma fneg_as_sub (x : K) : - x = 0 - x. Proof. ring. Qed.
End Alg.
Lemma lit2_mul a b c d : lit2 (a * c - b * d) (a * d + b * c) = fmul (lit2 a b) (lit2 c d).
Proof.
  change (fmul (lit2 a b) (lit2 c d)) with (quad_mul (fneg f1) (Quad (fp_of a) (fp_of b)) (Quad (fp_of c) (fp_of d))).
  unfold quad_mul, lit2. cbn [q0 q1]. apply (f_equal2 Quad).
  - rewrite fp_of_sub, !fp_of_mul. apply re_part.
  - rewrite fp_of_add, !fp_of_mul. reflexivity.
Qed.
Lemma lit2_add a b c d : lit2 (a + c) (b + d) = fadd (lit2 a b) (lit2 c d).
Proof.
  change (fadd (lit2 a b) (lit2 c d)) with (quad_add (Quad (fp_of a) (fp_of b)) (Quad (fp_of c) (fp_of d))).
  unfold quad_add, lit2. cbn [q0 q1]. apply (f_equal2 Quad); apply fp_of_add.
Qed.
Lemma lit2_sub a b c d : lit2 (a - c) (b - d) = fsub (lit2 a b) (lit2 c d).
Proof.
  change (fsub (lit2 a b) (lit2 c d)) with (quad_sub (Quad (fp_of a) (fp_of b)) (Quad (fp_of c) (fp_of d))).
  unfold quad_sub, lit2. cbn [q0 q1]. apply (f_equal2 Quad); apply fp_of_sub.
Qed.
Lemma lit2_plus a b k l : lit2 (a + k * p) (b + l * p) = lit2 a b.
Proof. unfold lit2. now rewrite !fp_of_plus_p. Qed.
Lemma lit2_eq a b c d : a mod p = c mod p -> b mod p = d mod p -> lit2 a b = lit2 c d.
Proof. intros A B. unfold lit2. now rewrite (fp_of_eq _ _ A), (fp_of_eq _ _ B). Qed.
Lemma lit2_0 : lit2 0 0 = f0.
Proof. unfold lit2. rewrite Fp_of_0. reflexivity. Qed.
Lemma lit2_1 : lit2 1 0 = f1.
Proof. unfold lit2. rewrite Fp_of_0, Fp_of_1. reflexivity. Qed.
Lemma lit2_neq a b c d : (a mod p =? c mod p) && (b mod p =? d mod p) = false -> lit2 a b <> lit2 c d.
Proof.
  intros H E.
  assert (EX : pval (fp_of a) = pval (fp_of c)) by exact (f_equal (fun x : quad Fp => pval (q0 x)) E).
  assert (EY : pval (fp_of b) = pval (fp_of d)) by exact (f_equal (fun x : quad Fp => pval (q1 x)) E).
  rewrite !pval_fp_of in EX, EY. rewrite EX, EY, !Z.eqb_refl in H. discriminate.
Qed.
Lemma lit2_conj a b : Fp2_conj (lit2 a b) = lit2 a (- b).
Proof.
  change (Quad (fp_of a) (fneg (fp_of b)) = Quad (fp_of a) (fp_of (- b))). apply f_equal.
  replace (- b) with (0 - b) by lia. rewrite fp_of_sub, Fp_of_0. apply fneg_as_sub.
Qed.

(** products of pairs, with three products of integers *)
Definition pmul (a0 a1 b0 b1 : Z) : Z * Z :=
  let v := zmul4 a0 b0 in let w := zmul4 a1 b1 in (v - w, zmul4 (a0 + a1) (b0 + b1) - v - w).
Lemma pmul_ok a0 a1 b0 b1 : pmul a0 a1 b0 b1 = (a0 * b0 - a1 * b1, a0 * b1 + a1 * b0).
Proof. unfold pmul. rewrite !zmul4_ok. f_equal. ring. Qed.
Definition psq (a0 a1 : Z) : Z * Z := (zmul4 (a0 - a1) (a0 + a1), zmul4 (2 * a0) a1).
Lemma psq_ok a0 a1 : psq a0 a1 = (a0 * a0 - a1 * a1, a0 * a1 + a1 * a0).
Proof. unfold psq. rewrite !zmul4_ok. f_equal; ring. Qed.

Inductive step2 := Dbl2 (m0 m1 k1 k2 k3 k4 k5 k6 : Z) | Add2 (m0 m1 k1 k2 k3 k4 k5 k6 : Z).
Record st2 := St2 { sx0 : Z; sx1 : Z; sy0 : Z; sy1 : Z; sn : Z }.
(** the point of slope m *)
Definition next2 (m0 m1 k3 k4 k5 k6 x0 x1 y0 y1 c0 c1 n : Z) : st2 :=
  let '(q0, q1) := psq m0 m1 in
  let x0' := q0 - x0 - c0 + zmul4 k3 p in
  let x1' := q1 - x1 - c1 + zmul4 k4 p in
  let '(t0, t1) := pmul m0 m1 (x0 - x0') (x1 - x1') in
  St2 x0' x1' (t0 - y0 + zmul4 k5 p) (t1 - y1 + zmul4 k6 p) n.
Section Run.
Context (b0 b1 c0 c1 : Z).
Definition run2_1 (st : st2) (s : step2) : option st2 :=
  let '(St2 x0 x1 y0 y1 n) := st in
  match s with
  | Dbl2 m0 m1 k1 k2 k3 k4 k5 k6 =>
    let '(l0, l1) := pmul m0 m1 (2 * y0) (2 * y1) in
    let '(r0, r1) := psq x0 x1 in
    if (l0 =? 3 * r0 + zmul4 k1 p) && (l1 =? 3 * r1 + zmul4 k2 p)
    then Some (next2 m0 m1 k3 k4 k5 k6 x0 x1 y0 y1 x0 x1 (2 * n)) else None
  | Add2 m0 m1 k1 k2 k3 k4 k5 k6 =>
    let '(l0, l1) := pmul m0 m1 (b0 - x0) (b1 - x1) in
    if (l0 =? c0 - y0 + zmul4 k1 p) && (l1 =? c1 - y1 + zmul4 k2 p) && negb (((b0 - x0) mod p =? 0) && ((b1 - x1) mod p =? 0))
    then Some (next2 m0 m1 k3 k4 k5 k6 x0 x1 y0 y1 b0 b1 (n + 1)) else None
  end.
Fixpoint run2 (l : list step2) (st : st2) : option st2 :=
  match l with
  | [] => Some st
  | s :: l => match run2_1 st s with Some st => run2 l st | None => None end
  end.

Definition apt2 (x0 x1 y0 y1 : Z) : point Fp2 := @Affine Fp2 (lit2 x0 x1) (lit2 y0 y1).
Definition st_pt (s : st2) : point Fp2 := apt2 (sx0 s) (sx1 s) (sy0 s) (sy1 s).
Lemma next2_third m0 m1 k3 k4 k5 k6 x0 x1 y0 y1 d0 d1 n :
  st_pt (next2 m0 m1 k3 k4 k5 k6 x0 x1 y0 y1 d0 d1 n) = third (lit2 m0 m1) (lit2 x0 x1) (lit2 y0 y1) (lit2 d0 d1).
Proof.
  unfold next2. rewrite psq_ok. cbv zeta iota. rewrite pmul_ok. cbv zeta iota. rewrite !zmul4_ok.
  unfold st_pt, apt2, third. cbv zeta. cbn [sx0 sx1 sy0 sy1]. rewrite !lit2_plus.
  rewrite (lit2_sub (_ - _) (_ + _) y0 y1), lit2_mul, (lit2_sub x0 x1), lit2_plus, !lit2_sub, lit2_mul. reflexivity.
Qed.
Lemma apt2_y_nonzero x0 x1 y0 y1 : on_curve bq (apt2 x0 x1 y0 y1) -> fmul (fadd f1 f1) (lit2 y0 y1) <> (f0 : Fp2).
Proof.
  intros C. apply mul_nonzero; [exact Fp2_two|]. intros E.
  change (fmul (lit2 y0 y1) (lit2 y0 y1) = fadd (fmul (fmul (lit2 x0 x1) (lit2 x0 x1)) (lit2 x0 x1)) bq) in C. rewrite E in C.
  apply (Fp2_NoTwo (lit2 x0 x1)). rewrite <- C. apply zero_scale.
Qed.
Lemma lit2_two a b : lit2 (2 * a) (2 * b) = fmul (fadd f1 f1) (lit2 a b).
Proof. rewrite <- lit2_1, <- lit2_add, <- lit2_mul. apply f_equal2; lia. Qed.
Lemma lit2_three a b : lit2 (3 * a) (3 * b) = fmul (fadd (fadd f1 f1) f1) (lit2 a b).
Proof. rewrite <- lit2_1, <- !lit2_add, <- lit2_mul. apply f_equal2; lia. Qed.

Context (C : on_curve bq (apt2 b0 b1 c0 c1)).
Lemma run2_1_ok st s st' : run2_1 st s = Some st' ->
  st_pt st = point_zmul (sn st) (apt2 b0 b1 c0 c1) -> st_pt st' = point_zmul (sn st') (apt2 b0 b1 c0 c1).
Proof.
  intros R E. pose proof (G2_ZON (sn st) _ C) as CX. rewrite <- E in CX.
  destruct st as [x0 x1 y0 y1 n]. change (sn (St2 x0 x1 y0 y1 n)) with n in E.
  change (st_pt (St2 x0 x1 y0 y1 n)) with (apt2 x0 x1 y0 y1) in E, CX.
  destruct s as [m0 m1 k1 k2 k3 k4 k5 k6|m0 m1 k1 k2 k3 k4 k5 k6]; cbn [run2_1] in R;
    rewrite pmul_ok, ?psq_ok in R; cbv zeta iota in R; rewrite ?zmul4_ok in R.
  - destruct (Z.eqb_spec (m0 * (2 * y0) - m1 * (2 * y1)) (3 * (x0 * x0 - x1 * x1) + k1 * p)) as [H0|]; [|discriminate].
    destruct (Z.eqb_spec (m0 * (2 * y1) + m1 * (2 * y0)) (3 * (x0 * x1 + x1 * x0) + k2 * p)) as [H1|]; [|discriminate].
    cbn [andb] in R. apply (f_equal (fun o => match o with Some s => s | None => St2 0 0 0 0 0 end)) in R.
    cbv iota beta in R. rewrite <- R. rewrite next2_third.
    replace (sn _) with (n + n).
    2:{ unfold next2. rewrite psq_ok. cbv zeta iota. rewrite pmul_ok. cbn [sn]. lia. }
    rewrite G2_ZADD, <- E by exact C.
    symmetry. apply double_slope; [now apply (apt2_y_nonzero x0 x1)|].
    rewrite <- lit2_two, <- lit2_mul, <- lit2_mul, <- lit2_three, H0, H1. apply lit2_plus.
  - destruct (Z.eqb_spec (m0 * (b0 - x0) - m1 * (b1 - x1)) (c0 - y0 + k1 * p)) as [H0|]; [|discriminate].
    destruct (Z.eqb_spec (m0 * (b1 - x1) + m1 * (b0 - x0)) (c1 - y1 + k2 * p)) as [H1|]; [|discriminate].
    destruct (((b0 - x0) mod p =? 0) && ((b1 - x1) mod p =? 0)) eqn:N; [discriminate|].
    cbn [andb negb] in R. apply (f_equal (fun o => match o with Some s => s | None => St2 0 0 0 0 0 end)) in R.
    cbv iota beta in R. rewrite <- R. rewrite next2_third.
    replace (sn _) with (n + 1).
    2:{ unfold next2. rewrite psq_ok. cbv zeta iota. rewrite pmul_ok. cbn [sn]. lia. }
    rewrite G2_ZADD, <- E, G2_ONE by exact C.
    symmetry. apply add_slope.
    + rewrite <- lit2_sub, <- lit2_0. now apply lit2_neq.
    + rewrite <- !lit2_sub, <- lit2_mul, H0, H1. apply lit2_plus.
Qed.
Lemma run2_ok l : forall st st', run2 l st = Some st' ->
  st_pt st = point_zmul (sn st) (apt2 b0 b1 c0 c1) -> st_pt st' = point_zmul (sn st') (apt2 b0 b1 c0 c1).
Proof.
  induction l as [|s l IH]; intros st st' R E; cbn [run2] in R.
  - apply (f_equal (fun o => match o with Some s => s | None => st end)) in R. cbv iota beta in R. rewrite <- R. exact E.
  - destruct (run2_1 st s) as [st1|] eqn:R1; [|discriminate].
    eapply IH; [exact R|]. eapply run2_1_ok; eassumption.
Qed.
Theorem chain2_ok l x0 x1 y0 y1 n : run2 l (St2 b0 b1 c0 c1 1) = Some (St2 x0 x1 y0 y1 n) ->
  point_zmul n (apt2 b0 b1 c0 c1) = apt2 x0 x1 y0 y1.
Proof.
  intros R. apply run2_ok in R.
  - symmetry. exact R.
  - symmetry. apply G2_ONE. exact C.
Qed.
End Run.
Lemma apt2_on x0 x1 y0 y1 :
  ((y0 * y0 - y1 * y1) mod p =? ((x0 * x0 - x1 * x1) * x0 - (x0 * x1 + x1 * x0) * x1 + 4) mod p)
  && ((y0 * y1 + y1 * y0) mod p =? ((x0 * x0 - x1 * x1) * x1 + (x0 * x1 + x1 * x0) * x0 + 4) mod p) = true ->
  on_curve bq (apt2 x0 x1 y0 y1).
Proof.
  intros H. apply andb_true_iff in H as [H0 H1]. apply Z.eqb_eq in H0, H1.
  change (fmul (lit2 y0 y1) (lit2 y0 y1) = fadd (fmul (fmul (lit2 x0 x1) (lit2 x0 x1)) (lit2 x0 x1)) (lit2 4 4)).
  rewrite <- !lit2_mul, <- lit2_add. now apply lit2_eq.
Qed.
Lemma apt2_eq x0 x1 y0 y1 u0 u1 v0 v1 : x0 mod p = u0 mod p -> x1 mod p = u1 mod p -> y0 mod p = v0 mod p -> y1 mod p = v1 mod p ->
  apt2 x0 x1 y0 y1 = apt2 u0 u1 v0 v1.
Proof. intros A B C D. unfold apt2. now rewrite (lit2_eq _ _ _ _ A B), (lit2_eq _ _ _ _ C D). Qed.
