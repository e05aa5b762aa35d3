(** * Proof_DigTower: the tower of extensions on digits

    Computations in Fp12 that the standalone checker can evaluate, and what they stand for. *)
From Coq Require Import ZArith List Bool Lia Ring Field.
From Verif Require Import Base Fld Zr Zp Digits Model_Scalar Model_Fp Spec_Fp Proof_Fp Proof_FpRep Proof_Fp2 Proof_Fp12 Power Tower Ext Proof_Cyclo Proof_FinalExp.
Import ListNotations.
Local Open Scope Z_scope.

(** ** the computations *)
Inductive t2 : Set := T2 (a b : num).
Definition add2 (x y : t2) : t2 := let (a, b) := x in let (c, d) := y in T2 (dadd a c) (dadd b d).
Definition sub2 (x y : t2) : t2 := let (a, b) := x in let (c, d) := y in T2 (dsub a c) (dsub b d).
Definition neg2 (x : t2) : t2 := let (a, b) := x in T2 (dsub Digits.E a) (dsub Digits.E b).
Definition conj2 (x : t2) : t2 := let (a, b) := x in T2 a (dsub Digits.E b).
Definition nr2 (x : t2) : t2 := let (a, b) := x in T2 (dsub a b) (dadd a b).
Definition mul2 (x y : t2) : t2 :=
  let (a, b) := x in let (c, d) := y in
  let u := dmul a c in let v := dmul b d in
  T2 (dsub u v) (dsub (dsub (dmul (dadd a b) (dadd c d)) u) v).
Definition sqr2 (x : t2) : t2 := let (a, b) := x in T2 (dmul (dadd a b) (dsub a b)) (dmul (dadd a a) b).
Definition mul21 (x : t2) (k : num) : t2 := let (a, b) := x in T2 (dmul a k) (dmul b k).
Definition full2 (x : t2) : bool := let (a, b) := x in if full a then full b else false.
Definition same2 (x y : t2) : bool := let (a, b) := x in let (c, d) := y in if same a c then same b d else false.
Inductive t6 : Set := T6 (a b c : t2).
Definition add6 (x y : t6) : t6 := let (a, b, c) := x in let (d, e, f) := y in T6 (add2 a d) (add2 b e) (add2 c f).
Definition sub6 (x y : t6) : t6 := let (a, b, c) := x in let (d, e, f) := y in T6 (sub2 a d) (sub2 b e) (sub2 c f).
Definition neg6 (x : t6) : t6 := let (a, b, c) := x in T6 (neg2 a) (neg2 b) (neg2 c).
Definition nr6 (x : t6) : t6 := let (a, b, c) := x in T6 (nr2 c) a b.
Definition mul6 (x y : t6) : t6 :=
  let (a0, a1, a2) := x in let (b0, b1, b2) := y in
  let v0 := mul2 a0 b0 in let v1 := mul2 a1 b1 in let v2 := mul2 a2 b2 in
  T6 (add2 v0 (nr2 (sub2 (sub2 (mul2 (add2 a1 a2) (add2 b1 b2)) v1) v2)))
     (add2 (sub2 (sub2 (mul2 (add2 a0 a1) (add2 b0 b1)) v0) v1) (nr2 v2))
     (add2 (sub2 (sub2 (mul2 (add2 a0 a2) (add2 b0 b2)) v0) v2) v1).
(** the product with c + d v *)
Definition mul01 (x : t6) (c d : t2) : t6 :=
  let (a0, a1, a2) := x in
  let v0 := mul2 a0 c in let v1 := mul2 a1 d in
  T6 (add2 v0 (nr2 (sub2 (mul2 (add2 a1 a2) d) v1)))
     (sub2 (sub2 (mul2 (add2 a0 a1) (add2 c d)) v0) v1)
     (add2 (sub2 (mul2 (add2 a0 a2) c) v0) v1).
Definition full6 (x : t6) : bool := let (a, b, c) := x in if full2 a then if full2 b then full2 c else false else false.
Definition same6 (x y : t6) : bool := let (a, b, c) := x in let (d, e, f) := y in if same2 a d then if same2 b e then same2 c f else false else false.
Inductive t12 : Set := T12 (a b : t6).
Definition mul12 (x y : t12) : t12 :=
  let (a, b) := x in let (c, d) := y in
  let u := mul6 a c in let v := mul6 b d in
  T12 (add6 u (nr6 v)) (sub6 (sub6 (mul6 (add6 a b) (add6 c d)) u) v).
Definition sqr12 (x : t12) : t12 :=
  let (a, b) := x in let u := mul6 a b in
  T12 (sub6 (sub6 (mul6 (add6 a b) (add6 a (nr6 b))) u) (nr6 u)) (add6 u u).
Definition conj12 (x : t12) : t12 := let (a, b) := x in T12 a (neg6 b).
Definition one2 (o : num) : t2 := T2 o Digits.E.
(** the product with c + d v + v w; [o] is one *)
Definition mul_line (o : num) (x : t12) (c d : t2) : t12 :=
  let (a, b) := x in
  let u := mul01 a c d in let v := nr6 b in
  T12 (add6 u (nr6 v)) (sub6 (sub6 (mul01 (add6 a b) c (add2 d (one2 o))) u) v).
Definition sq4 (a b : t2) : t2 * t2 :=
  let u := sqr2 a in let v := sqr2 b in (add2 (nr2 v) u, sub2 (sub2 (sqr2 (add2 a b)) u) v).
Definition thrice_sub (t a : t2) : t2 := let d := sub2 t a in add2 (add2 d d) t.
Definition thrice_add (t a : t2) : t2 := let d := add2 t a in add2 (add2 d d) t.
Definition csq12 (x : t12) : t12 :=
  let (p, q) := x in let (a0, a2, a4) := p in let (a1, a3, a5) := q in
  let (t, t') := sq4 a0 a3 in let (u, u') := sq4 a1 a4 in let (v, v') := sq4 a2 a5 in
  T12 (T6 (thrice_sub t a0) (thrice_sub u a2) (thrice_sub v a4))
      (T6 (thrice_add (nr2 v') a1) (thrice_add t' a3) (thrice_add u' a5)).
Definition frob6 (g2 g4 : t2) (x : t6) : t6 := let (a, b, c) := x in T6 (conj2 a) (mul2 g2 (conj2 b)) (mul2 g4 (conj2 c)).
Definition frob12 (g g2 g4 : t2) (x : t12) : t12 :=
  let (a, b) := x in let (d, e, f) := frob6 g2 g4 b in T12 (frob6 g2 g4 a) (T6 (mul2 g d) (mul2 g e) (mul2 g f)).
Definition full12 (x : t12) : bool := let (a, b) := x in if full6 a then full6 b else false.
Definition same12 (x y : t12) : bool := let (a, b) := x in let (c, d) := y in if same6 a c then same6 b d else false.

(** ** one number *)
Definition drep (n : num) (x : Fp) : Prop := dwf n /\ fp_of (nv n) = fmul x RP.
Section Base.
Context {K : fld}.
Add Field Kdt : (fld_field K).
Local Open Scope fld_scope.
Lemma scale_add (x y k : K) : x * k + y * k = (x + y) * k. Proof. ring. Qed.
Lemma scale_sub (x y k : K) : x * k - y * k = (x - y) * k. Proof. ring. Qed.
Lemma scale_mul (x y k z : K) : k <> 0 -> k * z = x * k * (y * k) -> z = x * y * k.
Proof. intros N E. apply (fmul_cancel_l k); [exact N|]. rewrite E. ring. Qed.
Lemma scale_cancel (x y k : K) : k <> 0 -> x * k = y * k -> x = y.
Proof. intros N E. apply (fmul_cancel_l k); [exact N|]. transitivity (x * k); [ring|]. rewrite E. ring. Qed.
Lemma scale_0 (k : K) : 0 = 0 * k. Proof. ring. Qed.
Lemma sub_0_l (x : K) : 0 - x = - x. Proof. ring. Qed.
Lemma kd0 (a0 a1 b0 b1 : K) : a0 * b0 - a1 * b1 = a0 * b0 + - (1) * (a1 * b1). Proof. ring. Qed.
Lemma kd1 (a0 a1 b0 b1 : K) : (a0 + a1) * (b0 + b1) - a0 * b0 - a1 * b1 = a0 * b1 + a1 * b0. Proof. ring. Qed.
End Base.
Lemma drep_to n (x y : Fp) : x = y -> drep n x -> drep n y. Proof. intros <-. exact (fun H => H). Qed.
Lemma mod_wf n : dwf n -> nv n = nv n mod p.
Proof. intros H. symmetry. apply Z.mod_small. split; [apply nv_nonneg|exact H]. Qed.
Lemma mod_lt x : x mod p < p. Proof. apply Z.mod_pos_bound. exact p_pos. Qed.
Lemma drep_add a b (x y : Fp) : drep a x -> drep b y -> drep (dadd a b) (fadd x y).
Proof.
  intros [WA A] [WB B]. pose proof (dadd_ok a b WA WB) as E. split; [unfold dwf; rewrite E; apply mod_lt|].
  rewrite E, fp_of_mod, fp_of_add, A, B. exact (scale_add (K:=Fp) x y RP).
Qed.
Lemma drep_sub a b (x y : Fp) : drep a x -> drep b y -> drep (dsub a b) (fsub x y).
Proof.
  intros [WA A] [WB B]. pose proof (dsub_ok a b WA WB) as E. split; [unfold dwf; rewrite E; apply mod_lt|].
  rewrite E, fp_of_mod, fp_of_sub, A, B. exact (scale_sub (K:=Fp) x y RP).
Qed.
Lemma drep_mul a b (x y : Fp) : drep a x -> drep b y -> drep (dmul a b) (fmul x y).
Proof.
  intros [WA A] [WB B]. destruct (dmul_ok a b WA WB) as [L E]. split; [exact L|].
  apply (scale_mul (K:=Fp) x y RP _ RP_neq_0). rewrite <- A, <- B. unfold RP. rewrite <- !fp_of_mul. apply fp_of_eq. exact E.
Qed.
Lemma drep_0 : drep Digits.E f0.
Proof. split; [exact p_pos|]. exact (scale_0 (K:=Fp) RP). Qed.
Lemma drep_neg a (x : Fp) : drep a x -> drep (dsub Digits.E a) (fneg x).
Proof. intros A. apply (drep_to _ _ _ (sub_0_l (K:=Fp) x)). apply drep_sub; [exact drep_0|exact A]. Qed.
Lemma drep_same a b (x y : Fp) : drep a x -> drep b y -> same a b = true -> x = y.
Proof.
  intros [_ A] [_ B] S. apply same_ok in S. apply (scale_cancel (K:=Fp) x y RP RP_neq_0). rewrite <- A, <- B, S. reflexivity.
Qed.
Lemma drep_differ a b (x y : Fp) : drep a x -> drep b y -> same a b = false -> x <> y.
Proof.
  intros [WA A] [WB B] S E. rewrite E in A. rewrite <- B in A. apply (f_equal pval) in A. rewrite !pval_fp_of in A.
  rewrite <- (mod_wf a WA), <- (mod_wf b WB) in A. apply same_ok in A. rewrite A in S. discriminate S.
Qed.
(** the digits of a number, for the constants *)
Definition digit (n : Z) : D :=
  match n with
  | 0 => D0 | 1 => D1 | 2 => D2 | 3 => D3 | 4 => D4 | 5 => D5 | 6 => D6 | 7 => D7
  | 8 => D8 | 9 => D9 | 10 => D10 | 11 => D11 | 12 => D12 | 13 => D13 | 14 => D14 | 15 => D15
  | 16 => D16 | 17 => D17 | 18 => D18 | 19 => D19 | 20 => D20 | 21 => D21 | 22 => D22 | 23 => D23
  | 24 => D24 | 25 => D25 | 26 => D26 | 27 => D27 | 28 => D28 | 29 => D29 | 30 => D30 | 31 => D31
  | 32 => D32 | 33 => D33 | 34 => D34 | 35 => D35 | 36 => D36 | 37 => D37 | 38 => D38 | 39 => D39
  | 40 => D40 | 41 => D41 | 42 => D42 | 43 => D43 | 44 => D44 | 45 => D45 | 46 => D46 | 47 => D47
  | 48 => D48 | 49 => D49 | 50 => D50 | 51 => D51 | 52 => D52 | 53 => D53 | 54 => D54 | 55 => D55
  | 56 => D56 | 57 => D57 | 58 => D58 | 59 => D59 | 60 => D60 | 61 => D61 | 62 => D62 | 63 => D63
  | _ => D0
  end.
Fixpoint digits (k : nat) (n : Z) : num := match k with O => Digits.E | S k => Digits.C (digit (n mod 64)) (digits k (n / 64)) end.
(** the Montgomery form of a number *)
Definition mont (n : Z) : num := digits 64 ((n * W ^ 6) mod p).
Lemma drep_lit n (z : Z) : (nv n =? (z * W ^ 6) mod p) = true -> drep n (fp_of z).
Proof.
  intros H. apply Z.eqb_eq in H. split; [unfold dwf; rewrite H; apply mod_lt|]. rewrite H, fp_of_mod. apply fp_of_mul.
Qed.
Lemma drep_frep n s (x : Fp) : drep n x -> fcanonical s -> nv n = fpv s -> frep s x.
Proof. intros [_ A] C H. split; [exact C|]. rewrite <- H. exact A. Qed.

(** ** two coordinates *)
Definition drep2 (a : t2) (x : Fp2) : Prop := let (a0, a1) := a in drep a0 (q0 x) /\ drep a1 (q1 x).
Lemma drep2_add a b (x y : Fp2) : drep2 a x -> drep2 b y -> drep2 (add2 a b) (fadd x y).
Proof. destruct a as [a0 a1], b as [b0 b1]. intros [A B] [A' B']. split; apply drep_add; assumption. Qed.
Lemma drep2_sub a b (x y : Fp2) : drep2 a x -> drep2 b y -> drep2 (sub2 a b) (fsub x y).
Proof. destruct a as [a0 a1], b as [b0 b1]. intros [A B] [A' B']. split; apply drep_sub; assumption. Qed.
Lemma drep2_neg a (x : Fp2) : drep2 a x -> drep2 (neg2 a) (fneg x).
Proof. destruct a as [a0 a1]. intros [A B]. split; apply drep_neg; assumption. Qed.
Lemma drep2_conj a (x : Fp2) : drep2 a x -> drep2 (conj2 a) (Fp2_conj x).
Proof. destruct a as [a0 a1]. intros [A B]. split; [exact A|apply drep_neg; exact B]. Qed.
Lemma drep2_nr a (x : Fp2) : drep2 a x -> drep2 (nr2 a) (fmul xi x).
Proof.
  destruct a as [a0 a1]. intros [A B]. split.
  - refine (drep_to _ _ _ (nres0 (K:=Fp) (q0 x) (q1 x)) _). apply drep_sub; assumption.
  - refine (drep_to _ _ _ (nres1 (K:=Fp) (q0 x) (q1 x)) _). apply drep_add; assumption.
Qed.
Lemma drep2_mul a b (x y : Fp2) : drep2 a x -> drep2 b y -> drep2 (mul2 a b) (fmul x y).
Proof.
  destruct a as [a0 a1], b as [b0 b1]. intros [A B] [A' B']. split.
  - refine (drep_to _ _ _ (kd0 (K:=Fp) (q0 x) (q1 x) (q0 y) (q1 y)) _). apply drep_sub; apply drep_mul; assumption.
  - refine (drep_to _ _ _ (kd1 (K:=Fp) (q0 x) (q1 x) (q0 y) (q1 y)) _).
    apply drep_sub; [apply drep_sub|]; [apply drep_mul; apply drep_add| |]; try assumption; apply drep_mul; assumption.
Qed.
Lemma drep2_sqr a (x : Fp2) : drep2 a x -> drep2 (sqr2 a) (fmul x x).
Proof.
  destruct a as [a0 a1]. intros [A B]. split.
  - refine (drep_to _ _ _ (csq0 (K:=Fp) (q0 x) (q1 x)) _). apply drep_mul; [apply drep_add|apply drep_sub]; assumption.
  - refine (drep_to _ _ _ (csq1 (K:=Fp) (q0 x) (q1 x)) _). apply drep_mul; [apply drep_add|]; assumption.
Qed.
Section ScaleOf.
Context {K : fld}.
Add Field Kso : (fld_field K).
Lemma quad_mul_of (d : K) (x : quad K) y : quad_mul d x (quad_of y) = Quad (fmul (q0 x) y) (fmul (q1 x) y).
Proof. unfold quad_mul, quad_of. cbn [q0 q1]. apply (f_equal2 Quad); ring. Qed.
End ScaleOf.
Lemma drep2_to n (x y : Fp2) : x = y -> drep2 n x -> drep2 n y. Proof. intros <-. exact (fun H => H). Qed.
Lemma drep2_mul21 a k (x : Fp2) (y : Fp) : drep2 a x -> drep k y -> drep2 (mul21 a k) (fmul x (Fp2_of y)).
Proof.
  destruct a as [a0 a1]. intros [A B] H. apply (drep2_to _ (Quad (fmul (q0 x) y) (fmul (q1 x) y) : Fp2)); [symmetry; exact (quad_mul_of (K:=Fp) _ x y)|].
  split; apply drep_mul; assumption.
Qed.
Lemma drep2_same a b (x y : Fp2) : drep2 a x -> drep2 b y -> same2 a b = true -> x = y.
Proof.
  destruct a as [a0 a1], b as [b0 b1], x as [x0 x1], y as [y0 y1]. intros [A B] [A' B']. cbn [same2].
  destruct (same a0 b0) eqn:S0; [|discriminate]. intros S1. exact (f_equal2 Quad (drep_same _ _ _ _ A A' S0) (drep_same _ _ _ _ B B' S1)).
Qed.
Lemma drep2_differ a b (x y : Fp2) : drep2 a x -> drep2 b y -> same2 a b = false -> x <> y.
Proof.
  destruct a as [a0 a1], b as [b0 b1]. intros [A B] [A' B']. cbn [same2]. intros S E.
  destruct (same a0 b0) eqn:S0.
  - exact (drep_differ _ _ _ _ B B' S (f_equal q1 E)).
  - exact (drep_differ _ _ _ _ A A' S0 (f_equal q0 E)).
Qed.
Lemma drep2_one o : drep o f1 -> drep2 (one2 o) f1. Proof. intros H. split; [exact H|exact drep_0]. Qed.

(** ** six coordinates *)
Section Six.
Context {K : fld} (xi : K) (NX : forall x : K, fmul (fmul x x) x <> xi).
Add Field K6d : (fld_field K).
Local Open Scope fld_scope.
Context (rep2 : t2 -> K -> Prop).
Hypothesis Radd : forall a b x y, rep2 a x -> rep2 b y -> rep2 (add2 a b) (x + y).
Hypothesis Rsub : forall a b x y, rep2 a x -> rep2 b y -> rep2 (sub2 a b) (x - y).
Hypothesis Rneg : forall a x, rep2 a x -> rep2 (neg2 a) (- x).
Hypothesis Rmul : forall a b x y, rep2 a x -> rep2 b y -> rep2 (mul2 a b) (x * y).
Hypothesis Rnonres : forall a x, rep2 a x -> rep2 (nr2 a) (xi * x).
Notation CC := (cubic_fld xi NX).
Definition gr6 (a : t6) (x : CC) : Prop := let '(T6 a0 a1 a2) := a in rep2 a0 (k0 x) /\ rep2 a1 (k1 x) /\ rep2 a2 (k2 x).
Lemma Rd_to a x y : rep2 a x -> x = y -> rep2 a y. Proof. intros H <-. exact H. Qed.
Ltac rr := repeat first [eassumption | eapply Radd | eapply Rsub | eapply Rneg | eapply Rmul | eapply Rnonres].
Ltac coord := eapply Rd_to; [rr|]; cbn [k0 k1 k2]; try ring.
Lemma gr6_add a b x y : gr6 a x -> gr6 b y -> gr6 (add6 a b) (x + y).
Proof. destruct a as [a0 a1 a2], b as [b0 b1 b2]. cbn. intros (A & B & D) (A' & B' & D'). split; [|split]; coord. Qed.
Lemma gr6_sub a b x y : gr6 a x -> gr6 b y -> gr6 (sub6 a b) (x - y).
Proof. destruct a as [a0 a1 a2], b as [b0 b1 b2]. cbn. intros (A & B & D) (A' & B' & D'). split; [|split]; coord. Qed.
Lemma gr6_neg a x : gr6 a x -> gr6 (neg6 a) (- x).
Proof. destruct a as [a0 a1 a2]. cbn. intros (A & B & D). split; [|split]; coord. Qed.
Lemma gr6_mul a b x y : gr6 a x -> gr6 b y -> gr6 (mul6 a b) (x * y).
Proof. destruct a as [a0 a1 a2], b as [b0 b1 b2]. cbn. intros (A & B & D) (A' & B' & D'). split; [|split]; coord. Qed.
Lemma gr6_nonres a x : gr6 a x -> gr6 (nr6 a) (cubic_root xi NX * x).
Proof. destruct a as [a0 a1 a2]. cbn. intros (A & B & D). split; [|split]; coord. Qed.
Lemma gr6_mul01 a x c d y z : gr6 a x -> rep2 c y -> rep2 d z -> gr6 (mul01 a c d) (x * (Cubic y z 0 : CC)).
Proof. destruct a as [a0 a1 a2]. cbn. intros (A & B & D) Y Z. split; [|split]; coord. Qed.
Lemma gr6_scale g gm a x : rep2 g gm -> gr6 a x -> gr6 (let (d, e, f) := a in T6 (mul2 g d) (mul2 g e) (mul2 g f)) ((cubic_of gm : CC) * x).
Proof. destruct a as [a0 a1 a2]. cbn. intros G (A & B & D). split; [|split]; coord. Qed.
Lemma rotate x : x * (Cubic 0 1 0 : CC) = cubic_root xi NX * x.
Proof. destruct x as [x0 x1 x2]. cbn. unfold cubic_mul, cubic_root. cbn [k0 k1 k2]. apply (f_equal3 Cubic); ring. Qed.
End Six.
Definition d6 : t6 -> Fp6 -> Prop := gr6 xi xi_noncube drep2.
Lemma d6_add a b x y : d6 a x -> d6 b y -> d6 (add6 a b) (fadd x y).
Proof. exact (gr6_add xi xi_noncube drep2 drep2_add a b x y). Qed.
Lemma d6_sub a b x y : d6 a x -> d6 b y -> d6 (sub6 a b) (fsub x y).
Proof. exact (gr6_sub xi xi_noncube drep2 drep2_sub a b x y). Qed.
Lemma d6_neg a x : d6 a x -> d6 (neg6 a) (fneg x).
Proof. exact (gr6_neg xi xi_noncube drep2 drep2_neg a x). Qed.
Lemma d6_mul a b x y : d6 a x -> d6 b y -> d6 (mul6 a b) (fmul x y).
Proof. exact (gr6_mul xi xi_noncube drep2 drep2_add drep2_sub drep2_mul drep2_nr a b x y). Qed.
Lemma d6_nonres a x : d6 a x -> d6 (nr6 a) (fmul Fp6_v x).
Proof. exact (gr6_nonres xi xi_noncube drep2 drep2_nr a x). Qed.
Lemma d6_mul01 a x c d y z : d6 a x -> drep2 c y -> drep2 d z -> d6 (mul01 a c d) (fmul x (s01 y z)).
Proof. exact (gr6_mul01 xi xi_noncube drep2 drep2_add drep2_sub drep2_mul drep2_nr a x c d y z). Qed.
Lemma d6_s1 b x : d6 b x -> d6 (nr6 b) (fmul x (s1 f1)).
Proof. intros H. unfold s1. rewrite (rotate xi xi_noncube x : fmul x (Cubic (f0 : Fp2) f1 f0 : Fp6) = fmul Fp6_v x). apply d6_nonres. exact H. Qed.
Lemma d6_same a b (x y : Fp6) : d6 a x -> d6 b y -> same6 a b = true -> x = y.
Proof.
  destruct a as [a0 a1 a2], b as [b0 b1 b2], x as [x0 x1 x2], y as [y0 y1 y2]. intros (A & B & D) (A' & B' & D'). cbn [same6].
  destruct (same2 a0 b0) eqn:S0; [|discriminate]. destruct (same2 a1 b1) eqn:S1; [|discriminate]. intros S2.
  exact (f_equal3 Cubic (drep2_same _ _ _ _ A A' S0) (drep2_same _ _ _ _ B B' S1) (drep2_same _ _ _ _ D D' S2)).
Qed.

(** ** twelve coordinates *)
Section Twelve.
Context {K : fld} (v : K) (ND : forall x : K, fmul x x <> v).
Add Field K12d : (fld_field K).
Local Open Scope fld_scope.
Context (rep6 : t6 -> K -> Prop).
Hypothesis Radd : forall a b x y, rep6 a x -> rep6 b y -> rep6 (add6 a b) (x + y).
Hypothesis Rsub : forall a b x y, rep6 a x -> rep6 b y -> rep6 (sub6 a b) (x - y).
Hypothesis Rneg : forall a x, rep6 a x -> rep6 (neg6 a) (- x).
Hypothesis Rmul : forall a b x y, rep6 a x -> rep6 b y -> rep6 (mul6 a b) (x * y).
Hypothesis Rnonres : forall a x, rep6 a x -> rep6 (nr6 a) (v * x).
Notation Q := (quad_fld v ND).
Definition gr12 (a : t12) (x : Q) : Prop := let '(T12 a0 a1) := a in rep6 a0 (q0 x) /\ rep6 a1 (q1 x).
Lemma Rd6_to a x y : rep6 a x -> x = y -> rep6 a y. Proof. intros H <-. exact H. Qed.
Ltac rr := repeat first [eassumption | eapply Radd | eapply Rsub | eapply Rneg | eapply Rmul | eapply Rnonres].
Ltac coord := eapply Rd6_to; [rr|]; cbn [q0 q1]; try ring.
Lemma gr12_mul a b x y : gr12 a x -> gr12 b y -> gr12 (mul12 a b) (x * y).
Proof. destruct a as [a0 a1], b as [b0 b1]. cbn. intros (A & B) (A' & B'). split; coord. Qed.
Lemma gr12_sqr a x : gr12 a x -> gr12 (sqr12 a) (x * x).
Proof. destruct a as [a0 a1]. cbn. intros (A & B). split; coord. Qed.
Lemma gr12_conj a x : gr12 a x -> gr12 (conj12 a) (quad_conj x).
Proof. destruct a as [a0 a1]. cbn. intros (A & B). split; coord. Qed.
Context {K2 : fld} (rep2 : t2 -> K2 -> Prop) (Radd2 : forall a b x y, rep2 a x -> rep2 b y -> rep2 (add2 a b) (fadd x y)).
Context (s1 : K2 -> K) (s01 : K2 -> K2 -> K) (Ss : forall x y z, s01 x (fadd y z) = s01 x y + s1 z).
Hypothesis R1 : forall a x, rep6 a x -> rep6 (nr6 a) (x * s1 f1).
Hypothesis R01 : forall a x c d y z, rep6 a x -> rep2 c y -> rep2 d z -> rep6 (mul01 a c d) (x * s01 y z).
Lemma gr12_mul_line o a x c d y z : rep2 (one2 o) f1 -> gr12 a x -> rep2 c y -> rep2 d z -> gr12 (mul_line o a c d) (x * (Quad (s01 y z) (s1 f1) : Q)).
Proof.
  intros O. destruct a as [a0 a1]. intros (A & B) C0 C1. unfold mul_line.
  pose proof (R01 _ _ _ _ _ _ A C0 C1) as AA. pose proof (R1 _ _ B) as BB.
  pose proof (R01 _ _ _ _ _ _ (Radd _ _ _ _ A B) C0 (Radd2 _ _ _ _ C1 O)) as CC.
  split.
  - eapply Rd6_to; [apply Radd; [exact AA|apply Rnonres; exact BB]|]. cbn. ring.
  - eapply Rd6_to; [apply Rsub; [apply Rsub; [exact CC|exact AA]|exact BB]|]. rewrite Ss. cbn. ring.
Qed.
End Twelve.
Definition d12 : t12 -> Fp12 -> Prop := gr12 Fp6_v v_nonsquare d6.
Lemma d12_to a (x y : Fp12) : d12 a x -> x = y -> d12 a y. Proof. intros H <-. exact H. Qed.
Lemma d12_mul a b x y : d12 a x -> d12 b y -> d12 (mul12 a b) (fmul x y).
Proof. exact (gr12_mul Fp6_v v_nonsquare d6 d6_add d6_sub d6_mul d6_nonres a b x y). Qed.
Lemma d12_sqr a x : d12 a x -> d12 (sqr12 a) (fmul x x).
Proof. exact (gr12_sqr Fp6_v v_nonsquare d6 d6_add d6_sub d6_mul d6_nonres a x). Qed.
Lemma d12_conj a x : d12 a x -> d12 (conj12 a) (Fp12_conj x).
Proof. exact (gr12_conj Fp6_v v_nonsquare d6 d6_neg a x). Qed.
Lemma d12_mul_line o a x c d y z : drep o f1 -> d12 a x -> drep2 c y -> drep2 d z -> d12 (mul_line o a c d) (fmul x (s014 y z f1)).
Proof.
  intros O. exact (gr12_mul_line Fp6_v v_nonsquare d6 d6_add d6_sub d6_nonres drep2 drep2_add s1 s01 s01_add d6_s1 d6_mul01 o a x c d y z (drep2_one o O)).
Qed.
Lemma d12_same a b (x y : Fp12) : d12 a x -> d12 b y -> same12 a b = true -> x = y.
Proof.
  destruct a as [a0 a1], b as [b0 b1], x as [x0 x1], y as [y0 y1]. intros (A & B) (A' & B'). cbn [same12].
  destruct (same6 a0 b0) eqn:S0; [|discriminate]. intros S1.
  exact (f_equal2 Quad (d6_same _ _ _ _ A A' S0) (d6_same _ _ _ _ B B' S1)).
Qed.
Lemma drep2_sq4 a b (x y : Fp2) : drep2 a x -> drep2 b y ->
  drep2 (fst (sq4 a b)) (fadd (fmul xi (fmul y y)) (fmul x x)) /\
  drep2 (snd (sq4 a b)) (fsub (fsub (fmul (fadd x y) (fadd x y)) (fmul x x)) (fmul y y)).
Proof.
  intros A B. unfold sq4. cbn [fst snd]. split.
  - apply drep2_add; [apply drep2_nr, drep2_sqr, B|apply drep2_sqr, A].
  - apply drep2_sub; [apply drep2_sub|apply drep2_sqr, B]; [apply drep2_sqr, drep2_add|apply drep2_sqr]; assumption.
Qed.
Lemma d12_csq a (x : Fp12) : d12 a x -> cyc x -> d12 (csq12 a) (fmul x x).
Proof.
  destruct a as [[z0 z4 z3] [z2 z1 z5]]. destruct x as [[x0 x2 x4] [x1 x3 x5]]. intros R CY.
  destruct R as [(R0 & R4 & R3) (R2 & R1 & R5)]. cbn [q0 q1 k0 k1 k2] in R0, R1, R2, R3, R4, R5.
  refine (d12_to _ _ _ _ (granger_square xi xi_noncube v_nonsquare z6 z6_two x0 x1 x2 x3 x4 x5 (cyc_sigma _ CY))).
  unfold csq12.
  pose proof (drep2_sq4 _ _ _ _ R0 R1) as [T0 T1]. destruct (sq4 z0 z1) as [t0 t1].
  pose proof (drep2_sq4 _ _ _ _ R2 R3) as [U0 U1]. destruct (sq4 z2 z3) as [u0 u1].
  pose proof (drep2_sq4 _ _ _ _ R4 R5) as [V0 V1]. destruct (sq4 z4 z5) as [v0 v1].
  cbn [fst snd] in *. pose proof (drep2_nr _ _ V1) as W1. clear CY.
  split; [split; [|split]|split; [|split]].
  - exact (drep2_add _ _ _ _ (drep2_add _ _ _ _ (drep2_sub _ _ _ _ T0 R0) (drep2_sub _ _ _ _ T0 R0)) T0).
  - exact (drep2_add _ _ _ _ (drep2_add _ _ _ _ (drep2_sub _ _ _ _ U0 R4) (drep2_sub _ _ _ _ U0 R4)) U0).
  - exact (drep2_add _ _ _ _ (drep2_add _ _ _ _ (drep2_sub _ _ _ _ V0 R3) (drep2_sub _ _ _ _ V0 R3)) V0).
  - exact (drep2_add _ _ _ _ (drep2_add _ _ _ _ (drep2_add _ _ _ _ W1 R2) (drep2_add _ _ _ _ W1 R2)) W1).
  - exact (drep2_add _ _ _ _ (drep2_add _ _ _ _ (drep2_add _ _ _ _ T1 R1) (drep2_add _ _ _ _ T1 R1)) T1).
  - exact (drep2_add _ _ _ _ (drep2_add _ _ _ _ (drep2_add _ _ _ _ U1 R5) (drep2_add _ _ _ _ U1 R5)) U1).
Qed.
Lemma d12_frob g g2 g4 a (x : Fp12) : drep2 g gamma -> drep2 g2 gamma2 -> drep2 g4 gamma4 -> d12 a x -> d12 (frob12 g g2 g4 a) (zpow x p).
Proof.
  intros G G2 G4 H. rewrite Fp12_frobenius. destruct a as [a b], x as [x y]. destruct H as [A B]. unfold frob12.
  assert (F6 : forall c z, d6 c z -> d6 (frob6 g2 g4 c) (Fp6_frob z)).
  { intros [c0 c1 c2] z (C0 & C1 & C2). split; [exact (drep2_conj _ _ C0)|].
    split; apply drep2_mul; try assumption; apply drep2_conj; assumption. }
  pose proof (gr6_scale xi xi_noncube drep2 drep2_mul g gamma _ _ G (F6 _ _ B)) as S.
  destruct (frob6 g2 g4 b) as [d e f]. split; [exact (F6 _ _ A)|exact S].
Qed.
