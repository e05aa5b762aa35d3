(** * Proof_Cofactor2: the number of points of the curve of the second group, and what clearing the
    cofactor does

    As in Proof_Cofactor: a subgroup of h2 r points is built from points of the prime orders r, 13, 23,
    2713, 11953, 262069 and p448; a point outside it would make more than 2 p^2 + 1 points. *)
From Coq Require Import ZArith List Bool Lia Znumtheory.
From Verif Require Import Base Fld Fastmul Fermat Zr Zp Prime448 Spec_Curve Model_Curve Proof_FpRep Proof_Curve Proof_CurveMul Proof_Endo Proof_Twist
  Proof_G1Base Proof_GLV Proof_G1Sub Proof_Chain Proof_Cofactor Proof_Subgroups Proof_PsiLin Model_G2 Power Tower Ext Proof_Fp2 Spec_G2 Proof_G2Base Proof_Chain2 Cert_Cofactor2 Proof_G2Psi Cert_G2.
Import ListNotations.
Local Open Scope Z_scope.

(** ** checking points, multiples, sums and images *)
Definition q4 : Type := (Z * Z * Z * Z)%type.
Definition pt (a : q4) : point Fp2 := let '(x0, x1, y0, y1) := a in apt2 x0 x1 y0 y1.
Definition on_check (a : q4) : bool :=
  let '(x0, x1, y0, y1) := a in
  ((y0 * y0 - y1 * y1) mod p =? ((x0 * x0 - x1 * x1) * x0 - (x0 * x1 + x1 * x0) * x1 + 4) mod p) &&
  ((y0 * y1 + y1 * y0) mod p =? ((x0 * x0 - x1 * x1) * x1 + (x0 * x1 + x1 * x0) * x0 + 4) mod p).
Lemma on_ok a : on_check a = true -> on_curve bq (pt a).
Proof. destruct a as [[[x0 x1] y0] y1]. exact (apt2_on x0 x1 y0 y1). Qed.
Definition st_eqb (s : st2) (a : q4) (n : Z) : bool :=
  let '(x0, x1, y0, y1) := a in
  (sx0 s =? x0) && (sx1 s =? x1) && (sy0 s =? y0) && (sy1 s =? y1) && (sn s =? n).
Lemma st_eqb_ok s a n : st_eqb s a n = true -> st_pt s = pt a /\ sn s = n.
Proof.
  destruct a as [[[x0 x1] y0] y1], s as [u0 u1 v0 v1 m]. unfold st_eqb. cbn [sx0 sx1 sy0 sy1 sn]. intros H.
  apply andb_prop in H. destruct H as [H H5]. apply andb_prop in H. destruct H as [H H4]. apply andb_prop in H. destruct H as [H H3].
  apply andb_prop in H. destruct H as [H1 H2]. apply Z.eqb_eq in H1, H2, H3, H4, H5. subst. split; reflexivity.
Qed.
Definition mul_check (a : q4) (l : list step2) (n : Z) (c : q4) : bool :=
  let '(x0, x1, y0, y1) := a in
  match run2 x0 x1 y0 y1 l (St2 x0 x1 y0 y1 1) with Some s => st_eqb s c n | None => false end.
Lemma mul_ok a l n c : on_curve bq (pt a) -> mul_check a l n c = true -> point_zmul n (pt a) = pt c.
Proof.
  destruct a as [[[x0 x1] y0] y1]. intros C. unfold mul_check.
  destruct (run2 x0 x1 y0 y1 l (St2 x0 x1 y0 y1 1)) as [s|] eqn:R; [|discriminate].
  intros H. destruct (st_eqb_ok _ _ _ H) as [E N].
  pose proof (run2_ok x0 x1 y0 y1 C l _ _ R) as X. rewrite <- E, <- N. symmetry. apply X.
  change (sn (St2 x0 x1 y0 y1 1)) with 1. symmetry. exact (G2_ONE _ C).
Qed.
Definition add_check (a c : q4) (s : step2) (d : q4) : bool :=
  let '(x0, x1, y0, y1) := a in let '(u0, u1, v0, v1) := c in
  match s with
  | Dbl2 _ _ _ _ _ _ _ _ => false
  | Add2 _ _ _ _ _ _ _ _ => match run2_1 u0 u1 v0 v1 (St2 x0 x1 y0 y1 0) s with Some s => st_eqb s d 1 | None => false end
  end.
Lemma add_ok a c s d : add_check a c s d = true -> point_add (pt a) (pt c) = pt d.
Proof.
  destruct a as [[[x0 x1] y0] y1], c as [[[u0 u1] v0] v1]. unfold add_check.
  destruct s as [m0 m1 k1 k2 k3 k4 k5 k6|m0 m1 k1 k2 k3 k4 k5 k6]; [discriminate|].
  destruct (run2_1 u0 u1 v0 v1 (St2 x0 x1 y0 y1 0) (Add2 m0 m1 k1 k2 k3 k4 k5 k6)) as [s|] eqn:R; [|discriminate].
  intros H. destruct (st_eqb_ok _ _ _ H) as [E _]. rewrite <- E. clear E H d. cbn [run2_1] in R.
  rewrite pmul_ok in R; cbv zeta iota in R; rewrite ?zmul4_ok in R.
  destruct (Z.eqb_spec (m0 * (u0 - x0) - m1 * (u1 - x1)) (v0 - y0 + k1 * p)) as [H0|]; [|discriminate].
  destruct (Z.eqb_spec (m0 * (u1 - x1) + m1 * (u0 - x0)) (v1 - y1 + k2 * p)) as [H1|]; [|discriminate].
  destruct (((u0 - x0) mod p =? 0) && ((u1 - x1) mod p =? 0)) eqn:N; [discriminate|].
  cbn [andb negb] in R. apply (f_equal (fun o => match o with Some s => s | None => St2 0 0 0 0 0 end)) in R.
  cbv iota beta in R. rewrite <- R. rewrite next2_third. unfold pt. apply add_slope.
  - rewrite <- lit2_sub, <- lit2_0. apply lit2_neq. exact N.
  - rewrite <- !lit2_sub, <- lit2_mul, H0, H1. apply lit2_plus.
Qed.
Definition psi_check (a c : q4) : bool :=
  let '(x0, x1, y0, y1) := a in let '(u0, u1, v0, v1) := c in
  ((x1 * cx1_) mod p =? u0 mod p) && ((x0 * cx1_) mod p =? u1 mod p) &&
  ((cy0_ * y0 - cy1_ * - y1) mod p =? v0 mod p) && ((cy0_ * - y1 + cy1_ * y0) mod p =? v1 mod p).
Lemma psi_value a c : psi_check a c = true -> psi (pt a) = pt c.
Proof.
  destruct a as [[[x0 x1] y0] y1], c as [[[u0 u1] v0] v1]. unfold psi_check. intros H.
  apply andb_prop in H. destruct H as [H H4]. apply andb_prop in H. destruct H as [H H3].
  apply andb_prop in H. destruct H as [H1 H2]. apply Z.eqb_eq in H1, H2, H3, H4.
  unfold pt, apt2, twist. apply (f_equal2 (@Affine Fp2)).
  - rewrite psi_c2, lit2_conj, <- lit2_mul. apply lit2_eq.
    + rewrite <- H1. f_equal. ring.
    + rewrite <- H2. f_equal. ring.
  - rewrite psi_c3, lit2_conj, <- lit2_mul. apply lit2_eq; assumption.
Qed.
Definition neg4 (a : q4) : q4 := let '(x0, x1, y0, y1) := a in (x0, x1, p - y0, p - y1).
Lemma neg4_ok a : point_neg (pt a) = pt (neg4 a).
Proof.
  destruct a as [[[x0 x1] y0] y1]. unfold pt, neg4, apt2, point_neg. apply f_equal.
  transitivity (lit2 (0 - y0) (0 - y1)).
  - rewrite lit2_sub, lit2_0. apply fneg_as_sub.
  - rewrite <- (lit2_plus (0 - y0) (0 - y1) 1 1). apply f_equal2; lia.
Qed.
Lemma order_check q a l : on_curve bq (pt a) -> mul_check a l (q - 1) (neg4 a) = true -> point_zmul q (pt a) = Infinity.
Proof.
  intros C H. pose proof (mul_ok _ _ _ _ C H) as E. replace q with (1 + (q - 1)) by ring.
  rewrite G2_ZADD, G2_ONE by exact C. rewrite E, <- neg4_ok. apply point_add_neg_r.
Qed.
Lemma pt_finite a : pt a <> Infinity.
Proof. destruct a as [[[x0 x1] y0] y1]. discriminate. Qed.

(** ** combinations of the images under psi *)
Lemma psi_add' P Q : on_curve bq P -> psi (point_add P Q) = point_add (psi P) (psi Q).
Proof. intros C. symmetry. exact (psi_add P Q C). Qed.
Lemma psi_zmul' n P : on_curve bq P -> psi (point_zmul n P) = point_zmul n (psi P).
Proof. intros C. symmetry. exact (psi_zmul n P C). Qed.
Lemma psi_rel P : on_curve bq P -> psi (psi (psi (psi P))) = point_add (psi (psi P)) (point_neg P).
Proof.
  intros C. pose proof (phi2_on P C) as C1. pose proof (phi2_on _ C1) as C2.
  rewrite (psi_twice P), (psi_twice (point_neg (phi2 P))).
  assert (E : phi2 (point_neg (phi2 P)) = point_neg (phi2 (phi2 P))) by exact (endo_neg (K:=Fp2) w2 (phi2 P)).
  rewrite E, neg_neg_pt. pose proof (endo_sum (b:=bq) Fp2_two Fp2_NoTwo w2 w2_root Fp2_three P C) as S.
  rewrite (C2_ (phi2 (phi2 P))) in S by (exact C2 || apply ON2_; assumption).
  apply (pt_neg_unique (b:=bq) Fp2_two Fp2_NoTwo) in S; [|apply ON2_; assumption|exact C2].
  transitivity (point_neg (point_add (phi2 P) P)); [exact S|]. apply (pt_neg_add (b:=bq) Fp2_two Fp2_NoTwo); assumption.
Qed.
Local Notation lin := (lin (K:=Fp2) psi).
Definition l_on := lin_on (b:=bq) Fp2_two Fp2_NoTwo psi psi_on.
Definition l_hom := lin_hom (b:=bq) Fp2_two Fp2_NoTwo psi psi_on psi_add'.
Definition l_zmul := lin_zmul (b:=bq) Fp2_two Fp2_NoTwo psi psi_on psi_zmul'.
Definition l_comm := lin_comm (b:=bq) Fp2_two Fp2_NoTwo psi psi_on psi_add' psi_zmul'.
Definition l_psi := lin_psi (b:=bq) Fp2_two Fp2_NoTwo psi psi_on psi_add' psi_zmul' psi_rel.
Definition l_res := lin_resultant (b:=bq) Fp2_two Fp2_NoTwo psi psi_on psi_add' psi_zmul' psi_rel.
Definition l_eigen := lin_eigen (b:=bq) Fp2_two Fp2_NoTwo psi psi_zmul'.
Definition cc_c : Z := bls_x * bls_x - bls_x - 1.
Definition cc_d : Z := bls_x - 1.
Notation clear2 := (Proof_PsiLin.lin (K:=Fp2) psi cc_c cc_d 2 0).
Lemma clear2_on P : on_curve bq P -> on_curve bq (clear2 P).
Proof. apply l_on. Qed.
Lemma clear2_add P Q : on_curve bq P -> on_curve bq Q -> clear2 (point_add P Q) = point_add (clear2 P) (clear2 Q).
Proof. apply l_hom. Qed.
Lemma clear2_zmul n P : on_curve bq P -> clear2 (point_zmul n P) = point_zmul n (clear2 P).
Proof. apply l_zmul. Qed.
(** the value of the code *)
Section Code.
Context {K : fld} {b : K} (H2 : fadd f1 f1 <> (f0 : K)) (NoTwo : forall x : K, fadd (fmul (fmul x x) x) b <> f0).
Lemma inf_on : on_curve b (Infinity : point K).
Proof. exact I. Qed.
Lemma zmul_0 (P : point K) : point_zmul 0 P = Infinity.
Proof. reflexivity. Qed.
Lemma sum_code (P P1 P2 P3 D : point K) c d : on_curve b P -> on_curve b P1 -> on_curve b P2 -> D = point_add P2 P2 ->
  point_add D (point_add (point_zmul c P) (point_zmul d P1)) =
  point_add (point_add (point_zmul c P) (point_zmul d P1)) (point_add (point_zmul 2 P2) (point_zmul 0 P3)).
Proof.
  intros C C1 C2 ->. rewrite zmul_0. rewrite (add_0_r (b:=b) H2 NoTwo) by (apply (zmul_on_curve (b:=b) H2 NoTwo); assumption).
  replace (point_zmul 2 P2) with (point_add P2 P2).
  - apply (point_add_comm b H2 NoTwo); repeat first [assumption | apply (point_add_on_curve b H2 NoTwo) | apply (zmul_on_curve (b:=b) H2 NoTwo)].
  - change 2 with (1 + 1). rewrite (pt_zmul_add (b:=b) H2 NoTwo) by exact C2. rewrite (pt_zmul_1 (b:=b)) by exact C2. reflexivity.
Qed.
Lemma clear_23 (P P1 P2 P3 : point K) c d c1 d1 : on_curve b P -> on_curve b P1 ->
  P2 = point_add (point_zmul c1 P) (point_zmul d1 P1) -> point_zmul (c + 2 * c1) P = Infinity -> point_zmul (d + 2 * d1) P1 = Infinity ->
  point_add (point_add (point_zmul c P) (point_zmul d P1)) (point_add (point_zmul 2 P2) (point_zmul 0 P3)) = Infinity.
Proof.
  intros C C1 -> O O1. rewrite zmul_0.
  assert (CA : forall n, on_curve b (point_zmul n P)) by (intros n; apply (zmul_on_curve (b:=b) H2 NoTwo); assumption).
  assert (CB : forall n, on_curve b (point_zmul n P1)) by (intros n; apply (zmul_on_curve (b:=b) H2 NoTwo); assumption).
  rewrite (add_0_r (b:=b) H2 NoTwo) by (apply (zmul_on_curve (b:=b) H2 NoTwo), (point_add_on_curve b H2 NoTwo); auto).
  rewrite (pt_zmul_add_r (b:=b) H2 NoTwo) by auto.
  rewrite <- (pt_zmul_mul (b:=b) H2 NoTwo 2 c1 P), <- (pt_zmul_mul (b:=b) H2 NoTwo 2 d1 P1) by assumption.
  rewrite (add_shuffle (b:=b) H2 NoTwo) by auto. rewrite <- !(pt_zmul_add (b:=b) H2 NoTwo) by assumption. rewrite O, O1. reflexivity.
Qed.
End Code.
Lemma clear2_inf : clear2 Infinity = Infinity.
Proof.
  pose proof (clear2_zmul 0 Infinity (inf_on (b:=bq))) as E. rewrite (zmul_0 (K:=Fp2) Infinity), (zmul_0 (K:=Fp2) (clear2 Infinity)) in E. exact E.
Qed.
Lemma clear2_code P : on_curve bq P ->
  point_add (psi (psi (point_add P P))) (point_add (point_zmul (bls_x * bls_x - bls_x - 1) P) (point_zmul (bls_x - 1) (psi P))) = clear2 P.
Proof.
  intros C. pose proof (psi_on P C) as C1. pose proof (psi_on _ C1) as C2.
  apply (sum_code Fp2_two Fp2_NoTwo P (psi P) (psi (psi P)) (psi (psi (psi P))) (psi (psi (point_add P P))) cc_c cc_d C C1 C2).
  rewrite (psi_add' P P C). exact (psi_add' _ _ C1).
Qed.

(** ** the points *)
Local Ltac chk := vm_compute; reflexivity.
Lemma W_on : on_curve bq (pt tW). Proof. apply on_ok. chk. Qed.
Lemma V_eq : point_zmul BLS_X (pt tW) = pt tV. Proof. apply (mul_ok _ chain_V); [exact W_on|chk]. Qed.
Lemma V_on : on_curve bq (pt tV). Proof. rewrite <- V_eq. apply G2_ZON, W_on. Qed.
Lemma U_eq : point_zmul BLS_X (pt tV) = pt tU. Proof. apply (mul_ok _ chain_U); [exact V_on|chk]. Qed.
Lemma D_eq : point_zmul 2 (pt tW) = pt tD. Proof. apply (mul_ok _ chain_D); [exact W_on|chk]. Qed.
Lemma D1_eq : psi (pt tD) = pt tD1. Proof. apply psi_value. chk. Qed.
Lemma D2_eq : psi (pt tD1) = pt tD2. Proof. apply psi_value. chk. Qed.
Lemma V1_eq : psi (pt tV) = pt tV1. Proof. apply psi_value. chk. Qed.
Lemma W1_eq : psi (pt tW) = pt tW1. Proof. apply psi_value. chk. Qed.
Lemma L1_eq : point_add (pt tU) (pt tV) = pt tL1. Proof. apply (add_ok _ _ add_L1). chk. Qed.
Lemma L2_eq : point_add (pt tL1) (pt tD2) = pt tL2. Proof. apply (add_ok _ _ add_L2). chk. Qed.
Lemma R1_eq : point_add (pt tW) (pt tV1) = pt tR1. Proof. apply (add_ok _ _ add_R1). chk. Qed.
Lemma R2_eq : point_add (pt tR1) (pt tW1) = pt tL2. Proof. apply (add_ok _ _ add_R2). chk. Qed.
Definition mW : Z := 6837970941253162269.
Lemma M_eq : point_zmul mW (pt tW) = pt tM. Proof. apply (mul_ok _ chain_M); [exact W_on|chk]. Qed.

Section Alg.
Context {K : fld} {b : K} (H2 : fadd f1 f1 <> (f0 : K)) (NoTwo : forall x : K, fadd (fmul (fmul x x) x) b <> f0).
Lemma move_sum (U V D W V1 W1 : point K) :
  on_curve b U -> on_curve b V -> on_curve b D -> on_curve b W -> on_curve b V1 -> on_curve b W1 ->
  point_add (point_add U V) D = point_add (point_add W V1) W1 ->
  point_add (point_add (point_add (point_add U V) (point_neg W)) (point_add (point_neg V1) (point_neg W1))) (point_add D Infinity) = Infinity.
Proof.
  intros CU CV CD CW CV1 CW1 E.
  pose proof (point_add_on_curve b H2 NoTwo) as ON. pose proof (point_neg_on_curve b) as NON.
  pose proof (point_add_assoc b H2 NoTwo) as A. pose proof (point_add_comm b H2 NoTwo) as C.
  assert (CUV := ON _ _ CU CV). assert (NW := NON _ CW). assert (NV := NON _ CV1). assert (NW1 := NON _ CW1).
  assert (CN := ON _ _ NV NW1). assert (C1 := ON _ _ CUV NW). assert (CWN := ON _ _ NW CN).
  rewrite (add_0_r (b:=b) H2 NoTwo) by exact CD.
  rewrite <- (A (point_add U V) (point_neg W)) by assumption.
  rewrite <- (A (point_add U V)) by assumption. rewrite (C _ D) by assumption. rewrite (A (point_add U V)) by assumption.
  rewrite E. rewrite (A (point_neg W)) by assumption.
  rewrite <- !(pt_neg_add (b:=b) H2 NoTwo) by (assumption || apply ON; assumption). apply point_add_neg_r.
Qed.
End Alg.
Lemma W_clear : clear2 (pt tW) = Infinity.
Proof.
  pose proof W_on as CW. pose proof V_on as CV. pose proof (psi_on _ CW) as CW1. pose proof (psi_on _ CV) as CV1.
  assert (CU : on_curve bq (pt tU)) by (rewrite <- U_eq; apply G2_ZON, CV).
  assert (CD : on_curve bq (pt tD)) by (rewrite <- D_eq; apply G2_ZON, CW).
  assert (CD2 : on_curve bq (pt tD2)) by (rewrite <- D2_eq, <- D1_eq; apply psi_on, psi_on, CD).
  pose proof (move_sum Fp2_two Fp2_NoTwo (pt tU) (pt tV) (pt tD2) (pt tW) (psi (pt tV)) (psi (pt tW)) CU CV CD2 CW CV1 CW1) as S.
  rewrite <- S; clear S.
  - unfold Proof_PsiLin.lin.
    apply f_equal2; [apply f_equal2|].
    + change cc_c with (BLS_X * BLS_X + BLS_X + Z.opp 1). rewrite !G2_ZADD by exact CW. rewrite (G2_ZMUL BLS_X BLS_X) by exact CW.
      rewrite V_eq, U_eq. rewrite (G2_ZOPP 1 (pt tW) CW), (G2_ONE (pt tW) CW). reflexivity.
    + change cc_d with (Z.opp BLS_X + Z.opp 1). rewrite G2_ZADD, (G2_ZOPP BLS_X _ CW1), (G2_ZOPP 1 _ CW1), (G2_ONE _ CW1) by exact CW1.
      rewrite <- (psi_zmul' BLS_X _ CW), V_eq. reflexivity.
    + apply f_equal2; [|reflexivity]. rewrite <- (psi_zmul' 2 _ CW1), <- (psi_zmul' 2 _ CW), D_eq, D1_eq, D2_eq. reflexivity.
  - rewrite V1_eq, W1_eq, L1_eq, L2_eq, R1_eq, R2_eq. reflexivity.
Qed.
Definition cofactor2 : Z :=
  let x := bls_x in (x ^ 8 - 4 * x ^ 7 + 5 * x ^ 6 - 4 * x ^ 4 + 6 * x ^ 3 - 4 * x ^ 2 - 4 * x + 13) / 9.
Lemma W_order : point_zmul (p448 * mW) (pt tW) = Infinity.
Proof.
  pose proof W_clear as E.
  assert (E1 := l_res cc_c cc_d (p448 * mW)
    (12007228665665002181046848867936927982292028161450445103053596003827081792164193811224656793684283310018122070622210)
    (793479390729215512621379701633421447064351885107134145329690734578274691009830868114776056922108)
    (-52435875175126190482912885334259618156695810841368030178953897121887278923783)
    (-10395434478220956957473752642826476225150157667320998199295) (pt tW) W_on E). clear E.
  apply E1; clear E1; vm_compute; reflexivity.
Qed.
Definition BW : point Fp2 := pt tM.
Lemma BW_on : on_curve bq BW. Proof. unfold BW. rewrite <- M_eq. apply G2_ZON, W_on. Qed.
Lemma BW_order : point_zmul p448 BW = Infinity.
Proof. unfold BW. rewrite <- M_eq, <- G2_ZMUL by exact W_on. exact W_order. Qed.
Lemma BW_clear : clear2 BW = Infinity.
Proof. unfold BW. rewrite <- M_eq, clear2_zmul, W_clear by exact W_on. apply G2_INF. Qed.

(** eigenvectors of psi *)
Lemma divides_zmul q n P : on_curve bq P -> point_zmul q P = Infinity -> n mod q = 0 -> 0 < q -> point_zmul n P = Infinity.
Proof.
  intros C O N Q. apply Z.mod_divide in N; [|lia]. destruct N as (c & ->). rewrite G2_ZMUL by exact C. rewrite O. apply G2_INF.
Qed.
Lemma eigen_clear q s P : on_curve bq P -> point_zmul q P = Infinity -> psi P = point_zmul s P -> 0 < q ->
  (cc_c + cc_d * s + 2 * (s * s) + 0 * (s * (s * s))) mod q = 0 -> clear2 P = Infinity.
Proof. intros C O E Q Z.  rewrite (l_eigen s _ _ _ _ P C E). apply (divides_zmul q); assumption. Qed.
Lemma A13a_on : on_curve bq (pt tA13a). Proof. apply on_ok. chk. Qed.
Lemma A13a_order : point_zmul 13 (pt tA13a) = Infinity. Proof. apply (order_check 13 _ chain_A13a A13a_on). chk. Qed.
Lemma A13a_eigen : psi (pt tA13a) = point_zmul 7 (pt tA13a).
Proof. rewrite (mul_ok _ chain_E13a _ tE13a A13a_on) by chk. apply psi_value. chk. Qed.
Lemma A13a_clear : clear2 (pt tA13a) = Infinity.
Proof. apply (eigen_clear 13 7); [exact A13a_on|exact A13a_order|exact A13a_eigen|reflexivity|chk]. Qed.
Lemma A13b_on : on_curve bq (pt tA13b). Proof. apply on_ok. chk. Qed.
Lemma A13b_order : point_zmul 13 (pt tA13b) = Infinity. Proof. apply (order_check 13 _ chain_A13b A13b_on). chk. Qed.
Lemma A13b_eigen : psi (pt tA13b) = point_zmul 11 (pt tA13b).
Proof. rewrite (mul_ok _ chain_E13b _ tE13b A13b_on) by chk. apply psi_value. chk. Qed.
Lemma A13b_clear : clear2 (pt tA13b) = Infinity.
Proof. apply (eigen_clear 13 11); [exact A13b_on|exact A13b_order|exact A13b_eigen|reflexivity|chk]. Qed.
Lemma A2713_on : on_curve bq (pt tA2713). Proof. apply on_ok. chk. Qed.
Lemma A2713_order : point_zmul 2713 (pt tA2713) = Infinity. Proof. apply (order_check 2713 _ chain_A2713 A2713_on). chk. Qed.
Lemma A2713_eigen : psi (pt tA2713) = point_zmul 2017 (pt tA2713).
Proof. rewrite (mul_ok _ chain_E2713 _ tE2713 A2713_on) by chk. apply psi_value. chk. Qed.
Lemma A2713_clear : clear2 (pt tA2713) = Infinity.
Proof. apply (eigen_clear 2713 2017); [exact A2713_on|exact A2713_order|exact A2713_eigen|reflexivity|chk]. Qed.
Lemma A11953_on : on_curve bq (pt tA11953). Proof. apply on_ok. chk. Qed.
Lemma A11953_order : point_zmul 11953 (pt tA11953) = Infinity. Proof. apply (order_check 11953 _ chain_A11953 A11953_on). chk. Qed.
Lemma A11953_eigen : psi (pt tA11953) = point_zmul 3605 (pt tA11953).
Proof. rewrite (mul_ok _ chain_E11953 _ tE11953 A11953_on) by chk. apply psi_value. chk. Qed.
Lemma A11953_clear : clear2 (pt tA11953) = Infinity.
Proof. apply (eigen_clear 11953 3605); [exact A11953_on|exact A11953_order|exact A11953_eigen|reflexivity|chk]. Qed.
Lemma A262069_on : on_curve bq (pt tA262069). Proof. apply on_ok. chk. Qed.
Lemma A262069_order : point_zmul 262069 (pt tA262069) = Infinity. Proof. apply (order_check 262069 _ chain_A262069 A262069_on). chk. Qed.
Lemma A262069_eigen : psi (pt tA262069) = point_zmul 88066 (pt tA262069).
Proof. rewrite (mul_ok _ chain_E262069 _ tE262069 A262069_on) by chk. apply psi_value. chk. Qed.
Lemma A262069_clear : clear2 (pt tA262069) = Infinity.
Proof. apply (eigen_clear 262069 88066); [exact A262069_on|exact A262069_order|exact A262069_eigen|reflexivity|chk]. Qed.
Lemma A23_on : on_curve bq (pt tA23). Proof. apply on_ok. chk. Qed.
Lemma A23_order : point_zmul 23 (pt tA23) = Infinity. Proof. apply (order_check 23 _ chain_A23 A23_on). chk. Qed.
Lemma B23_eq : psi (pt tA23) = pt tB23. Proof. apply psi_value. chk. Qed.
Lemma B23_on : on_curve bq (pt tB23). Proof. rewrite <- B23_eq. apply psi_on, A23_on. Qed.
Lemma B23_order : point_zmul 23 (pt tB23) = Infinity.
Proof. rewrite <- B23_eq, <- psi_zmul' by exact A23_on. rewrite A23_order. reflexivity. Qed.
Lemma C23_eq : psi (psi (pt tA23)) = point_add (point_zmul 22 (pt tA23)) (point_zmul 16 (psi (pt tA23))).
Proof.
  rewrite B23_eq. rewrite (mul_ok tA23 chain_a23 22 ta23 A23_on) by chk. rewrite (mul_ok tB23 chain_b23 16 tb23 B23_on) by chk.
  rewrite (add_ok ta23 tb23 add_c23 tC23) by chk. apply psi_value. chk.
Qed.
Lemma A23_clear : clear2 (pt tA23) = Infinity.
Proof.
  pose proof A23_on as C. pose proof (psi_on _ C) as C1.
  apply (clear_23 Fp2_two Fp2_NoTwo (pt tA23) (psi (pt tA23)) (psi (psi (pt tA23))) (psi (psi (psi (pt tA23)))) cc_c cc_d 22 16 C C1 C23_eq).
  - apply (divides_zmul 23 _ (pt tA23) C A23_order); chk.
  - apply (divides_zmul 23 _ (psi (pt tA23)) C1); [rewrite B23_eq; exact B23_order|chk|chk].
Qed.
Lemma B23_clear : clear2 (pt tB23) = Infinity.
Proof.
  rewrite <- B23_eq. pose proof (f_equal psi A23_clear) as E.
  transitivity (psi (lin cc_c cc_d 2 0 (pt tA23))); [symmetry; apply l_comm; exact A23_on|exact E].
Qed.

(** ** independence *)
Section Indep.
Context {K : fld} {b : K} (H2 : fadd f1 f1 <> (f0 : K)) (NoTwo : forall x : K, fadd (fmul (fmul x x) x) b <> f0).
Variable psi : point K -> point K.
Hypothesis psi_zmul : forall n P, on_curve b P -> psi (point_zmul n P) = point_zmul n (psi P).
Hypothesis psi_rel : forall P, on_curve b P -> psi (psi (psi (psi P))) = point_add (psi (psi P)) (point_neg P).
Lemma eigen_apart (q s t : Z) (A B : point K) : on_curve b A -> on_curve b B -> B <> Infinity -> prime q -> point_zmul q B = Infinity ->
  psi A = point_zmul s A -> psi B = point_zmul t B -> (t - s) mod q <> 0 -> forall k, B <> point_zmul k A.
Proof.
  intros CA CB NB PR OB EA EB D k E. apply D.
  apply (pt_zmul_prime_order (b:=b) H2 NoTwo q _ B CB PR OB); [|exact NB].
  rewrite (zmul_sub' (b:=b) H2 NoTwo) by exact CB. rewrite <- EB.
  replace (psi B) with (point_zmul s B); [apply point_add_neg_r|].
  rewrite E. rewrite psi_zmul by exact CA. rewrite EA. rewrite <- !(pt_zmul_mul (b:=b) H2 NoTwo) by exact CA. f_equal. ring.
Qed.
Lemma no_eigen (q : Z) (A : point K) : on_curve b A -> A <> Infinity -> prime q -> point_zmul q A = Infinity ->
  (forall k, (k ^ 4 - (k ^ 2 - 1)) mod q <> 0) -> forall k, psi A <> point_zmul k A.
Proof.
  intros CA NA PR OA N k E. apply (N k).
  apply (pt_zmul_prime_order (b:=b) H2 NoTwo q _ A CA PR OA); [|exact NA].
  pose proof (psi_rel A CA) as R.
  assert (Z2 : psi (psi A) = point_zmul (k ^ 2) A).
  { rewrite E, psi_zmul, E by exact CA. rewrite <- (pt_zmul_mul (b:=b) H2 NoTwo) by exact CA. f_equal. ring. }
  assert (Z4 : psi (psi (psi (psi A))) = point_zmul (k ^ 4) A).
  { rewrite Z2. rewrite psi_zmul by exact CA. rewrite E.
    rewrite psi_zmul by (apply (zmul_on_curve (b:=b) H2 NoTwo); exact CA). rewrite psi_zmul by exact CA. rewrite E.
    rewrite <- (pt_zmul_mul (b:=b) H2 NoTwo k k A CA), <- (pt_zmul_mul (b:=b) H2 NoTwo (k ^ 2) _ A CA). f_equal. ring. }
  rewrite Z4, Z2 in R. rewrite (zmul_sub' (b:=b) H2 NoTwo) by exact CA. rewrite R.
  rewrite (zmul_sub' (b:=b) H2 NoTwo), (pt_zmul_1 (b:=b)) by exact CA. apply point_add_neg_r.
Qed.
End Indep.
Lemma no_twelfth_23 k : (k ^ 4 - (k ^ 2 - 1)) mod 23 <> 0.
Proof.
  assert (S : forall l, 0 <= l < 23 -> ((l ^ 4 - (l ^ 2 - 1)) mod 23 =? 0) = false).
  { assert (F : forallb (fun i => negb ((Z.of_nat i ^ 4 - (Z.of_nat i ^ 2 - 1)) mod 23 =? 0)) (seq 0 23) = true) by (vm_compute; reflexivity).
    rewrite forallb_forall in F. intros l L. pose proof (F (Z.to_nat l)) as X. rewrite Z2Nat.id in X by lia.
    rewrite negb_true_iff in X. apply X. apply in_seq. lia. }
  pose proof (S (k mod 23) (Z.mod_pos_bound k 23 eq_refl)) as E. apply Z.eqb_neq in E. intros N. apply E. transitivity ((k ^ 4 - (k ^ 2 - 1)) mod 23); [|exact N].
  rewrite (Z.div_mod k 23) at 3 4 by lia. set (m := k mod 23). set (d := k / 23).
  replace ((23 * d + m) ^ 4 - ((23 * d + m) ^ 2 - 1)) with (m ^ 4 - (m ^ 2 - 1) + (23 ^ 3 * d ^ 4 + 4 * 23 ^ 2 * d ^ 3 * m + 6 * 23 * d ^ 2 * m ^ 2 + 4 * d * m ^ 3 - 23 * d ^ 2 - 2 * d * m) * 23) by ring.
  symmetry. apply Z.mod_add. lia.
Qed.
Lemma prime_13 : prime 13.
Proof. apply (small_prime 13 3); vm_compute; reflexivity. Qed.
Lemma prime_23 : prime 23.
Proof. apply (small_prime 23 4); vm_compute; reflexivity. Qed.
Lemma prime_2713 : prime 2713.
Proof. apply (small_prime 2713 52); vm_compute; reflexivity. Qed.
Lemma prime_11953 : prime 11953.
Proof. apply (small_prime 11953 109); vm_compute; reflexivity. Qed.
Lemma prime_262069 : prime 262069.
Proof. apply (small_prime 262069 511); vm_compute; reflexivity. Qed.
Lemma apart_13 k : pt tA13b <> point_zmul k (pt tA13a).
Proof.
  apply (eigen_apart Fp2_two Fp2_NoTwo psi psi_zmul' 13 7 11 _ _ A13a_on A13b_on (pt_finite _) prime_13 A13b_order A13a_eigen A13b_eigen).
  vm_compute. discriminate.
Qed.
Lemma apart_23 k : pt tB23 <> point_zmul k (pt tA23).
Proof.
  rewrite <- B23_eq. apply (no_eigen Fp2_two Fp2_NoTwo psi psi_zmul' psi_rel 23 _ A23_on (pt_finite _) prime_23 A23_order no_twelfth_23).
Qed.

(** ** a subgroup of h2 r points *)
Local Notation sub := (sub (K:=Fp2) (b:=bq)).
Lemma extend_one H n e q B : sub H n e -> (Z.gcd e q =? 1) = true -> prime q -> on_curve bq B ->
  point_zmul q B = Infinity -> B <> Infinity -> sub (plus H B) (n * q) (e * q).
Proof.
  intros S G PR C O N. apply Z.eqb_eq in G. apply Zgcd_1_rel_prime in G.
  apply (sub_extend Fp2_two Fp2_NoTwo _ _ e); [exact S|exact PR|exact C|exact O| |apply Z.divide_factor_l|apply Z.divide_factor_r].
  exact (outside Fp2_two Fp2_NoTwo _ _ _ _ _ S G C O N).
Qed.
Lemma extend_two H n e q B B' : sub H n e -> (Z.gcd e q =? 1) = true -> prime q -> on_curve bq B -> on_curve bq B' ->
  point_zmul q B = Infinity -> point_zmul q B' = Infinity -> B <> Infinity -> (forall k, B' <> point_zmul k B) ->
  sub (plus (plus H B) B') (n * q * q) (e * q).
Proof.
  intros S G PR C C' O O' N N'. pose proof (extend_one H n e q B S G PR C O N) as S1. apply Z.eqb_eq in G. apply Zgcd_1_rel_prime in G.
  apply (sub_extend Fp2_two Fp2_NoTwo _ _ (e * q)); [exact S1|exact PR|exact C'|exact O'| |apply Z.divide_refl|apply Z.divide_factor_r].
  exact (outside2 Fp2_two Fp2_NoTwo _ _ _ _ _ _ S G C C' O O' N').
Qed.
Definition small2 : point Fp2 -> Prop :=
  plus (plus (plus (plus (plus (plus (plus (plus (fun P => P = Infinity) (pt tA13a)) (pt tA13b)) (pt tA23)) (pt tB23))
    (pt tA2713)) (pt tA11953)) (pt tA262069)) BW.
Definition whole2 : point Fp2 -> Prop := plus small2 G2gen.
Definition exponent2 : Z := 1 * 13 * 23 * 2713 * 11953 * 262069 * p448.
Lemma small2_sub : sub small2 cofactor2 exponent2.
Proof.
  replace cofactor2 with (1 * 13 * 13 * 23 * 23 * 2713 * 11953 * 262069 * p448) by (vm_compute; reflexivity).
  unfold exponent2, small2.
  apply extend_one; [|vm_compute; reflexivity|exact p448_prime|exact BW_on|exact BW_order|exact (pt_finite _)].
  apply extend_one; [|vm_compute; reflexivity|exact prime_262069|exact A262069_on|exact A262069_order|exact (pt_finite _)].
  apply extend_one; [|vm_compute; reflexivity|exact prime_11953|exact A11953_on|exact A11953_order|exact (pt_finite _)].
  apply extend_one; [|vm_compute; reflexivity|exact prime_2713|exact A2713_on|exact A2713_order|exact (pt_finite _)].
  apply extend_two; [|vm_compute; reflexivity|exact prime_23|exact A23_on|exact B23_on|exact A23_order|exact B23_order|exact (pt_finite _)|exact apart_23].
  apply extend_two; [|vm_compute; reflexivity|exact prime_13|exact A13a_on|exact A13b_on|exact A13a_order|exact A13b_order|exact (pt_finite _)|exact apart_13].
  exact (sub_trivial (K:=Fp2) (b:=bq)).
Qed.
Lemma small2_prime_to_r : rel_prime exponent2 r.
Proof. apply Zgcd_1_rel_prime. vm_compute. reflexivity. Qed.
Lemma whole2_sub : sub whole2 (cofactor2 * r) (exponent2 * r).
Proof.
  apply (sub_extend Fp2_two Fp2_NoTwo _ _ exponent2); [exact small2_sub|exact r_prime|exact G2gen_on|exact gen2_order| |apply Z.divide_factor_l|apply Z.divide_factor_r].
  exact (outside Fp2_two Fp2_NoTwo _ _ _ _ _ small2_sub small2_prime_to_r G2gen_on gen2_order G2gen_finite).
Qed.

(** ** it has all the points of the curve *)
Definition code2 (x : Fp2) : Z := pval (q0 x) + p * pval (q1 x).
Lemma code2_range x : 0 <= code2 x < p * p.
Proof.
  unfold code2. pose proof (pval_range (q0 x)). pose proof (pval_range (q1 x)). generalize dependent (pval (q0 x)).
  generalize dependent (pval (q1 x)). generalize p. intros. nia.
Qed.
Lemma code2_inj x y : code2 x = code2 y -> x = y.
Proof.
  destruct x as [x0 x1], y as [y0 y1]. unfold code2. cbn [q0 q1].
  pose proof (pval_range x0) as X0. pose proof (pval_range y0) as Y0. intros E.
  assert (E1 : pval x1 = pval y1).
  { revert X0 Y0 E. generalize (pval x0) (pval y0) (pval x1) (pval y1) p. clear. intros. nia. }
  assert (E0 : pval x0 = pval y0) by (rewrite E1 in E; revert E; generalize (pval x0) (pval y0) (p * pval y1); clear; intros; lia).
  apply pval_inj in E0, E1. subst. reflexivity.
Qed.
Lemma point_count2 : p * p + 1 < cofactor2 * r.
Proof. vm_compute. reflexivity. Qed.
Theorem whole2_all P : on_curve bq P -> whole2 P.
Proof.
  intros C. destruct (sub_dec _ _ _ P whole2_sub) as [W|N]; [exact W|]. exfalso.
  destruct (two_cosets Fp2_two Fp2_NoTwo _ _ _ P whole2_sub C N) as (f & F & J).
  assert (B : 2 * (cofactor2 * r) <= 2 * (p * p) + 1).
  { apply (count_bound (b:=bq) code2 (p * p) code2_range code2_inj f); [vm_compute; discriminate|exact F|exact J]. }
  revert B. vm_compute. intros B. apply B. reflexivity.
Qed.

(** ** clearing the cofactor *)
Lemma small2_clear P : small2 P -> clear2 P = Infinity.
Proof.
  assert (KP : forall H n e B, sub H n e -> on_curve bq B -> (forall P, H P -> clear2 P = Infinity) -> clear2 B = Infinity ->
    forall P, plus H B P -> clear2 P = Infinity).
  { intros H n e B S. exact (kills_plus Fp2_two Fp2_NoTwo _ clear2_add clear2_zmul H B (sub_on _ _ _ S)). }
  revert P.
  assert (S0 : sub (fun P => P = Infinity) 1 1) by exact (sub_trivial (K:=Fp2) (b:=bq)).
  assert (K0 : forall P, (fun P : point Fp2 => P = Infinity) P -> clear2 P = Infinity) by (intros P ->; exact clear2_inf).
  assert (S1 := extend_one _ _ _ 13 _ S0 ltac:(vm_compute; reflexivity) prime_13 A13a_on A13a_order (pt_finite _)).
  assert (K1 := KP _ _ _ _ S0 A13a_on K0 A13a_clear).
  assert (S2 := extend_two _ _ _ 13 _ _ S0 ltac:(vm_compute; reflexivity) prime_13 A13a_on A13b_on A13a_order A13b_order (pt_finite _) apart_13).
  assert (K2 := KP _ _ _ _ S1 A13b_on K1 A13b_clear).
  assert (S3 := extend_one _ _ _ 23 _ S2 ltac:(vm_compute; reflexivity) prime_23 A23_on A23_order (pt_finite _)).
  assert (K3 := KP _ _ _ _ S2 A23_on K2 A23_clear).
  assert (S4 := extend_two _ _ _ 23 _ _ S2 ltac:(vm_compute; reflexivity) prime_23 A23_on B23_on A23_order B23_order (pt_finite _) apart_23).
  assert (K4 := KP _ _ _ _ S3 B23_on K3 B23_clear).
  assert (S5 := extend_one _ _ _ 2713 _ S4 ltac:(vm_compute; reflexivity) prime_2713 A2713_on A2713_order (pt_finite _)).
  assert (K5 := KP _ _ _ _ S4 A2713_on K4 A2713_clear).
  assert (S6 := extend_one _ _ _ 11953 _ S5 ltac:(vm_compute; reflexivity) prime_11953 A11953_on A11953_order (pt_finite _)).
  assert (K6 := KP _ _ _ _ S5 A11953_on K5 A11953_clear).
  assert (S7 := extend_one _ _ _ 262069 _ S6 ltac:(vm_compute; reflexivity) prime_262069 A262069_on A262069_order (pt_finite _)).
  assert (K7 := KP _ _ _ _ S6 A262069_on K6 A262069_clear).
  assert (S8 := extend_one _ _ _ p448 _ S7 ltac:(vm_compute; reflexivity) p448_prime BW_on BW_order (pt_finite _)).
  assert (K8 := KP _ _ _ _ S7 BW_on K7 BW_clear).
  exact K8.
Qed.
Theorem clear2_gen : clear2 G2gen = point_zmul (cc_c + cc_d * bls_x + 2 * (bls_x * bls_x) + 0 * (bls_x * (bls_x * bls_x))) G2gen.
Proof. exact (l_eigen bls_x _ _ _ _ G2gen G2gen_on psi_gen). Qed.
Theorem clear2_image P : on_curve bq P -> on_curve bq (clear2 P) /\ point_zmul r (clear2 P) = Infinity.
Proof.
  intros C. split; [apply clear2_on, C|].
  destruct (fibre_image Fp2_two Fp2_NoTwo clear2 clear2_add clear2_zmul small2 cofactor2 exponent2 _ G2gen small2_sub small2_clear
    G2gen_on clear2_gen whole2_all P C) as (k & E).
  rewrite E, <- G2_ZMUL by exact G2gen_on. rewrite Z.mul_comm, G2_ZMUL, gen2_order by exact G2gen_on. apply G2_INF.
Qed.
Theorem clear2_fibre Q : on_curve bq Q -> point_zmul r Q = Infinity ->
  exists g : Z -> point Fp2, (forall i, 0 <= i < cofactor2 -> on_curve bq (g i) /\ clear2 (g i) = Q) /\
    (forall i j, 0 <= i < cofactor2 -> 0 <= j < cofactor2 -> g i = g j -> i = j) /\
    (forall P, on_curve bq P -> clear2 P = Q -> exists i, 0 <= i < cofactor2 /\ g i = P).
Proof.
  apply (fibre_count Fp2_two Fp2_NoTwo clear2 clear2_add clear2_zmul small2 cofactor2 exponent2 r _ G2gen small2_sub
    small2_clear G2gen_on G2gen_finite r_prime gen2_order clear2_gen ltac:(vm_compute; discriminate) small2_prime_to_r whole2_all).
Qed.
