(** * Proof_Cofactor: the number of points of the curve of the first group, and what the
    multiplication by the cofactor does

    A subgroup of h r points is built from points of the prime orders r, 3, 11, 10177, 859267 and
    52437899.  The curve cannot have a point outside it: there would be 2 h r points, but there are at
    most 2 p + 1. *)
From Coq Require Import ZArith List Bool Lia Znumtheory.
From Verif Require Import Base Fld Fermat Zr Zp Spec_Curve Model_Curve Spec_CurveCode
  Proof_FpRep Proof_Curve Proof_CurveMul Proof_Endo Model_G1 Proof_G1Base Proof_GLV Proof_G1Mul Proof_Chain Cert_Cofactor Proof_G1Gen Proof_G1Sub
  Proof_Subgroups.
Import ListNotations.
Local Open Scope Z_scope.

Lemma prime_3 : prime 3.
Proof. apply (small_prime 3 1); vm_compute; reflexivity. Qed.
Lemma prime_11 : prime 11.
Proof. apply (small_prime 11 3); vm_compute; reflexivity. Qed.
Lemma prime_10177 : prime 10177.
Proof. apply (small_prime 10177 100); vm_compute; reflexivity. Qed.
Lemma prime_859267 : prime 859267.
Proof. apply (small_prime 859267 926); vm_compute; reflexivity. Qed.
Lemma prime_52437899 : prime 52437899.
Proof. apply (small_prime 52437899 7241); vm_compute; reflexivity. Qed.

(** ** points of prime order *)
Lemma order_by_chain q x y l : on_curve b4 (apt x y) -> run x y l (x, y, 1) = Some (x, p - y, q - 1) ->
  point_zmul q (apt x y) = Infinity.
Proof.
  intros C R. pose proof (chain_ok x y C _ _ _ _ R) as E. replace q with (q - 1 + 1) by ring.
  rewrite G1_ZADD, G1_ONE by exact C. rewrite E.
  replace (apt x (p - y)) with (point_neg (apt x y)).
  - rewrite C_ by (exact C || apply NON_, C). apply point_add_neg_r.
  - unfold apt. cbn [point_neg]. f_equal. replace (p - y) with (- y + 1 * p) by ring. rewrite fp_of_plus_p, fp_of_neg. reflexivity.
Qed.
Lemma phi_x q x y n : on_curve b4 (apt x y) -> prime q -> point_zmul q (apt x y) = Infinity ->
  phi (apt x y) = point_zmul n (apt x y) -> (q | n * n + n + 1).
Proof.
  intros C PR O E. apply Z.mod_divide; [pose proof (prime_ge_2 _ PR); lia|].
  apply (pt_zmul_prime_order (b:=b4) Fp_two Fp_NoTwo q _ (apt x y)); [exact C|exact PR|exact O| |discriminate].
  apply (eigen_order (b:=b4) Fp_two Fp_three Fp_NoTwo beta beta_root); [exact C|exact E].
Qed.
Definition betaZ : Z := 0x1a0111ea397fe699ec02408663d4de85aa0d857d89759ad4897d29650fb85f9b409427eb4f49fffd8bfd00000000aaac.
Lemma phi_apt x y : phi (apt x y) = apt (betaZ * x) y.
Proof. unfold apt, endo, beta. rewrite <- fp_of_mul. reflexivity. Qed.
Lemma mod_eq_zmul q m n P : 0 < q -> on_curve b4 P -> point_zmul q P = Infinity -> (q | m - n) -> point_zmul m P = point_zmul n P.
Proof.
  intros Q C O (c & E). replace m with (n + c * q) by lia. rewrite G1_ZADD, G1_ZMUL by exact C. rewrite O.
  rewrite (pt_zmul_inf (b:=b4) Fp_two Fp_NoTwo). rewrite C_ by (apply G1_ZON, C || exact I). apply point_add_0_l.
Qed.
Lemma independent_1 q x y l ch u v : on_curve b4 (apt x y) -> prime q -> point_zmul q (apt x y) = Infinity ->
  (l * l + l + 1) mod q = 0 -> run x y ch (x, y, 1) = Some (u, v, l) ->
  ((betaZ * x) mod p =? u mod p) = false -> ((betaZ * (betaZ * x)) mod p =? u mod p) = false ->
  forall n, phi (apt x y) <> point_zmul n (apt x y).
Proof.
  intros C PR O L R N1 N2 n E. pose proof (prime_ge_2 _ PR) as Q2.
  pose proof (phi_x q x y n C PR O E) as D. apply Z.mod_divide in L; [|lia].
  pose proof (chain_ok x y C _ _ _ _ R) as EL.
  destruct (cube_root_pair q l n PR L D) as [D'|D'].
  - rewrite (mod_eq_zmul q n l) in E by (lia || assumption). rewrite EL, phi_apt in E.
    apply (apt_neq (betaZ * x) y u v); [rewrite N1; reflexivity|exact E].
  - rewrite (mod_eq_zmul q n (-1 - l)) in E by (lia || assumption).
    pose proof (endo_line (b:=b4) Fp_two Fp_NoTwo beta beta_root Fp_three _ C) as LN.
    rewrite E in LN. apply (f_equal point_neg) in LN. rewrite pt_neg_neg in LN.
    rewrite <- (G1_ONE _ C) in LN at 1. rewrite <- G1_ZADD in LN by exact C. rewrite <- G1_ZOPP in LN by exact C.
    replace (- (1 + (-1 - l))) with l in LN by ring. rewrite EL in LN. rewrite <- E in LN. rewrite !phi_apt in LN.
    apply (apt_neq (betaZ * (betaZ * x)) y u v); [rewrite N2; reflexivity|symmetry; exact LN].
Qed.
Lemma independent_2 q x y : on_curve b4 (apt x y) -> prime q -> point_zmul q (apt x y) = Infinity -> q mod 3 = 2 -> 3 < q ->
  forall n, phi (apt x y) <> point_zmul n (apt x y).
Proof. intros C PR O M BIG n E. exact (no_cube_root q n PR M BIG (phi_x q x y n C PR O E)). Qed.

Local Notation sub := (sub (K:=Fp) (b:=b4)).
Lemma extend_pair H n e q x y : sub H n e -> (Z.gcd e q =? 1) = true -> prime q -> on_curve b4 (apt x y) ->
  point_zmul q (apt x y) = Infinity -> (forall k, phi (apt x y) <> point_zmul k (apt x y)) ->
  sub (plus (plus H (apt x y)) (phi (apt x y))) (n * q * q) (e * q).
Proof.
  intros S G PR C O N. apply Z.eqb_eq in G. apply Zgcd_1_rel_prime in G.
  pose proof (endo_on_curve beta beta_root _ C) as CP.
  assert (OP : point_zmul q (phi (apt x y)) = Infinity) by (rewrite endo_zmul by exact beta_root; rewrite O; reflexivity).
  apply (sub_extend Fp_two Fp_NoTwo _ _ (e * q)); [|exact PR|exact CP|exact OP| |apply Z.divide_refl|apply Z.divide_factor_r].
  - apply (sub_extend Fp_two Fp_NoTwo _ _ e); [exact S|exact PR|exact C|exact O| |apply Z.divide_factor_l|apply Z.divide_factor_r].
    eapply (outside Fp_two Fp_NoTwo); [exact S|exact G|exact C|exact O|discriminate].
  - eapply (outside2 Fp_two Fp_NoTwo); [exact S|exact G|exact C|exact CP|exact O|exact OP|exact N].
Qed.

Lemma on11 : on_curve b4 (apt x11 y11). Proof. apply apt_on. vm_compute. reflexivity. Qed.
Lemma on10177 : on_curve b4 (apt x10177 y10177). Proof. apply apt_on. vm_compute. reflexivity. Qed.
Lemma on859267 : on_curve b4 (apt x859267 y859267). Proof. apply apt_on. vm_compute. reflexivity. Qed.
Lemma on52437899 : on_curve b4 (apt x52437899 y52437899). Proof. apply apt_on. vm_compute. reflexivity. Qed.
Lemma order11 : point_zmul 11 (apt x11 y11) = Infinity.
Proof. apply (order_by_chain 11 _ _ chain11 on11). vm_compute. reflexivity. Qed.
Lemma order10177 : point_zmul 10177 (apt x10177 y10177) = Infinity.
Proof. apply (order_by_chain 10177 _ _ chain10177 on10177). vm_compute. reflexivity. Qed.
Lemma order859267 : point_zmul 859267 (apt x859267 y859267) = Infinity.
Proof. apply (order_by_chain 859267 _ _ chain859267 on859267). vm_compute. reflexivity. Qed.
Lemma order52437899 : point_zmul 52437899 (apt x52437899 y52437899) = Infinity.
Proof. apply (order_by_chain 52437899 _ _ chain52437899 on52437899). vm_compute. reflexivity. Qed.
Lemma run10177 : run x10177 y10177 lchain10177 (x10177, y10177, 1) = Some (u10177, v10177, l10177).
Proof. vm_compute. reflexivity. Qed.
Lemma run859267 : run x859267 y859267 lchain859267 (x859267, y859267, 1) = Some (u859267, v859267, l859267).
Proof. vm_compute. reflexivity. Qed.
Lemma on3 : on_curve b4 (apt 0 2). Proof. apply apt_on. vm_compute. reflexivity. Qed.
Lemma order3 : point_zmul 3 (apt 0 2) = Infinity.
Proof.
  apply (order_by_chain 3 0 2 [Dbl 0 0 0 1] on3). vm_compute. reflexivity.
Qed.

(** ** a subgroup of h r points *)
Definition cofactor : Z := (1 + BLS_X) * (1 + BLS_X) / 3.
Definition small : point Fp -> Prop :=
  plus (plus (plus (plus (plus (plus (plus (plus (plus (fun P => P = Infinity) (apt 0 2))
    (apt x11 y11)) (phi (apt x11 y11))) (apt x10177 y10177)) (phi (apt x10177 y10177)))
    (apt x859267 y859267)) (phi (apt x859267 y859267))) (apt x52437899 y52437899)) (phi (apt x52437899 y52437899)).
Definition whole : point Fp -> Prop := plus small G1gen.
Lemma small_sub : sub small cofactor (1 + BLS_X).
Proof.
  replace cofactor with (1 * 3 * 11 * 11 * 10177 * 10177 * 859267 * 859267 * 52437899 * 52437899) by (vm_compute; reflexivity).
  replace (1 + BLS_X) with (1 * 3 * 11 * 10177 * 859267 * 52437899) by (vm_compute; reflexivity).
  unfold small.
  apply extend_pair; [|vm_compute; reflexivity|exact prime_52437899|exact on52437899|exact order52437899|
    exact (independent_2 _ _ _ on52437899 prime_52437899 order52437899 ltac:(reflexivity) ltac:(reflexivity))].
  apply extend_pair; [|vm_compute; reflexivity|exact prime_859267|exact on859267|exact order859267|
    apply (independent_1 _ _ _ l859267 lchain859267 u859267 v859267 on859267 prime_859267 order859267); [vm_compute; reflexivity|exact run859267|vm_compute; reflexivity..]].
  apply extend_pair; [|vm_compute; reflexivity|exact prime_10177|exact on10177|exact order10177|
    apply (independent_1 _ _ _ l10177 lchain10177 u10177 v10177 on10177 prime_10177 order10177); [vm_compute; reflexivity|exact run10177|vm_compute; reflexivity..]].
  apply extend_pair; [|vm_compute; reflexivity|exact prime_11|exact on11|exact order11|
    exact (independent_2 _ _ _ on11 prime_11 order11 ltac:(reflexivity) ltac:(reflexivity))].
  apply (sub_extend Fp_two Fp_NoTwo _ _ 1); [apply sub_trivial|exact prime_3|exact on3|exact order3|discriminate|apply Z.divide_factor_l|apply Z.divide_factor_r].
Qed.
Lemma small_prime_to_r : rel_prime (1 + BLS_X) r.
Proof. apply Zgcd_1_rel_prime. vm_compute. reflexivity. Qed.
Lemma whole_sub : sub whole (cofactor * r) ((1 + BLS_X) * r).
Proof.
  apply (sub_extend Fp_two Fp_NoTwo _ _ (1 + BLS_X)); [exact small_sub|exact r_prime|exact G1gen_on|exact gen_order| |apply Z.divide_factor_l|apply Z.divide_factor_r].
  eapply (outside Fp_two Fp_NoTwo); [exact small_sub|exact small_prime_to_r|exact G1gen_on|exact gen_order|discriminate].
Qed.

(** ** it has all the points of the curve *)
Lemma point_count : cofactor * r = p + BLS_X.
Proof. vm_compute. reflexivity. Qed.
Theorem whole_all P : on_curve b4 P -> whole P.
Proof.
  intros C. destruct (sub_dec _ _ _ P whole_sub) as [W|N]; [exact W|]. exfalso.
  destruct (two_cosets Fp_two Fp_NoTwo _ _ _ P whole_sub C N) as (f & F & J).
  assert (B : 2 * (cofactor * r) <= 2 * p + 1).
  { apply (points_bound f); [vm_compute; discriminate|exact F|exact J]. }
  revert B. rewrite point_count. vm_compute. intros B. apply B. reflexivity.
Qed.
Theorem kills_all P : on_curve b4 P -> point_zmul ((1 + BLS_X) * r) P = Infinity.
Proof. intros C. exact (sub_kill _ _ _ whole_sub _ (whole_all P C)). Qed.

(** ** the multiplication by 1 + |x| *)
Notation clear1 := (point_zmul (K:=Fp) (1 + BLS_X)).
Lemma clear1_add P Q : on_curve b4 P -> on_curve b4 Q -> clear1 (point_add P Q) = point_add (clear1 P) (clear1 Q).
Proof. apply (pt_zmul_add_r (b:=b4) Fp_two Fp_NoTwo). Qed.
Lemma clear1_zmul n P : on_curve b4 P -> clear1 (point_zmul n P) = point_zmul n (clear1 P).
Proof. intros C. rewrite <- !G1_ZMUL by exact C. rewrite Z.mul_comm. reflexivity. Qed.
Theorem clear1_image P : on_curve b4 P -> on_curve b4 (clear1 P) /\ point_zmul r (clear1 P) = Infinity.
Proof.
  intros C. split; [apply G1_ZON, C|]. rewrite <- G1_ZMUL by exact C. rewrite Z.mul_comm. apply kills_all, C.
Qed.
Theorem clear1_fibre Q : on_curve b4 Q -> point_zmul r Q = Infinity ->
  exists g : Z -> point Fp, (forall i, 0 <= i < cofactor -> on_curve b4 (g i) /\ clear1 (g i) = Q) /\
    (forall i j, 0 <= i < cofactor -> 0 <= j < cofactor -> g i = g j -> i = j) /\
    (forall P, on_curve b4 P -> clear1 P = Q -> exists i, 0 <= i < cofactor /\ g i = P).
Proof.
  apply (fibre_count Fp_two Fp_NoTwo clear1 clear1_add clear1_zmul small cofactor (1 + BLS_X) r (1 + BLS_X) G1gen small_sub
    (sub_kill _ _ _ small_sub) G1gen_on ltac:(discriminate) r_prime gen_order eq_refl ltac:(vm_compute; discriminate) small_prime_to_r whole_all).
Qed.
