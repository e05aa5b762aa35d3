(** * Proof_G1Mod: the subgroup is a module over the scalar field, as the abstract KZG model requires *)
From Coq Require Import ZArith List Bool Lia Eqdep_dec.
From Verif Require Import Base Fld Zr.
From Verif Require Import Spec_Curve Proof_Curve Proof_CurveMul.
Local Open Scope Z_scope.

(** for any curve without points of order two: the points killed by r *)
Section Mod.
Context {K : fld} {b : K}.
Hypothesis H2 : (fadd f1 f1 : K) <> f0.
Hypothesis NoTwo : forall x : K, fadd (fmul (fmul x x) x) b <> f0.
Definition onb (P : point K) : bool :=
  match P with Infinity => true | Affine x y => feqb (fmul y y) (fadd (fmul (fmul x x) x) b) end.
Definition infb (P : point K) : bool := match P with Infinity => true | _ => false end.
Definition memb (P : point K) : bool := onb P && infb (point_zmul r P).
Lemma onb_ok P : onb P = true <-> on_curve b P.
Proof. destruct P as [|x y]; cbn [onb on_curve]; [split; auto|apply feqb_spec]. Qed.
Lemma infb_ok P : infb P = true <-> P = Infinity.
Proof. destruct P; cbn [infb]; split; congruence. Qed.
Lemma memb_ok P : memb P = true <-> on_curve b P /\ point_zmul r P = Infinity.
Proof. unfold memb. rewrite andb_true_iff, onb_ok, infb_ok. reflexivity. Qed.
Definition sub_car : Type := { P : point K | memb P = true }.
Lemma sub_eq (a c : sub_car) : proj1_sig a = proj1_sig c -> a = c.
Proof.
  destruct a as [P p], c as [Q q]. cbn [proj1_sig]. intros ->. f_equal. apply UIP_dec. decide equality.
Qed.
Let ZADD := pt_zmul_add (b:=b) H2 NoTwo.
Let ZADDR := pt_zmul_add_r (b:=b) H2 NoTwo.
Let ZMUL := pt_zmul_mul (b:=b) H2 NoTwo.
Let ZMOD := pt_zmul_mod (b:=b) H2 NoTwo.
Let ZON := zmul_on_curve (b:=b) H2 NoTwo.
Let ONE := pt_zmul_1 (b:=b).
Let INF := pt_zmul_inf (b:=b) H2 NoTwo.
Let A := point_add_assoc b H2 NoTwo.
Let C := point_add_comm b H2 NoTwo.
Let ON := point_add_on_curve b H2 NoTwo.
Let NON := point_neg_on_curve b.
Lemma mem_add P Q : memb P = true -> memb Q = true -> memb (point_add P Q) = true.
Proof.
  rewrite !memb_ok. intros [CP OP] [CQ OQ]. split; [apply ON; assumption|]. rewrite ZADDR, OP, OQ by assumption. reflexivity.
Qed.
Lemma mem_neg P : memb P = true -> memb (point_neg P) = true.
Proof.
  rewrite !memb_ok. intros [CP OP]. split; [apply NON; assumption|]. rewrite (pt_zmul_neg_r (b:=b) H2 NoTwo) by exact CP. rewrite OP. reflexivity.
Qed.
Lemma mem_zmul n P : memb P = true -> memb (point_zmul n P) = true.
Proof.
  rewrite !memb_ok. intros [CP OP]. split; [apply ZON; assumption|]. rewrite <- ZMUL by exact CP. rewrite Z.mul_comm.
  rewrite ZMUL by exact CP. rewrite OP. apply INF.
Qed.
Definition peqb (P Q : point K) : bool :=
  match P, Q with Infinity, Infinity => true | Affine x y, Affine x' y' => feqb x x' && feqb y y' | _, _ => false end.
Lemma peqb_ok P Q : peqb P Q = true <-> P = Q.
Proof.
  destruct P as [|x y], Q as [|x' y']; cbn [peqb]; try (split; congruence).
  rewrite andb_true_iff, !feqb_spec. split; [intros [-> ->]; reflexivity|intros E; injection E; auto].
Qed.
Lemma mem_zero : memb Infinity = true.
Proof. apply memb_ok. split; [exact I|apply INF]. Qed.
Definition sub_zero : sub_car := exist _ Infinity mem_zero.
Definition sub_add (a c : sub_car) : sub_car := exist _ _ (mem_add _ _ (proj2_sig a) (proj2_sig c)).
Definition sub_neg (a : sub_car) : sub_car := exist _ _ (mem_neg _ (proj2_sig a)).
Definition sub_smul (x : Fr) (a : sub_car) : sub_car := exist _ _ (mem_zmul (val x) _ (proj2_sig a)).
Definition sub_eqb (a c : sub_car) : bool := peqb (proj1_sig a) (proj1_sig c).
Lemma car_on (a : sub_car) : on_curve b (proj1_sig a). Proof. exact (proj1 (proj1 (memb_ok _) (proj2_sig a))). Qed.
Lemma car_r (a : sub_car) : point_zmul r (proj1_sig a) = Infinity. Proof. exact (proj2 (proj1 (memb_ok _) (proj2_sig a))). Qed.
Lemma val_mod (n : Z) (a : sub_car) : point_zmul (n mod r) (proj1_sig a) = point_zmul n (proj1_sig a).
Proof. apply ZMOD; [apply car_on|discriminate|apply car_r]. Qed.
Lemma sub_assoc a c d : sub_add a (sub_add c d) = sub_add (sub_add a c) d.
Proof. apply sub_eq. cbn [proj1_sig sub_add]. apply A; apply car_on. Qed.
Lemma sub_comm a c : sub_add a c = sub_add c a.
Proof. apply sub_eq. cbn [proj1_sig sub_add]. apply C; apply car_on. Qed.
Lemma sub_0_l a : sub_add sub_zero a = a.
Proof. apply sub_eq. cbn [proj1_sig sub_add sub_zero]. apply point_add_0_l. Qed.
Lemma sub_neg_r a : sub_add a (sub_neg a) = sub_zero.
Proof. apply sub_eq. cbn [proj1_sig sub_add sub_neg sub_zero]. apply point_add_neg_r. Qed.
Lemma val_one : val (f1 : Fr) = 1. Proof. reflexivity. Qed.
Lemma sub_one a : sub_smul (f1 : Fr) a = a.
Proof. apply sub_eq. cbn [proj1_sig sub_smul]. rewrite val_one. apply ONE. apply car_on. Qed.
Lemma sub_smul_smul x y a : sub_smul x (sub_smul y a) = sub_smul (fmul x y) a.
Proof.
  apply sub_eq. cbn [proj1_sig sub_smul]. rewrite <- ZMUL by apply car_on. change (fmul x y : Fr) with (Fr_mul x y). unfold Fr_mul.
  rewrite val_to_Fr, val_mod. reflexivity.
Qed.
Lemma sub_add_l x y a : sub_smul (fadd x y) a = sub_add (sub_smul x a) (sub_smul y a).
Proof.
  apply sub_eq. cbn [proj1_sig sub_smul sub_add]. change (fadd x y : Fr) with (Fr_add x y). unfold Fr_add.
  rewrite val_to_Fr, val_mod. apply ZADD, car_on.
Qed.
Lemma sub_add_r x a c : sub_smul x (sub_add a c) = sub_add (sub_smul x a) (sub_smul x c).
Proof. apply sub_eq. cbn [proj1_sig sub_smul sub_add]. apply ZADDR; apply car_on. Qed.
Lemma sub_eqb_ok a c : sub_eqb a c = true <-> a = c.
Proof. unfold sub_eqb. rewrite peqb_ok. split; [apply sub_eq|intros ->; reflexivity]. Qed.
Definition sub_mod : gmod Fr :=
  mkMod Fr sub_car sub_zero sub_add sub_neg sub_smul sub_eqb
    sub_assoc sub_comm sub_0_l sub_neg_r sub_one sub_smul_smul sub_add_l sub_add_r sub_eqb_ok.
Theorem module_exists : exists (M : gmod Fr) (pt : M -> point K),
  (forall a, on_curve b (pt a) /\ point_zmul r (pt a) = Infinity) /\
  (forall P, on_curve b P -> point_zmul r P = Infinity -> exists a, pt a = P) /\
  (forall a c, pt a = pt c -> a = c) /\
  pt g0 = Infinity /\ (forall a c, pt (gadd a c) = point_add (pt a) (pt c)) /\ (forall a, pt (gneg a) = point_neg (pt a)) /\
  (forall x a, pt (smul x a) = point_zmul (val x) (pt a)).
Proof.
  exists sub_mod, (@proj1_sig _ _).
  split; [intros a; split; [apply car_on|apply car_r]|].
  split; [intros P X Y; exists (exist _ P (proj2 (memb_ok P) (conj X Y))); reflexivity|].
  split; [exact sub_eq|]. split; [reflexivity|]. split; [reflexivity|]. split; reflexivity.
Qed.
End Mod.
