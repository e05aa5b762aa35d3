(** * Model_Curve: the point arithmetic of zkcrypto/src/curve/g1.rs and g2.rs

    The two files contain the same statements, g1.rs on [Fp] and g2.rs on [Fp2]; they differ in
    [mul_by_3b], the constant [B], the encodings and the scalar multiplication.  The common
    statements are transcribed once, over the operations of the coordinate type ([fops]);
    Model_G1.v and Model_G2.v instantiate them.  [Choice] is [bool], [CtOption] is [option];
    constant-time behaviour is not modelled. *)
From Coq Require Import ZArith List Bool.
From Verif Require Import Base.
Import ListNotations.

(** what the statements use of the coordinate type *)
Record fops := FOps {
  fo_car :> Type;
  fo_zero : fo_car; fo_one : fo_car;
  fo_add : fo_car -> fo_car -> fo_car; fo_sub : fo_car -> fo_car -> fo_car; fo_neg : fo_car -> fo_car;
  fo_mul : fo_car -> fo_car -> fo_car; fo_square : fo_car -> fo_car;
  fo_eq : fo_car -> fo_car -> bool; fo_is_zero : fo_car -> bool;
  fo_invert : fo_car -> option fo_car; fo_sqrt : fo_car -> option fo_car;
  fo_lexicographically_largest : fo_car -> bool;
  fo_mul_by_3b : fo_car -> fo_car;
  fo_B : fo_car }.
Arguments fo_zero {_}. Arguments fo_one {_}. Arguments fo_add {_}. Arguments fo_sub {_}.
Arguments fo_neg {_}. Arguments fo_mul {_}. Arguments fo_square {_}. Arguments fo_eq {_}.
Arguments fo_is_zero {_}. Arguments fo_invert {_}. Arguments fo_sqrt {_}.
Arguments fo_lexicographically_largest {_}. Arguments fo_mul_by_3b {_}. Arguments fo_B {_}.

(** g1.rs:225-229, g2.rs:211-215: x, y and the infinity flag *)
Inductive affine (F : fops) := Aff (x y : F) (infinity : bool).
Arguments Aff {F}.
(** g1.rs:622-626, g2.rs:683-687 *)
Inductive proj (F : fops) := Proj (x y z : F).
Arguments Proj {F}.

Section Code.
Context {F : fops}.

(** [conditional_select]: the second when the choice is true (g1.rs:283-289, 684-690, g2.rs:271-277, 739-745) *)
Definition select {A : Type} (a b : A) (c : bool) : A := if c then b else a.

(** g1.rs:384-390, 771-777; g2.rs:384-390, 823-829 *)
Definition aff_identity : affine F := Aff fo_zero fo_one true.
Definition proj_identity : proj F := Proj fo_zero fo_one fo_zero.
(** g1.rs:591-593, 1152-1154; g2.rs:652-654, 1157-1159 [is_identity] *)
Definition aff_is_identity (p : affine F) : bool := let '(Aff _ _ i) := p in i.
Definition proj_is_identity (p : proj F) : bool := let '(Proj _ _ z) := p in fo_is_zero z.

(** g1.rs:247-259, g2.rs:235-247: projective to affine *)
Definition aff_from_proj (p : proj F) : affine F :=
  let '(Proj px py pz) := p in
  let zinv := match fo_invert pz with Some t => t | None => fo_zero end in
  let x := fo_mul px zinv in
  let y := fo_mul py zinv in
  let tmp := Aff x y false in
  select tmp aff_identity (fo_is_zero zinv).

(** g1.rs:649-655, g2.rs:704-710: affine to projective *)
Definition proj_from_aff (p : affine F) : proj F :=
  let '(Aff x y i) := p in Proj x y (select fo_one fo_zero i).

(** g1.rs:269-279, g2.rs:257-267 [ct_eq], also [==] *)
Definition aff_eq (p q : affine F) : bool :=
  let '(Aff px py pi) := p in let '(Aff qx qy qi) := q in
  (pi && qi) || (negb pi && negb qi && fo_eq px qx && fo_eq py qy).

(** g1.rs:665-680, g2.rs:720-735 [ct_eq], also [==] *)
Definition proj_eq (p q : proj F) : bool :=
  let '(Proj px py pz) := p in let '(Proj qx qy qz) := q in
  let x1 := fo_mul px qz in
  let x2 := fo_mul qx pz in
  let y1 := fo_mul py qz in
  let y2 := fo_mul qy pz in
  let self_is_zero := fo_is_zero pz in
  let other_is_zero := fo_is_zero qz in
  (self_is_zero && other_is_zero) || (negb self_is_zero && negb other_is_zero && fo_eq x1 x2 && fo_eq y1 y2).

(** g1.rs:304-310, g2.rs:292-298 *)
Definition aff_neg (p : affine F) : affine F :=
  let '(Aff x y i) := p in Aff x (select (fo_neg y) fo_one i) i.
(** g1.rs:705-711, g2.rs:760-766 *)
Definition proj_neg (p : proj F) : proj F :=
  let '(Proj x y z) := p in Proj x (fo_neg y) z.

(** g1.rs:612-615, g2.rs:673-676 *)
Definition aff_is_on_curve (p : affine F) : bool :=
  let '(Aff x y i) := p in
  fo_eq (fo_sub (fo_square y) (fo_mul (fo_square x) x)) fo_B || i.
(** g1.rs:1158-1163, g2.rs:1163-1168 *)
Definition proj_is_on_curve (p : proj F) : bool :=
  let '(Proj x y z) := p in
  fo_eq (fo_mul (fo_square y) z) (fo_add (fo_mul (fo_square x) x) (fo_mul (fo_mul (fo_square z) z) fo_B))
  || fo_is_zero z.

(** g1.rs:804-833, g2.rs:876-905 *)
Definition proj_double (p : proj F) : proj F :=
  let '(Proj x y z) := p in
  let t0 := fo_square y in
  let z3 := fo_add t0 t0 in
  let z3 := fo_add z3 z3 in
  let z3 := fo_add z3 z3 in
  let t1 := fo_mul y z in
  let t2 := fo_square z in
  let t2 := fo_mul_by_3b t2 in
  let x3 := fo_mul t2 z3 in
  let y3 := fo_add t0 t2 in
  let z3 := fo_mul t1 z3 in
  let t1 := fo_add t2 t2 in
  let t2 := fo_add t1 t2 in
  let t0 := fo_sub t0 t2 in
  let y3 := fo_mul t0 y3 in
  let y3 := fo_add x3 y3 in
  let t1 := fo_mul x y in
  let x3 := fo_mul t0 t1 in
  let x3 := fo_add x3 x3 in
  let tmp := Proj x3 y3 z3 in
  select tmp proj_identity (proj_is_identity p).

(** g1.rs:836-878, g2.rs:908-950 *)
Definition proj_add (p q : proj F) : proj F :=
  let '(Proj px py pz) := p in let '(Proj qx qy qz) := q in
  let t0 := fo_mul px qx in
  let t1 := fo_mul py qy in
  let t2 := fo_mul pz qz in
  let t3 := fo_add px py in
  let t4 := fo_add qx qy in
  let t3 := fo_mul t3 t4 in
  let t4 := fo_add t0 t1 in
  let t3 := fo_sub t3 t4 in
  let t4 := fo_add py pz in
  let x3 := fo_add qy qz in
  let t4 := fo_mul t4 x3 in
  let x3 := fo_add t1 t2 in
  let t4 := fo_sub t4 x3 in
  let x3 := fo_add px pz in
  let y3 := fo_add qx qz in
  let x3 := fo_mul x3 y3 in
  let y3 := fo_add t0 t2 in
  let y3 := fo_sub x3 y3 in
  let x3 := fo_add t0 t0 in
  let t0 := fo_add x3 t0 in
  let t2 := fo_mul_by_3b t2 in
  let z3 := fo_add t1 t2 in
  let t1 := fo_sub t1 t2 in
  let y3 := fo_mul_by_3b y3 in
  let x3 := fo_mul t4 y3 in
  let t2 := fo_mul t3 t1 in
  let x3 := fo_sub t2 x3 in
  let y3 := fo_mul y3 t0 in
  let t1 := fo_mul t1 z3 in
  let y3 := fo_add t1 y3 in
  let t0 := fo_mul t0 t3 in
  let z3 := fo_mul z3 t4 in
  let z3 := fo_add z3 t0 in
  Proj x3 y3 z3.

(** g1.rs:882-919, g2.rs:954-991 *)
Definition proj_add_mixed (p : proj F) (q : affine F) : proj F :=
  let '(Proj px py pz) := p in let '(Aff qx qy _) := q in
  let t0 := fo_mul px qx in
  let t1 := fo_mul py qy in
  let t3 := fo_add qx qy in
  let t4 := fo_add px py in
  let t3 := fo_mul t3 t4 in
  let t4 := fo_add t0 t1 in
  let t3 := fo_sub t3 t4 in
  let t4 := fo_mul qy pz in
  let t4 := fo_add t4 py in
  let y3 := fo_mul qx pz in
  let y3 := fo_add y3 px in
  let x3 := fo_add t0 t0 in
  let t0 := fo_add x3 t0 in
  let t2 := fo_mul_by_3b pz in
  let z3 := fo_add t1 t2 in
  let t1 := fo_sub t1 t2 in
  let y3 := fo_mul_by_3b y3 in
  let x3 := fo_mul t4 y3 in
  let t2 := fo_mul t3 t1 in
  let x3 := fo_sub t2 x3 in
  let y3 := fo_mul y3 t0 in
  let t1 := fo_mul t1 z3 in
  let y3 := fo_add t1 y3 in
  let t0 := fo_mul t0 t3 in
  let z3 := fo_mul z3 t4 in
  let z3 := fo_add z3 t0 in
  let tmp := Proj x3 y3 z3 in
  select tmp p (aff_is_identity q).

(** g1.rs:344-355, 736-738 and g2.rs:332-343, 791-793: the [Sub] implementations *)
Definition proj_sub (p q : proj F) : proj F := proj_add p (proj_neg q).
Definition proj_sub_mixed (p : proj F) (q : affine F) : proj F := proj_add_mixed p (aff_neg q).

(** g1.rs:362-367, g2.rs:350-355 [sum] *)
Definition proj_sum (l : list (proj F)) : proj F := fold_left proj_add l proj_identity.

(** g1.rs:1115-1148, g2.rs:1120-1153 [batch_normalize].  The first loop stores the running
    products in the x fields of [q]; the second runs backwards. *)
Definition batch_forward (st : list F * F) (p : proj F) : list F * F :=
  let '(q, acc) := st in let '(Proj _ _ z) := p in
  (q ++ [acc], select (fo_mul acc z) acc (proj_is_identity p)).
Definition batch_backward (st : list (affine F) * F) (pq : proj F * F) : list (affine F) * F :=
  let '(out, acc) := st in let '(p, qx) := pq in let '(Proj x y z) := p in
  let skip := proj_is_identity p in
  let tmp := fo_mul qx acc in
  let acc := select (fo_mul acc z) acc skip in
  (select (Aff (fo_mul x tmp) (fo_mul y tmp) false) aff_identity skip :: out, acc).
(** [n] is the length of the output slice *)
Definition batch_normalize (p : list (proj F)) (n : nat) : res (list (affine F)) :=
  let* _ := assert (length p =? n) in
  let '(q, acc) := fold_left batch_forward p ([], fo_one) in
  match fo_invert acc with
  | None => Panic
  | Some acc => Ok (fst (fold_left batch_backward (rev (combine p q)) ([], acc)))
  end.

(** [BLS_X] (g1.rs:20-22, g2.rs:6-8); [BLS_X_IS_NEGATIVE] is true *)
Definition BLS_X : Z := 0xd201000000010000.
(** g1.rs:1085-1103, g2.rs:1083-1100 [mul_by_x]; at most 64 rounds *)
Fixpoint mul_by_x_loop (fuel : nat) (x : Z) (tmp xself : proj F) : proj F :=
  match fuel with
  | O => xself
  | S fuel' =>
    if Z.eqb x 0 then xself
    else
      let tmp := proj_double tmp in
      let xself := if Z.eqb (Z.modulo x 2) 1 then proj_add xself tmp else xself in
      mul_by_x_loop fuel' (Z.div x 2) tmp xself
  end.
Definition proj_mul_by_x (p : proj F) : proj F :=
  proj_neg (mul_by_x_loop 64 (Z.div BLS_X 2) p proj_identity).

(** g2.rs:993-1013 [multiply]: double and add from the most significant bit, skipping the first;
    g1.rs has its own *)
Definition bits_msb (by_ : list Z) : list bool :=
  flat_map (fun byte => map (fun i => Z.testbit byte (Z.of_nat i)) (rev (seq 0 8))) (rev by_).
Definition proj_multiply_bits (p : proj F) (by_ : list Z) : proj F :=
  fold_left (fun acc (bit : bool) =>
      let acc := proj_double acc in select acc (proj_add acc p) bit)
    (skipn 1 (bits_msb by_)) proj_identity.
End Code.
