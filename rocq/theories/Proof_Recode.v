(** * Proof_Recode: the signed digits of the regular recoding *)
From Coq Require Import ZArith List Bool Lia.
From Verif Require Import Base Spec_Scalar Model_Scalar Proof_Scalar Proof_Scalar2 Model_Fp Model_Curve Model_G1.
Import ListNotations.
Local Open Scope Z_scope.

Definition range (a : Z) (n : nat) : list Z := map (fun i => a + Z.of_nat i) (seq 0 n).
Lemma in_range a n x : a <= x < a + Z.of_nat n -> In x (range a n).
Proof.
  intros H. apply in_map_iff. exists (Z.to_nat (x - a)). split; [lia|]. apply in_seq. lia.
Qed.
Lemma check_range (f : Z -> bool) a n : forallb f (range a n) = true -> forall x, a <= x < a + Z.of_nat n -> f x = true.
Proof. intros H x Hx. rewrite forallb_forall in H. apply H. now apply in_range. Qed.

(** ** shifting right by four bits *)
Lemma nibbles_lor x z : 0 <= x < 16 -> 0 <= z < 16 -> Z.lor x (16 * z) = x + 16 * z.
Proof.
  intros X Z. assert (H : forallb (fun x => forallb (fun z => Z.lor x (16 * z) =? x + 16 * z) (range 0 16)) (range 0 16) = true)
    by (vm_compute; reflexivity).
  pose proof (check_range _ _ _ H x X) as G. cbv beta in G. pose proof (check_range _ _ _ G z Z) as F. now apply Z.eqb_eq.
Qed.
Lemma bytes_val_nonneg bs : Forall (fun b => 0 <= b < 256) bs -> 0 <= bytes_val bs.
Proof. induction 1; cbn [bytes_val]; lia. Qed.
Lemma shift4_ok sc : Forall (fun b => 0 <= b < 256) sc ->
  Forall (fun b => 0 <= b < 256) (shift4 sc) /\ length (shift4 sc) = length sc /\ bytes_val (shift4 sc) = bytes_val sc / 16.
Proof.
  induction 1 as [|a t A F (IF & IL & IV)]; [repeat split; constructor|].
  cbn [shift4 bytes_val length]. rewrite IV, IL.
  assert (HV := bytes_val_nonneg t F).
  assert (E : Z.lor (Z.shiftr a 4) (match t with [] => 0 | c :: _ => as_u8 (Z.shiftl c 4) end)
    = a / 16 + 16 * (bytes_val t mod 16)).
  { rewrite Z.shiftr_div_pow2 by lia. change (2 ^ 4) with 16.
    assert (A16 : 0 <= a / 16 < 16) by (split; [apply Z.div_pos; lia|apply Z.div_lt_upper_bound; lia]).
    replace (match t with [] => 0 | c :: _ => as_u8 (Z.shiftl c 4) end) with (16 * (bytes_val t mod 16)).
    - apply nibbles_lor; [exact A16|]. apply Z.mod_pos_bound. lia.
    - destruct t as [|c t]; [reflexivity|]. unfold as_u8. rewrite Z.shiftl_mul_pow2 by lia. change (2 ^ 4) with 16.
      cbn [bytes_val]. replace (c + 256 * bytes_val t) with (c + (16 * bytes_val t) * 16) by ring.
      rewrite Z.mod_add by lia. rewrite (Z.mul_comm c 16). change 256 with (16 * 16).
      rewrite Z.mul_mod_distr_l by lia. reflexivity. }
  rewrite E. pose proof (Z.mod_pos_bound (bytes_val t) 16 ltac:(lia)) as M.
  pose proof (Z.div_mod (bytes_val t) 16 ltac:(lia)) as DM.
  split; [|split; [reflexivity|]].
  - constructor; [|exact IF]. assert (0 <= a / 16 < 16) by (split; [apply Z.div_pos; lia|apply Z.div_lt_upper_bound; lia]). lia.
  - replace (a + 256 * bytes_val t) with (a + (16 * bytes_val t) * 16) by ring. rewrite Z.div_add by lia. lia.
Qed.

(** ** one round *)
Lemma round_byte a : 0 <= a < 256 ->
  (as_i8 (Z.land a 31) - 16 = a mod 32 - 16) /\ -16 <= a mod 32 - 16 <= 15 /\
  -128 <= as_i8 a - (a mod 32 - 16) <= 127 /\ as_u8 (as_i8 a - (a mod 32 - 16)) = a - a mod 32 + 16 /\
  a - a mod 32 + 16 < 256.
Proof.
  intros A.
  assert (H : forallb (fun a => (as_i8 (Z.land a 31) - 16 =? a mod 32 - 16) && (-16 <=? a mod 32 - 16) && (a mod 32 - 16 <=? 15) &&
     (-128 <=? as_i8 a - (a mod 32 - 16)) && (as_i8 a - (a mod 32 - 16) <=? 127) &&
     (as_u8 (as_i8 a - (a mod 32 - 16)) =? a - a mod 32 + 16) && (a - a mod 32 + 16 <? 256)) (range 0 256) = true)
    by (vm_compute; reflexivity).
  pose proof (check_range _ _ _ H a A) as G. cbv beta in G. rewrite !andb_true_iff, !Z.eqb_eq, !Z.leb_le, Z.ltb_lt in G. tauto.
Qed.
Lemma i8_sub_ok checked a b : -128 <= a - b <= 127 -> i8_sub checked a b = Ok (a - b).
Proof.
  intros [A B]. unfold i8_sub. cbv zeta. apply Z.leb_le in A. apply Z.leb_le in B. now rewrite A, B.
Qed.

Lemma recoding_round_ok checked naf sc : is_bytes 32 sc ->
  exists sc', recoding_round checked (naf, sc) = Ok (naf ++ [bytes_val sc mod 32 - 16], sc') /\
    is_bytes 32 sc' /\ bytes_val sc' = 2 * (bytes_val sc / 32) + 1.
Proof.
  intros [L F]. destruct sc as [|a t]; [discriminate|].
  assert (A : 0 <= a < 256) by (now inversion F). assert (T : Forall (fun b => 0 <= b < 256) t) by (now inversion F).
  unfold recoding_round. cbn [idx nth_error bind].
  destruct (round_byte a A) as (R1 & R2 & R3 & R4 & R5).
  rewrite i8_sub_ok by lia. cbn [bind]. rewrite R1. rewrite i8_sub_ok by exact R3. cbn [bind set]. rewrite R4.
  assert (M : bytes_val (a :: t) mod 32 = a mod 32).
  { cbn [bytes_val]. replace (a + 256 * bytes_val t) with (a + (8 * bytes_val t) * 32) by ring. apply Z.mod_add. lia. }
  rewrite M. eexists. split; [reflexivity|].
  assert (F' : Forall (fun b => 0 <= b < 256) (a - a mod 32 + 16 :: t)).
  { constructor; [|exact T]. pose proof (Z.mod_le a 32 ltac:(lia) ltac:(lia)). lia. }
  destruct (shift4_ok _ F') as (S1 & S2 & S3). split; [split; [rewrite S2; exact L|exact S1]|].
  rewrite S3. rewrite <- M. cbn [bytes_val].
  pose proof (Z.div_mod (a + 256 * bytes_val t) 32 ltac:(lia)) as DM.
  replace (a - (a + 256 * bytes_val t) mod 32 + 16 + 256 * bytes_val t)
    with ((2 * ((a + 256 * bytes_val t) / 32) + 1) * 16) by lia.
  apply Z.div_mul. lia.
Qed.

(** ** all rounds *)
Fixpoint dsum (ds : list Z) : Z := match ds with [] => 0 | d :: t => d + 16 * dsum t end.
Lemma dsum_app a c : dsum (a ++ c) = dsum a + 16 ^ Z.of_nat (length a) * dsum c.
Proof.
  induction a as [|x a IH]; [cbn [app dsum length]; change (16 ^ Z.of_nat 0) with 1; lia|].
  cbn [app dsum length]. rewrite IH, Nat2Z.inj_succ, Z.pow_succ_r by lia. ring.
Qed.
Definition digit_ok (d : Z) : Prop := Z.odd d = true /\ -15 <= d <= 15.

Lemma regular_recoding_ok checked sc N : is_bytes 32 sc -> bytes_val sc = N -> Z.odd N = true ->
  exists ds, let last := 2 * (N / 2 ^ 129) + 1 in
    regular_recoding checked sc = Ok (ds ++ [as_i8 (last mod 256)]) /\ length ds = 32%nat /\
    Forall digit_ok ds /\ N = dsum ds + 16 ^ 32 * last.
Proof.
  intros B V O. unfold regular_recoding.
  destruct (for_range_inv (fun i (st : list Z * list Z) => let '(naf, sc) := st in
      length naf = i /\ Forall digit_ok naf /\ is_bytes 32 sc /\
      bytes_val sc = 2 * (N / (2 * 16 ^ Z.of_nat i)) + 1 /\ N = dsum naf + 16 ^ Z.of_nat i * bytes_val sc)
    (fun _ st => recoding_round checked st) 0 (recoding_len - 1) ([], sc)) as ([naf sc'] & E & I).
  - cbv; lia.
  - split; [reflexivity|]. split; [constructor|]. split; [exact B|]. rewrite V. change (16 ^ Z.of_nat 0) with 1. rewrite Z.mul_1_r.
    cbn [dsum]. split; [|lia]. rewrite <- Z.div2_div.
    pose proof (Z.div2_odd N) as D. rewrite O in D. exact D.
  - intros i [naf s] _ (H1 & H2 & H3 & H4 & H5).
    destruct (recoding_round_ok checked naf s H3) as (s' & R1 & R2 & R3). rewrite R1. exists (naf ++ [bytes_val s mod 32 - 16], s').
    split; [reflexivity|].
    set (m := N / (2 * 16 ^ Z.of_nat i)) in *.
    assert (PI : 0 < 16 ^ Z.of_nat i) by (apply Z.pow_pos_nonneg; lia).
    assert (M32 : bytes_val s mod 32 = 2 * (m mod 16) + 1).
    { rewrite H4. pose proof (Z.div_mod m 16 ltac:(lia)). pose proof (Z.mod_pos_bound m 16 ltac:(lia)).
      symmetry. apply (Z.mod_unique _ _ (m / 16)); [left; lia|lia]. }
    assert (D32 : bytes_val s / 32 = m / 16).
    { rewrite H4. pose proof (Z.div_mod m 16 ltac:(lia)). pose proof (Z.mod_pos_bound m 16 ltac:(lia)).
      symmetry. apply (Z.div_unique _ _ _ (2 * (m mod 16) + 1)); [left; lia|lia]. }
    split; [rewrite app_length; cbn; lia|]. split; [|split; [exact R2|split]].
    + apply Forall_app. split; [exact H2|]. constructor; [|constructor]. rewrite M32. unfold digit_ok.
      pose proof (Z.mod_pos_bound m 16 ltac:(lia)). split; [|lia].
      replace (2 * (m mod 16) + 1 - 16) with (2 * (m mod 16 - 8) + 1) by ring.
      rewrite Z.add_comm, Z.odd_add_mul_2. reflexivity.
    + rewrite R3, D32. unfold m. rewrite Z.div_div by lia. rewrite Nat2Z.inj_succ, Z.pow_succ_r by lia.
      do 3 f_equal. ring.
    + rewrite dsum_app, H1, R3. cbn [dsum]. rewrite Nat2Z.inj_succ, Z.pow_succ_r by lia.
      pose proof (Z.div_mod (bytes_val s) 32 ltac:(lia)) as DM. rewrite H5 at 1.
      rewrite DM at 1. ring.
  - destruct I as (I1 & I2 & I3 & I4 & I5). change (Z.of_nat (recoding_len - 1)) with 32 in I4, I5.
    change (2 * 16 ^ 32) with (2 ^ 129) in I4.
    rewrite E. cbn [bind]. destruct sc' as [|a t]; [destruct I3; discriminate|]. cbn [idx nth_error bind].
    exists naf. cbv zeta. rewrite <- I4. split; [|split; [exact I1|split; [exact I2|exact I5]]].
    do 4 f_equal. cbn [bytes_val]. destruct I3 as [_ F]. inversion F; subst.
    symmetry. rewrite Z.mul_comm. rewrite Z.mod_add by lia. apply Z.mod_small. assumption.
Qed.
